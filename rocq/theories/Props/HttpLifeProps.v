(** C110-C118: the life cycle of HttpServer and HttpClient
    (src/cppnet/http/server/http_server.cpp, src/cppnet/http/client/http_client.cpp). *)
From Verif.Model Require Import HttpLife.
From Verif.Spec Require Import TcpServerSpec.
From Verif.Props Require Import AddressProps ServerInitProps ServerLoopProps.

Local Open Scope Z_scope.

(** * C110: Run serves exactly when the server is initialised *)
(** Whether the server counts as initialised after a call that returned [rc]: the
    calls of InitSSL that are refused because of their arguments change nothing. *)
Definition expects (m : mode) (up : bool) (o : hop) (rc : Z) : bool :=
  match o with
  | HStop _ _ => false
  | HInit _ _ => bool_decide (rc = kSuccess)
  | HInitSSL _ c _ => if decide (m = kMixed ∨ c = None) then up else bool_decide (rc = kSuccess)
  end.
Fixpoint calling (m : mode) (ops : list hop) (h : hsrv) (k : kern) (up : bool) : hsrv * kern * bool :=
  match ops with
  | [] => (h, k, up)
  | o :: ops' => let '(rc, h', k') := hop_step o h k in calling m ops' h' k' (expects m up o rc)
  end.
(** EventLoop has begun: it will look at the flags and wait for events. *)
Definition serving (r : Z + st) : Prop :=
  ∃ s, r = inr s ∧ s_loop s = LTop ∧ ∃ s', loop_step s AOk = Some s' ∧ s_loop s' = LWait.
(** It returns an error at once. *)
Definition refuses (r : Z + st) : Prop := ∃ rc, rc < 0 ∧ (r = inl rc ∨ ∃ s, r = inr s ∧ s_loop s = LRet rc).

Lemma srv_init_shape a v k : let '(rc, v', _) := srv_init a v k in
  sv_mode v' = sv_mode v ∧
  (rc = kSuccess → so_status (sv_lis v') = kInit ∧ sv_flag v' = true ∧
     (sv_mode v ≠ kMultiThread → ∃ e, sv_io v' = Some e ∧ ep_flag e = true)) ∧
  (rc ≠ kSuccess → rc = kSysErr ∧ so_status (sv_lis v') ≠ kInit).
Proof.
  unfold srv_init, create_socket. destruct (an_socket a <? 0); simpl; [done|]. destruct (an_reuse a); simpl; [|done].
  destruct (_ || _); simpl; [done|]. destruct (an_bind a); simpl; [|done]. destruct (an_listen a); simpl; [|done].
  unfold init_mode. simpl. destruct (sv_mode v); simpl; [| |].
  2: done.
  all: unfold epoll_init, epoll_monitor; simpl; case_decide; simpl; [|done]; destruct (an_ctl a); simpl; [|done].
  all: split; [done|]; split; [|done]; intros _; split; [done|]; split; [done|]; intros _; by eexists.
Qed.
Lemma http_init_shape ad a h k : let '(rc, h', _) := http_init ad a h k in
  hs_go h' = true ∧ hs_ctx h' = hs_ctx h ∧ sv_mode (hs_tcp h') = sv_mode (hs_tcp h) ∧
  (rc = kSuccess → so_status (sv_lis (hs_tcp h')) = kInit ∧ sv_flag (hs_tcp h') = true ∧
     (sv_mode (hs_tcp h) ≠ kMultiThread → ∃ e, sv_io (hs_tcp h') = Some e ∧ ep_flag e = true)) ∧
  (rc ≠ kSuccess → rc = kSysErr ∧ so_status (sv_lis (hs_tcp h')) ≠ kInit).
Proof.
  unfold http_init. pose proof (srv_init_shape a (set_addr ad (hs_tcp h)) k) as H. destruct (srv_init _ _ _) as [[rc v] k1].
  simpl in H. destruct H as (Hm & H1 & H2). destruct (Z.eqb_spec rc kSuccess) as [->|Hn]; simpl; [|done].
  split; [done|]. split; [done|]. split; [done|]. split; [|done]. intros _. by apply H1.
Qed.
Lemma http_stop_shape r ok h k : let '(h', _) := http_stop r ok h k in
  hs_go h' = false ∧ hs_ctx h' = hs_ctx h ∧ sv_mode (hs_tcp h') = sv_mode (hs_tcp h).
Proof.
  unfold http_stop. destruct (hs_go h) eqn:E; simpl; [|done]. destruct (srv_wakeup _ _ _ _) as [z k1].
  destruct (srv_clean _ _) as [v2 k2] eqn:Ec. simpl. split; [done|]. split; [done|]. unfold srv_clean in Ec.
  assert (sv_mode (srv_stop (hs_tcp h)) = sv_mode (hs_tcp h)) as Hs by (unfold srv_stop; by case_decide).
  destruct (close_sock _ _) as [l k3]. destruct (sv_io _) as [e|]; [destruct (close_sock _ _) as [s k4]|]; by injection Ec as <- <-.
Qed.

Theorem http_run_iff m ops k n :
  let '(h, k', up) := calling m ops (hsrv_new m) k false in
  if up then serving (http_run n h k') else refuses (http_run n h k').
Proof.
  assert (Hg : ∀ ops h k up, sv_mode (hs_tcp h) = m →
    (if up : bool then hs_go h = true ∧ so_status (sv_lis (hs_tcp h)) = kInit ∧ sv_flag (hs_tcp h) = true ∧
       (m ≠ kMultiThread → ∃ e, sv_io (hs_tcp h) = Some e ∧ ep_flag e = true)
     else hs_go h = false ∨ so_status (sv_lis (hs_tcp h)) ≠ kInit) →
    let '(h, k', up) := calling m ops h k up in
    if up then serving (http_run n h k') else refuses (http_run n h k')).
  { clear ops k. induction ops as [|o ops IH]; intros h k up Hm Hup; cbn [calling].
    - destruct up; simpl.
      + destruct Hup as (Hgo & Hs & Hf & He). unfold serving, http_run, loop_start. rewrite Hgo. simpl. eexists. split; [done|].
        rewrite decide_True by done. rewrite decide_False.
        2: { intros [Hx Hy]. rewrite Hm in Hy. destruct (He Hy) as (e & E & _). by rewrite E in Hx. }
        split; [done|]. unfold loop_step. simpl. rewrite Hm. destruct m.
        * destruct (He ltac:(done)) as (e & E & Ef). unfold ep_of. simpl. rewrite E, Ef. by eexists.
        * rewrite Hf. by eexists.
        * destruct (He ltac:(done)) as (e & E & Ef). unfold ep_of. simpl. rewrite E, Ef. by eexists.
      + exists kLogicErr. split; [done|]. unfold http_run. destruct (hs_go h) eqn:Eg; simpl; [|by left]. right. eexists. split; [done|].
        destruct Hup as [Hx|Hx]; [done|]. simpl. by rewrite decide_False.
    - destruct o as [ad a|ad c a|r ok]; cbn [hop_step].
      + pose proof (http_init_shape ad a h k) as H. destruct (http_init ad a h k) as [[rc h'] k']. destruct H as (H1 & _ & H2 & H3 & H4).
        apply IH; [congruence|]. simpl. case_bool_decide as Hrc; [|right; by apply H4]. destruct (H3 Hrc) as (Ha & Hb & Hc).
        split; [done|]. split; [done|]. split; [done|]. by rewrite <- Hm.
      + unfold http_init_ssl. simpl. destruct (decide (sv_mode (hs_tcp h) = kMixed)) as [Hx|Hx].
        { apply IH; [done|].
          destruct (decide (m = kMixed ∨ c = None)) as [|Hn]; [done|]. exfalso. apply Hn. left. congruence. }
        destruct (decide (c = None)) as [->|Hc].
        { apply IH; [done|]. destruct (decide (m = kMixed ∨ None = None)) as [|Hn]; [done|]. exfalso. apply Hn. by right. }
        pose proof (http_init_shape ad a h k) as H. destruct (http_init ad a h k) as [[rc h'] k']. destruct H as (H1 & _ & H2 & H3 & H4).
        assert (¬ (m = kMixed ∨ c = None)) as Hn by (intros [?|?]; congruence).
        destruct (Z.eqb_spec rc kSuccess) as [Hrc|Hrc]; simpl; apply IH; simpl; try congruence; rewrite decide_False by done.
        * destruct (H3 Hrc) as (Ha & Hb & Hd). split; [done|]. split; [done|]. split; [done|]. by rewrite <- Hm.
        * rewrite bool_decide_false by done. right. by apply H4.
      + pose proof (http_stop_shape r ok h k) as H. destruct (http_stop r ok h k) as [h' k']. destruct H as (H1 & _ & H2).
        apply IH; [congruence|]. simpl. by left. }
  apply Hg; [done|]. by left.
Qed.
Print Assumptions http_run_iff.

Definition good : answers := Answers 3 true true true 4 true.
Definition bad : answers := Answers 3 true false true 4 true.
(** Started, stopped, started again; and a second start that fails. *)
Example http_run_ex :
  (∃ h k, calling kMixed [HInit addr80 good; HStop (-1) true; HInit addr80 good] (hsrv_new kMixed) nothing false = (h, k, true)) ∧
  (∃ h k, calling kMixed [HInit addr80 good; HInit addr80 bad] (hsrv_new kMixed) nothing false = (h, k, false)) ∧
  (∃ h k, calling kMixed [HInit addr80 good; HInitSSL addr80 (Some (Some 0%nat)) good] (hsrv_new kMixed) nothing false = (h, k, true)).
Proof. split_and!; by eexists _, _. Qed.

(** * C111: Stop gives everything back *)
(** The answers of the kernel are possible at each call. *)
Fixpoint possible_all (ops : list hop) (h : hsrv) (k : kern) : Prop :=
  match ops with
  | [] => True
  | o :: ops' =>
      match o with
      | HInit _ a | HInitSSL _ _ a => possible a k
      | HStop r _ => 0 <= r → k_fds k !! r = None
      end ∧ let '(_, h', k') := hop_step o h k in possible_all ops' h' k'
  end.
Definition http_stop_full : Prop := ∀ m ops r ok k,
  let all := ops ++ [HStop r ok] in
  possible_all all (hsrv_new m) k → let '(_, k', _) := calling m all (hsrv_new m) k false in k_fds k' = k_fds k.
(** Two calls of Init: the first listening socket stays open. *)
Theorem http_stop_refuted : ¬ http_stop_full.
Proof.
  intros H. specialize (H kMultiThread [HInit addr80 good; HInit addr80 (Answers 5 true true true 6 true)] (-1) true nothing).
  assert (Hp : possible_all ([HInit addr80 good; HInit addr80 (Answers 5 true true true 6 true)] ++ [HStop (-1) true]) (hsrv_new kMultiThread) nothing).
  { vm_compute. split_and!; try done; by split. }
  specialize (H Hp). destruct (calling _ _ _ _ _) as [[h k'] up] eqn:E. vm_compute in E. injection E as <- <- <-.
  assert (k_fds nothing !! 3 = None) as Hn by done. rewrite <- H in Hn. by vm_compute in Hn.
Qed.
Print Assumptions http_stop_refuted.
Lemma calling_mode m ops : ∀ h k up, sv_mode (hs_tcp h) = m → (m = kMultiThread → sv_io (hs_tcp h) = None) →
  let '(h', _, _) := calling m ops h k up in sv_mode (hs_tcp h') = m ∧ (m = kMultiThread → sv_io (hs_tcp h') = None).
Proof.
  assert (Hi : ∀ ad a h k, sv_mode (hs_tcp h) = m → (m = kMultiThread → sv_io (hs_tcp h) = None) →
    let '(_, h', _) := http_init ad a h k in sv_mode (hs_tcp h') = m ∧ (m = kMultiThread → sv_io (hs_tcp h') = None)).
  { intros ad a h k Hm Hi. pose proof (http_init_shape ad a h k) as Hs. destruct (http_init ad a h k) as [[rc h'] k'] eqn:E.
    destruct Hs as (_ & _ & Hs & _). split; [congruence|]. intros ->. specialize (Hi eq_refl). revert E.
    unfold http_init, srv_init, create_socket. simpl. destruct (an_socket a <? 0); simpl; [by intros [= <- <- <-]|].
    destruct (an_reuse a); simpl; [|by intros [= <- <- <-]]. destruct (_ || _); simpl; [by intros [= <- <- <-]|].
    destruct (an_bind a); simpl; [|by intros [= <- <- <-]]. destruct (an_listen a); simpl; [|by intros [= <- <- <-]].
    unfold init_mode. simpl. rewrite Hm. simpl. by intros [= <- <- <-]. }
  induction ops as [|o ops IH]; intros h k up Hm Hn; cbn [calling]; [done|]. destruct o as [ad a|ad c a|r ok]; cbn [hop_step].
  - specialize (Hi ad a h k Hm Hn). destruct (http_init ad a h k) as [[rc h'] k']. destruct Hi. by apply IH.
  - unfold http_init_ssl. case_decide; [by apply IH|]. case_decide; [by apply IH|].
    specialize (Hi ad a h k Hm Hn). destruct (http_init ad a h k) as [[rc h'] k']. destruct Hi. destruct (negb _); by apply IH.
  - pose proof (http_stop_shape r ok h k) as Hs. destruct (http_stop r ok h k) as [h' k'] eqn:E. destruct Hs as (_ & _ & Hs).
    apply IH; [congruence|]. intros ->. specialize (Hn eq_refl). revert E. unfold http_stop. destruct (hs_go h); simpl; [|by intros [= <- <-]].
    destruct (srv_wakeup _ _ _ _) as [z k1]. unfold srv_clean. assert (sv_io (srv_stop (hs_tcp h)) = None) as -> by (unfold srv_stop; destruct (decide _); cbn [sv_io]; rewrite ?Hn; by destruct (sv_mode _)).
    destruct (close_sock _ _). by intros [= <- <-].
Qed.
(** After any calls: one Init that succeeds, then Stop: everything is as before
    that Init, if WakeUp can connect (or does not get a socket). *)
Theorem http_stop_partial m ops k0 ad a r ok :
  let '(h, k, _) := calling m ops (hsrv_new m) k0 false in
  possible a k → m = kIOMultiplexing ∨ r < 0 ∨ ok = true →
  let '(rc, h1, k1) := http_init ad a h k in
  rc = kSuccess → let '(h2, k2) := http_stop r ok h1 k1 in
  k_fds k2 = k_fds k ∧ so_status (sv_lis (hs_tcp h2)) = kClosed ∧ (∀ n, http_run n h2 k2 = inl kLogicErr) ∧ ∀ r' ok', http_stop r' ok' h2 k2 = (h2, k2).
Proof.
  pose proof (calling_mode m ops (hsrv_new m) k0 false eq_refl (λ _, eq_refl)) as Hc.
  destruct (calling m ops (hsrv_new m) k0 false) as [[h k] up]. destruct Hc as [Hm Hio].
  intros [H1 H2] Hw. unfold http_init, srv_init, create_socket. simpl.
  destruct (Z.ltb_spec (an_socket a) 0); simpl; [done|]. specialize (H1 ltac:(lia)).
  destruct (an_reuse a); simpl; [|done]. destruct (_ || _); simpl; [done|].
  destruct (an_bind a); simpl; [|done]. destruct (an_listen a); simpl; [|done].
  unfold init_mode. simpl. rewrite Hm.
  destruct m; simpl; unfold epoll_init, epoll_monitor, sock_of_fd; simpl.
  - destruct (Z.ltb_spec (an_epoll a) 0); simpl; [done|]. destruct (H2 ltac:(lia)) as [H3 H4]. destruct (an_ctl a); simpl; [|done]. intros _.
    unfold http_stop. simpl. unfold srv_clean, close_sock. simpl. split; [|done].
    rewrite insert_insert, insert_commute, delete_insert, delete_insert; try done; by rewrite lookup_insert_ne.
  - intros _. unfold http_stop. simpl. unfold srv_wakeup. simpl. rewrite (Hio eq_refl). simpl.
    destruct (Z.ltb_spec r 0); [|destruct ok]; [..|destruct Hw as [Hw|[Hw|Hw]]; [done|lia|done]]; unfold srv_clean, close_sock; simpl.
    all: (split; [|done]); by rewrite insert_insert, delete_insert.
  - destruct (Z.ltb_spec (an_epoll a) 0); simpl; [done|]. destruct (H2 ltac:(lia)) as [H3 H4]. destruct (an_ctl a); simpl; [|done]. intros _.
    unfold http_stop. simpl. unfold srv_wakeup. simpl.
    destruct (Z.ltb_spec r 0); [|destruct ok]; [..|destruct Hw as [Hw|[Hw|Hw]]; [done|lia|done]]; unfold srv_clean, close_sock; simpl.
    all: (split; [|done]);
      (rewrite insert_insert, insert_commute, delete_insert, delete_insert; try done; by rewrite lookup_insert_ne).
Qed.
Print Assumptions http_stop_partial.
Example http_stop_ex : possible good nothing ∧ (http_init addr80 good (hsrv_new kMixed) nothing).1.1 = kSuccess.
Proof. split; [by split|by vm_compute]. Qed.

(** * C112: Init makes a plain server, InitSSL a TLS server *)
Definition http_plain_full : Prop := ∀ m ops ad a k,
  let '(h, k', _) := calling m ops (hsrv_new m) k false in
  let '(rc, h', _) := http_init ad a h k' in rc = kSuccess → hs_ctx h' = None.
(** After InitSSL and Stop, Init restarts a TLS server. *)
Theorem http_plain_refuted : ¬ http_plain_full.
Proof.
  intros H. specialize (H kIOMultiplexing [HInitSSL addr80 (Some (Some 0%nat)) good; HStop (-1) true] addr80 good nothing). by specialize (H eq_refl).
Qed.
Print Assumptions http_plain_refuted.
(** Without earlier calls of InitSSL the server is plain; InitSSL always sets the
    context it is given, and refuses mixed mode and a null pointer. *)
Theorem http_plain_partial m ops ad a k c :
  let '(h, k', _) := calling m ops (hsrv_new m) k false in
  (Forall (λ o, match o with HInitSSL _ _ _ => False | _ => True end) ops →
   let '(rc, h', _) := http_init ad a h k' in rc = kSuccess → hs_ctx h' = None) ∧
  (let '(rc, h', _) := http_init_ssl ad c a h k' in
   (rc = kSuccess → hs_ctx h' = c ∧ c ≠ None ∧ m ≠ kMixed) ∧ (rc ≠ kSuccess → hs_ctx h' = hs_ctx h)).
Proof.
  destruct (calling m ops (hsrv_new m) k false) as [[h k'] up] eqn:E.
  assert (Hg : ∀ ops h0 k0 up0, calling m ops h0 k0 up0 = (h, k', up) → sv_mode (hs_tcp h0) = m →
    sv_mode (hs_tcp h) = m ∧ (Forall (λ o, match o with HInitSSL _ _ _ => False | _ => True end) ops → hs_ctx h = hs_ctx h0)).
  { clear E ops k. induction ops as [|o ops IH]; intros h0 k0 up0 E Hm; cbn [calling] in E; [by injection E as -> -> ->|].
    destruct o as [ad' a'|ad' c' a'|r ok]; cbn [hop_step] in E.
    - pose proof (http_init_shape ad' a' h0 k0) as H. destruct (http_init ad' a' h0 k0) as [[rc h1] k1]. destruct H as (_ & Hc & Hm1 & _).
      destruct (IH _ _ _ E) as [Ha Hb]; [congruence|]. split; [done|]. intros [_ Hf]%Forall_cons. rewrite Hb; done.
    - assert (sv_mode (hs_tcp (http_init_ssl ad' c' a' h0 k0).1.2) = m) as Hx.
      { unfold http_init_ssl. case_decide; [done|]. case_decide; [done|]. pose proof (http_init_shape ad' a' h0 k0) as H'.
        destruct (http_init ad' a' h0 k0) as [[rc1 h2] k2]. destruct H' as (_ & _ & Hm1 & _). destruct (negb _); simpl; congruence. }
      destruct (http_init_ssl ad' c' a' h0 k0) as [[rc h1] k1] eqn:Ei. destruct (IH _ _ _ E) as [Ha _]; [done|]. split; [done|]. by intros [? _]%Forall_cons.
    - pose proof (http_stop_shape r ok h0 k0) as H. destruct (http_stop r ok h0 k0) as [h1 k1]. destruct H as (_ & Hc & Hm1).
      destruct (IH _ _ _ E) as [Ha Hb]; [congruence|]. split; [done|]. intros [_ Hf]%Forall_cons. rewrite Hb; done. }
  destruct (Hg _ _ _ _ E eq_refl) as [Hm Hc]. clear Hg E. split.
  - intros Hf. pose proof (http_init_shape ad a h k') as H. destruct (http_init ad a h k') as [[rc h1] k1]. destruct H as (_ & -> & _). intros _. by rewrite Hc.
  - unfold http_init_ssl. case_decide as Hx; [done|]. case_decide as Hy; [done|]. pose proof (http_init_shape ad a h k') as H.
    destruct (http_init ad a h k') as [[rc h1] k1]. destruct H as (_ & Hc1 & _). destruct (Z.eqb_spec rc kSuccess) as [->|Hn]; simpl; [|done].
    split; [|done]. intros _. split; [done|]. split; [done|]. congruence.
Qed.
Print Assumptions http_plain_partial.
Example http_plain_ex : (http_init_ssl addr80 (Some (Some 0%nat)) good (hsrv_new kMultiThread) nothing).1.1 = kSuccess ∧
  (http_init_ssl addr80 (Some (Some 0%nat)) good (hsrv_new kMixed) nothing).1.1 = kNotSupport.
Proof. by vm_compute. Qed.

(** * C113: each connection has its own TLS session *)
(** The open connections with the session that their accept made. *)
Notation conns := (gmap Z nat).
Definition legal (g : conns) (e : tev) : Prop :=
  match e with
  | VAcc fd _ _ _ => g !! fd = None ∧ 0 <= fd
  | VRead fd _ | VLeave fd | VError fd => is_Some (g !! fd)
  end.
(** After the callback: a connection that the server did not close is open; after
    leave and error events TcpServer closes it. *)
Definition after (g : conns) (s : tstate) (e : tev) (d : tdone) : conns :=
  match e with
  | VAcc fd _ _ _ => if td_closed d then g else <[fd := hp_next (t_heap s)]> g
  | VRead fd _ => if td_closed d then delete fd g else g
  | VLeave fd | VError fd => delete fd g
  end.
Inductive tls_reach (x : option nat) (h0 : heap) (ok : tev → Prop) : conns → tstate → Prop :=
| tls_start : tls_reach x h0 ok ∅ (Tst ∅ h0)
| tls_next g s e : tls_reach x h0 ok g s → legal g e → ok e →
    tls_reach x h0 ok (after g s e (tls_step x s e)) (td_st (tls_step x s e)).
(** A library that hands out new objects; none of them is a session yet. *)
Definition clean_heap (h : heap) : Prop := ∀ i o, hp h !! i = Some o → (i < hp_next h)%nat ∧ o ≠ HSsl.

Record tls_inv (g : conns) (s : tstate) : Prop := {
  ti_fresh i o : hp (t_heap s) !! i = Some o → (i < hp_next (t_heap s))%nat;
  ti_conn fd i : g !! fd = Some i → t_map s !! fd = Some (Ssock (Sock fd kInit) (Some i)) ∧ hp (t_heap s) !! i = Some HSsl;
  ti_inj fd fd' z z' i : t_map s !! fd = Some z → t_map s !! fd' = Some z' → ss_ssl z = Some i → ss_ssl z' = Some i → fd = fd';
  ti_old fd z i : t_map s !! fd = Some z → ss_ssl z = Some i → (i < hp_next (t_heap s))%nat }.
Lemma tls_inv_step x g s e : tls_inv g s → legal g e → tls_inv (after g s e (tls_step x s e)) (td_st (tls_step x s e)).
Proof.
  intros [Hf Hc Hi Ho] Hl. destruct e as [fd ad m rc|fd cl|fd|fd]; simpl in *.
  - destruct ad; simpl; [|done]. unfold accept_ssl. destruct x as [x|]; [|done]. destruct (me_ssl m); simpl; [|done].
    destruct (Z.ltb_spec rc 0); simpl.
    { split; simpl.
      - intros i o Hio. apply lookup_delete_Some in Hio as [? Hio]. rewrite lookup_insert_ne in Hio by done. apply Hf in Hio. lia.
      - intros fd' i Hg. destruct (Hc fd' i Hg) as [H1 H2]. split; [done|]. apply Hf in H2 as H3.
        rewrite lookup_delete_ne, lookup_insert_ne by lia. done.
      - done.
      - intros fd' z i H1 H2. specialize (Ho _ _ _ H1 H2). lia. }
    destruct Hl as [Hg Hp]. assert (sock_of_fd fd = Sock fd kInit) as -> by (unfold sock_of_fd; by destruct (Z.ltb_spec fd 0); [lia|]).
    simpl. split; simpl.
    + intros i o Hio. apply lookup_insert_Some in Hio as [[<- _]|[_ Hio]]; [lia|]. apply Hf in Hio. lia.
    + intros fd' i Hg'. apply lookup_insert_Some in Hg' as [[<- <-]|[Hn Hg']]; [by rewrite !lookup_insert|].
      destruct (Hc _ _ Hg') as [H1 H2]. rewrite lookup_insert_ne by done. split; [done|].
      apply Hf in H2 as H3. by rewrite lookup_insert_ne by lia.
    + intros f f' z z' i H1 H2 H3 H4. apply lookup_insert_Some in H1 as [[<- <-]|[Hn1 H1]]; apply lookup_insert_Some in H2 as [[<- <-]|[Hn2 H2]]; try done.
      * simpl in H3. injection H3 as <-. specialize (Ho _ _ _ H2 H4). lia.
      * simpl in H4. injection H4 as <-. specialize (Ho _ _ _ H1 H3). lia.
      * by eapply Hi.
    + intros f z i H1 H2. apply lookup_insert_Some in H1 as [[<- <-]|[Hn1 H1]]; [injection H2 as <-; lia|]. specialize (Ho _ _ _ H1 H2). lia.
  - destruct Hl as [i0 Hg]. destruct (Hc _ _ Hg) as [Hm Hh]. rewrite Hm. destruct cl; simpl; [|done].
    unfold ssock_close, close_ssl. simpl. split; simpl.
    + intros i o Hio. apply lookup_delete_Some in Hio as [? Hio]. by eapply Hf.
    + intros f i Hf'. apply lookup_delete_Some in Hf' as [Hn Hf']. destruct (Hc _ _ Hf') as [H1 H2]. rewrite lookup_insert_ne by done. split; [done|].
      rewrite lookup_delete_ne; [done|]. intros ->. apply Hn. by eapply Hi.
    + intros f f' z z' i H1 H2 H3 H4. apply lookup_insert_Some in H1 as [[<- <-]|[Hn1 H1]]; [done|]. apply lookup_insert_Some in H2 as [[<- <-]|[Hn2 H2]]; [done|].
      by eapply Hi.
    + intros f z i H1 H2. apply lookup_insert_Some in H1 as [[<- <-]|[Hn1 H1]]; [done|]. by eapply Ho.
  - destruct Hl as [i0 Hg]. destruct (Hc _ _ Hg) as [Hm Hh]. rewrite Hm. unfold close_ssl. simpl. split; simpl.
    + intros i o Hio. apply lookup_delete_Some in Hio as [? Hio]. by eapply Hf.
    + intros f i Hf'. apply lookup_delete_Some in Hf' as [Hn Hf']. destruct (Hc _ _ Hf') as [H1 H2]. rewrite lookup_delete_ne by done. split; [done|].
      rewrite lookup_delete_ne; [done|]. intros ->. apply Hn. by eapply Hi.
    + intros f f' z z' i H1 H2 H3 H4. apply lookup_delete_Some in H1 as [_ H1]. apply lookup_delete_Some in H2 as [_ H2]. by eapply Hi.
    + intros f z i H1 H2. apply lookup_delete_Some in H1 as [_ H1]. by eapply Ho.
  - split; simpl; [done| |done|done]. intros f i Hf'. apply lookup_delete_Some in Hf' as [_ Hf']. by apply Hc.
Qed.
Lemma tls_inv_reach x h0 ok g s : clean_heap h0 → tls_reach x h0 ok g s → tls_inv g s.
Proof.
  intros Hc. induction 1 as [|g s e _ IH Hl _]; [|by apply tls_inv_step]. split; simpl; try done.
  intros i o Hi. by apply Hc in Hi as [? _].
Qed.
(** A read event of a connection is served with the session that its accept made,
    which is alive; two open connections have different sessions. *)
Theorem tls_own_session x h0 g s fd i cl :
  clean_heap h0 → tls_reach x h0 (λ _, True) g s → g !! fd = Some i →
  hp (t_heap s) !! i = Some HSsl ∧ td_used (tls_step x s (VRead fd cl)) = Some (Some i) ∧ td_closed (tls_step x s (VRead fd cl)) = cl ∧
  ∀ fd', g !! fd' = Some i → fd' = fd.
Proof.
  intros Hh Hr Hg. destruct (tls_inv_reach _ _ _ _ _ Hh Hr) as [Hf Hc Hi Ho]. destruct (Hc _ _ Hg) as [Hm H1]. split; [done|].
  simpl. rewrite Hm. split_and!.
  - by destruct cl.
  - by destruct cl.
  - intros fd' Hg'. destruct (Hc _ _ Hg') as [Hm' _]. by eapply Hi.
Qed.
Print Assumptions tls_own_session.
Definition mem_ok : memory := Memory true true true true.
Definition heap1 : heap := Heap {[ 0%nat := HCtx (Some (B "c")) (Some (B "k")) None ]} 1.
Lemma heap1_clean : clean_heap heap1.
Proof. intros i o H. simpl in H. apply lookup_singleton_Some in H as [<- <-]. simpl. split; [lia|done]. Qed.
(** Two connections; the first leaves, its number is used again. *)
Example tls_own_session_ex : ∃ g s, tls_reach (Some 0%nat) heap1 (λ e, match e with VError _ => False | _ => True end) g s ∧ g !! 5 = Some 3%nat ∧ g !! 6 = Some 2%nat.
Proof.
  pose proof (tls_start (Some 0%nat) heap1 (λ e, match e with VError _ => False | _ => True end)) as R.
  pose proof (tls_next _ _ _ _ _ (VAcc 5 true mem_ok 1) R ltac:(done) I) as R1.
  pose proof (tls_next _ _ _ _ _ (VAcc 6 true mem_ok 1) R1 ltac:(done) I) as R2.
  pose proof (tls_next _ _ _ _ _ (VLeave 5) R2 ltac:(vm_compute; by eexists) I) as R3.
  pose proof (tls_next _ _ _ _ _ (VAcc 5 true mem_ok 1) R3 ltac:(done) I) as R4.
  eexists _, _. split; [exact R4|]. by vm_compute.
Qed.

(** * C114: the sessions that exist are those of the open connections *)
Definition tls_no_leak_full : Prop := ∀ x h0 g s, clean_heap h0 → tls_reach x h0 (λ _, True) g s →
  ∀ i, hp (t_heap s) !! i = Some HSsl → ∃ fd, g !! fd = Some i.
(** The error event leaves the session behind. *)
Theorem tls_no_leak_refuted : ¬ tls_no_leak_full.
Proof.
  intros H. pose proof (tls_start (Some 0%nat) heap1 (λ _, True)) as R.
  pose proof (tls_next _ _ _ _ _ (VAcc 5 true mem_ok 1) R ltac:(done) I) as R1.
  pose proof (tls_next _ _ _ _ _ (VError 5) R1 ltac:(vm_compute; by eexists) I) as R2.
  destruct (H _ _ _ _ heap1_clean R2 1%nat) as [fd Hfd]; [done|]. cbn [after] in Hfd. apply lookup_delete_Some in Hfd as [Hn Hfd].
  change (<[5 := 1%nat]> (∅ : conns) !! fd = Some 1%nat) in Hfd. by rewrite lookup_insert_ne, lookup_empty in Hfd by done.
Qed.
Print Assumptions tls_no_leak_refuted.
(** It holds as long as there are no error events. *)
Theorem tls_no_leak_partial x h0 g s i :
  clean_heap h0 → tls_reach x h0 (λ e, match e with VError _ => False | _ => True end) g s →
  hp (t_heap s) !! i = Some HSsl ↔ ∃ fd, g !! fd = Some i.
Proof.
  intros Hh Hr. split; [|intros [fd Hg]; by eapply (ti_conn _ _ (tls_inv_reach _ _ _ _ _ Hh Hr))].
  induction Hr as [|g s e Hr IH Hl Hok]; simpl; [intros H; by apply Hh in H as [_ ?]|].
  pose proof (tls_inv_reach _ _ _ _ _ Hh Hr) as [Hf Hc Hi Ho]. destruct e as [fd ad m rc|fd cl|fd|fd]; simpl in *.
  - destruct ad; simpl; [|done]. unfold accept_ssl. destruct x as [x|]; [|done]. destruct (me_ssl m); simpl; [|done].
    destruct (Z.ltb_spec rc 0); simpl.
    + intros H1. apply lookup_delete_Some in H1 as [? H1]. rewrite lookup_insert_ne in H1 by done. by apply IH.
    + intros H1. apply lookup_insert_Some in H1 as [[<- _]|[Hn H1]]; [exists fd; by rewrite lookup_insert|].
      destruct (IH H1) as [f Hg]. exists f. rewrite lookup_insert_ne; [done|]. intros ->. destruct Hl as [Hl _]. congruence.
  - destruct Hl as [i0 Hg]. destruct (Hc _ _ Hg) as [Hm Hhp]. rewrite Hm. destruct cl; simpl; [|done].
    unfold ssock_close, close_ssl. simpl. intros H1. apply lookup_delete_Some in H1 as [Hn H1]. destruct (IH H1) as [f Hgf].
    exists f. rewrite lookup_delete_ne; [done|]. intros ->. congruence.
  - destruct Hl as [i0 Hg]. destruct (Hc _ _ Hg) as [Hm Hhp]. rewrite Hm. unfold close_ssl. simpl.
    intros H1. apply lookup_delete_Some in H1 as [Hn H1]. destruct (IH H1) as [f Hgf].
    exists f. rewrite lookup_delete_ne; [done|]. intros ->. congruence.
  - done.
Qed.
Print Assumptions tls_no_leak_partial.
Example tls_no_leak_ex : ∃ g s, tls_reach (Some 0%nat) heap1 (λ e, match e with VError _ => False | _ => True end) g s ∧ g !! 5 = Some 3%nat ∧
  hp (t_heap s) !! 3%nat = Some HSsl ∧ hp (t_heap s) !! 1%nat = None.
Proof.
  pose proof (tls_start (Some 0%nat) heap1 (λ e, match e with VError _ => False | _ => True end)) as R.
  pose proof (tls_next _ _ _ _ _ (VAcc 5 true mem_ok 1) R ltac:(done) I) as R1.
  pose proof (tls_next _ _ _ _ _ (VAcc 6 true mem_ok 1) R1 ltac:(done) I) as R2.
  pose proof (tls_next _ _ _ _ _ (VRead 5 true) R2 ltac:(vm_compute; by eexists) I) as R3.
  pose proof (tls_next _ _ _ _ _ (VAcc 5 true mem_ok 1) R3 ltac:(done) I) as R4.
  eexists _, _. split; [exact R4|]. by vm_compute.
Qed.

(** * C115: ssl_sockets_map_ is used by one thread at a time *)
Definition in_callback (s : st) (t : option nat) : Prop :=
  match t with
  | None => ∃ e own k, s_loop s = LIn e own k
  | Some i => ∃ e own soc once, s_workers s !! i = Some (VIn e own soc once)
  end.
(** In the modes that InitSSL accepts. *)
Definition one_callback_full : Prop := ∀ m n l e others s t t',
  m ≠ kMixed → others_ok others l e → reach anything (booted m n l e others) s → in_callback s t → in_callback s t' → t = t'.
(** kMultiThread: two workers run HandleAccept, which inserts into the map. *)
Definition race_run : list label :=
  [GLoop AOk; GLoop AOk; EConn; GLoop (AFd 5); GLoop AOk; GLoop AOk; GLoop AOk; EConn; GLoop (AFd 6); GLoop AOk; GWork 0; GWork 1].
Theorem one_callback_refuted : ¬ one_callback_full.
Proof.
  intros H. destruct (run (srv3 kMultiThread 2) race_run) as [s|] eqn:E; [|by vm_compute in E].
  specialize (H kMultiThread 2%nat 3 4 {[ 0; 1; 2 ]} s (Some 0%nat) (Some 1%nat) ltac:(done) others3 (reach3 _ _ _ _ E)).
  vm_compute in E. injection E as <-. discriminate H; by eexists _, _, _, _.
Qed.
Print Assumptions one_callback_refuted.
(** In kIOMultiplexing mode only the thread that is in Run is ever inside one. *)
Record alone (s : st) : Prop := {
  al_mode : sv_mode (s_v s) = kIOMultiplexing; al_queue : s_queue s = []; al_workers : Forall (λ w, w = VIdle) (s_workers s);
  al_pc : match s_loop s with LGot _ => False | _ => True end }.
Lemma alone_step s lb s' : alone s → step s lb = Some s' → alone s'.
Proof.
  intros [Hm Hq Hw Hp]. destruct s as [v k p q r ws tr]. simpl in *. subst q.
  assert (∀ i w, ws !! i = Some w → w = VIdle) as Hi.
  { intros i w Hx. rewrite Forall_forall in Hw. by eapply Hw, elem_of_list_lookup_2. }
  assert (∀ a own, sv_mode (do_act a own v k).1.1.2 = kIOMultiplexing) as Ha.
  { intros a own. destruct a; simpl; try done; [destruct (id_at k own); done|case_decide; done|]. unfold srv_stop. by case_decide. }
  assert (sv_mode (srv_stop v) = kIOMultiplexing) as Hs by (unfold srv_stop; by case_decide).
  destruct lb as [x|a|i|i a| |id n|id|id|fd|fd| |r0|]; simpl.
  - unfold loop_step, upd, add_job, ep_of. simpl. rewrite Hm. intros H.
    destruct p as [| | |[|[fd m] evs]|so evs| | | | | |]; try done.
    + destruct (ep_flag _); injection H as <-; by split.
    + case_decide; injection H as <-; by split.
    + destruct x; try done; [destruct (batch_ok _ _); [|done]|]; injection H as <-; by split.
    + injection H as <-; by split.
    + destruct (decode m) as [[]|]; repeat case_decide; try (destruct x); try done; try (destruct (accept_as _ _) as [[? ?]|]; [|done]);
        injection H as <-; by split.
    + destruct x; try done; [case_decide; [|done]|]; injection H as <-; by split.
    + injection H as <-; by split.
    + injection H as <-; by split.
    + destruct (forallb _ _); [|done]. injection H as <-; by split.
  - unfold loop_act. simpl. destruct p as [| | | | |e own kk| | | | |]; try done. specialize (Ha a own).
    destruct (do_act a own v k) as [[[own' v'] k'] t] eqn:Ed. destruct a; intros [= <-]; (split; simpl; [done|done|done|]); try done. by destruct kk.
  - unfold worker_step. simpl. destruct (ws !! i) as [w|] eqn:Ew; [|done]. apply Hi in Ew as ->. by destruct r.
  - unfold worker_act. simpl. destruct (ws !! i) as [w|] eqn:Ew; [|done]. by apply Hi in Ew as ->.
  - destruct (listening _); [|done]. intros [= <-]. by split.
  - intros [= <-]. by split.
  - intros [= <-]. by split.
  - intros [= <-]. by split.
  - case_decide; [|done]. destruct (k_fds k !! fd); [done|]. intros [= <-]. by split.
  - case_decide; [|done]. intros [= <-]. by split.
  - intros [= <-]. by split.
  - case_decide; [|done]. intros [= <-]. by split.
  - unfold srv_clean. destruct (close_sock (sv_lis v) k) as [l k1]. destruct (sv_io v) as [ep|]; [destruct (close_sock (ep_fd ep) k1) as [s k2]|];
      intros [= <-]; by split.
Qed.
Theorem one_callback_partial n l e others s t t' :
  reach anything (booted kIOMultiplexing n l e others) s → in_callback s t → in_callback s t' → t = None ∧ t' = None.
Proof.
  intros Hr. assert (alone s) as [_ _ Hw _].
  { induction Hr as [|s lb s' _ IH _ Hs]; [|by eapply alone_step]. split; simpl; [done|done| |done]. by apply Forall_replicate. }
  assert (∀ t, in_callback s t → t = None) as H.
  { intros [i|] Ht; [|done]. destruct Ht as (? & ? & ? & ? & Ht). rewrite Forall_forall in Hw. by apply elem_of_list_lookup_2, Hw in Ht. }
  by split; apply H.
Qed.
Print Assumptions one_callback_partial.
Example one_callback_ex : ∃ s, run (srv3 kIOMultiplexing 0) (take 6 accept5) = Some s ∧ in_callback s None.
Proof. eexists. split; [by vm_compute|]. by eexists _, _, _. Qed.

(** * C116: the client connects to the address it is given, port 80 or 443 by default *)
Definition meant_port (p d : N) : N := if decide (p = 0%N) then d else p.
Lemma default_port_spec a b c d p q : octet a → octet b → octet c → octet d → (p < 2 ^ 16)%N → (q < 2 ^ 16)%N →
  default_port q (addr_init (quad a b c d) p).2 = (addr_init (quad a b c d) (meant_port p q)).2.
Proof.
  intros Ha Hb Hc Hd Hp Hq. destruct (address_round_trip a b c d p Ha Hb Hc Hd Hp) as (H1 & H2 & _). unfold default_port, meant_port.
  rewrite H2. destruct (N.eqb_spec p 0) as [->|Hn]; [|by rewrite decide_False].
  rewrite decide_True by done. by rewrite H1.
Qed.
Theorem client_address a b c d p r rc cl : octet a → octet b → octet c → octet d → (p < 2 ^ 16)%N →
  let to := (addr_init (quad a b c d) (meant_port p 80)).2 in
  let '(z, a', cl', tr) := client_init r rc (addr_init (quad a b c d) p).2 cl in
  a' = to ∧ tr = (if decide (0 <= r) then [JSocket r; JConnect r to] else []) ∧ (z = kSuccess ↔ 0 <= r ∧ rc = 0).
Proof.
  intros Ha Hb Hc Hd Hp. unfold client_init. rewrite default_port_spec by done. simpl.
  destruct (Z.ltb_spec r 0); simpl.
  - rewrite decide_False by lia. split; [done|]. split; [done|]. split; [done|]. lia.
  - rewrite decide_True by lia. split; [done|]. split; [done|]. destruct (Z.eqb_spec rc kSuccess) as [->|Hn]; simpl; [done|].
    split; [done|]. by intros [_ ->].
Qed.
Print Assumptions client_address.
Theorem client_address_ssl a b c d p m r rc rc2 cl h : octet a → octet b → octet c → octet d → (p < 2 ^ 16)%N →
  let to := (addr_init (quad a b c d) (meant_port p 443)).2 in
  let '(z, a', cl', h', tr) := client_init_ssl m r rc rc2 (addr_init (quad a b c d) p).2 cl h in
  a' = to ∧ (∀ fd x, JConnect fd x ∈ tr → fd = r ∧ x = to) ∧
  (z = kSuccess ↔ me_method m = true ∧ me_ctx m = true ∧ me_ssl m = true ∧ 0 <= r ∧ 0 <= rc ∧ 0 < rc2) ∧
  (z = kSuccess → tr = [JSocket r; JConnect r to]).
Proof.
  intros Ha Hb Hc Hd Hp. unfold client_init_ssl. rewrite default_port_spec by done. unfold ctx_init_cli, create_ssl_socket, create_ssl_socket_on. simpl.
  assert (∀ fd x, JConnect fd x ∈ [] → fd = r ∧ x = (addr_init (quad a b c d) (meant_port p 443)).2) as Hnil by (intros fd x Hx; by apply elem_of_nil in Hx).
  destruct (me_method m); simpl; [|split; [done|]; split; [done|]; split; [naive_solver|done]].
  destruct (me_ctx m); simpl; [|split; [done|]; split; [done|]; split; [naive_solver|done]].
  destruct (Z.ltb_spec r 0); simpl; [split; [done|]; split; [done|]; split; [split; [done|lia]|done]|].
  destruct (me_ssl m); simpl.
  2: { split; [done|]. split; [|split; [naive_solver|done]]. intros fd x Hx. by apply elem_of_list_singleton in Hx. }
  unfold ssock_connect. simpl. destruct (Z.ltb_spec rc 0); simpl; [|destruct (Z.leb_spec rc2 0); simpl].
  1-2: split; [done|]; split; [|split; [split; [done|lia]|done]]; intros fd x Hx; apply elem_of_cons in Hx as [?|Hx]; [done|];
    apply elem_of_list_singleton in Hx as [= -> ->]; done.
  split; [done|]. split; [|split; [split; [by intros _; split_and!|done]|done]].
  intros fd x Hx; apply elem_of_cons in Hx as [?|Hx]; [done|]; apply elem_of_list_singleton in Hx as [= -> ->]; done.
Qed.
Print Assumptions client_address_ssl.
Definition addr0 : address := (addr_init (quad 10 0 0 7) 0).2.
Example client_address_ex :
  (client_init 5 0 addr0 hcli_new).2 = [JSocket 5; JConnect 5 (Addr (0, 80)%N (10, 0, 0, 7)%N)] ∧
  (client_init_ssl mem_ok 5 0 1 addr0 hcli_new heap0).1.1.1.1 = kSuccess ∧
  (client_init_ssl mem_ok 5 0 1 addr0 hcli_new heap0).1.1.1.2 = Addr (1, 187)%N (10, 0, 0, 7)%N.
Proof. by vm_compute. Qed.

(** * C117: Close and the destructor are safe *)
Definition client_safe_full : Prop := ∀ ops h, client_run ops hcli_new h ≠ UB.
(** InitSSL, Init, Close: a null SSLSocket is used. *)
Theorem client_safe_refuted : ¬ client_safe_full.
Proof. intros H. by apply (H [CInitSSL mem_ok 5 0 1 addr0; CInit 6 0 addr0; CClose] heap0). Qed.
Print Assumptions client_safe_refuted.
(** Exactly when Close comes after an Init that came after an InitSSL; [tls]:
    InitSSL was called, [plain]: the last of the two calls was Init. *)
Fixpoint misused (tls plain : bool) (ops : list ccop) : bool :=
  match ops with
  | [] => false
  | CInit _ _ _ :: ops' => misused tls true ops'
  | CInitSSL _ _ _ _ _ :: ops' => misused true false ops'
  | CClose :: ops' => (tls && plain) || misused tls plain ops'
  end.
Definition is_plain (c : hcli) : bool := match hc_soc c with Some (CPlain _) => true | _ => false end.
Definition has_ctx (c : hcli) : bool := match hc_ctx c with Some _ => true | None => false end.
Lemma client_init_flags r rc a c : is_plain (client_init r rc a c).1.2 = true ∧ has_ctx (client_init r rc a c).1.2 = has_ctx c.
Proof. unfold client_init. simpl. by destruct (r <? 0). Qed.
Lemma client_init_ssl_flags m r rc rc2 a c h :
  is_plain (client_init_ssl m r rc rc2 a c h).1.1.2 = false ∧ has_ctx (client_init_ssl m r rc rc2 a c h).1.1.2 = true.
Proof.
  unfold client_init_ssl. destruct (ctx_init_cli _ _ _) as [[z x] h1]. destruct (create_ssl_socket _ _ _ _) as [[[s|] h2] tr]; [|done].
  by destruct (ssock_connect rc rc2 s).
Qed.
Lemma client_close_flags c h :
  client_close c h = UB ∧ has_ctx c && is_plain c = true ∨
  has_ctx c && is_plain c = false ∧ ∃ c' h' tr, client_close c h = Ok (c', h', tr) ∧ is_plain c' = is_plain c ∧ has_ctx c' = has_ctx c.
Proof.
  unfold client_close. destruct c as [soc x]; unfold is_plain, has_ctx; simpl. destruct soc as [[s|z]|]; simpl.
  - destruct (decide (so_status s = kInit)); simpl; (destruct x; [by left|]); right; (split; [done|]); by eexists _, _, _.
  - right. split; [by destruct x|]. destruct (ssock_close z h) as [[[? z'] h1] t]. destruct x as [x|]; [|by eexists _, _, _].
    destruct (ctx_close x h1) as [[? x'] h2]. destruct (close_ssl z' h2) as [[[? z2] h3] ?]. by eexists _, _, _.
  - right. split; [by destruct x|]. by eexists _, _, _.
Qed.
Theorem client_safe_partial ops h :
  if misused false false ops then client_run ops hcli_new h = UB else ∃ c h' tr, client_run ops hcli_new h = Ok (c, h', tr).
Proof.
  assert (Hg : ∀ ops c h, if misused (has_ctx c) (is_plain c) ops then client_run ops c h = UB else ∃ c' h' tr, client_run ops c h = Ok (c', h', tr)).
  { clear. induction ops as [|o ops IH]; intros c h; simpl; [by eexists _, _, _|].
    assert (Hstep : ∀ c1 h1 t1, if misused (has_ctx c1) (is_plain c1) ops
      then (r' ← client_run ops c1 h1; let '(c2, h2, t2) := r' in Ok (c2, h2, t1 ++ t2)) = UB
      else ∃ c' h' tr, (r' ← client_run ops c1 h1; let '(c2, h2, t2) := r' in Ok (c2, h2, t1 ++ t2)) = Ok (c', h', tr)).
    { intros c1 h1 t1. specialize (IH c1 h1). destruct (misused _ _ _); [by rewrite IH|]. destruct IH as (? & ? & ? & ->). by eexists _, _, _. }
    destruct o as [r rc a|m r rc rc2 a|]; simpl.
    - pose proof (client_init_flags r rc a c) as [H1 H2]. destruct (client_init r rc a c) as [[[z a'] c1] tr]. simpl in *.
      rewrite <- H1, <- H2. apply Hstep.
    - pose proof (client_init_ssl_flags m r rc rc2 a c h) as [H1 H2]. destruct (client_init_ssl m r rc rc2 a c h) as [[[[z a'] c1] h1] tr]. simpl in *.
      rewrite <- H1, <- H2. apply Hstep.
    - destruct (client_close_flags c h) as [[H1 ->]|[-> (c1 & h1 & tr & H1 & <- & <-)]]; rewrite H1; simpl; [done|]. apply Hstep. }
  apply (Hg ops hcli_new h).
Qed.
Print Assumptions client_safe_partial.
Example client_safe_ex : misused false false [CInit 5 0 addr0; CClose; CInitSSL mem_ok 6 0 1 addr0; CClose] = false ∧
  misused false false [CInit 5 0 addr0; CInitSSL mem_ok 6 0 1 addr0; CInit 7 0 addr0] = false ∧
  misused false false [CInitSSL mem_ok (-1) 0 1 addr0; CInit 7 0 addr0; CClose] = true.
Proof. done. Qed.

(** * C118: the client gives back its descriptors and the library's objects *)
Definition opens (tr : list cact) : list Z := omap (λ x, match x with JSocket fd => Some fd | _ => None end) tr.
Definition shuts (tr : list cact) : list Z := omap (λ x, match x with JClose fd => Some fd | _ => None end) tr.
Definition client_gives_back_full : Prop := ∀ ops h c h1 tr h2 tr', clean_heap h →
  client_run ops hcli_new h = Ok (c, h1, tr) → client_destroy c h1 = Ok (h2, tr') →
  opens (tr ++ tr') = shuts (tr ++ tr') ∧ hp h2 = hp h.
(** Init twice: the first descriptor stays open. *)
Theorem client_gives_back_refuted : ¬ client_gives_back_full.
Proof.
  intros H. destruct (H [CInit 5 0 addr0; CInit 6 0 addr0] heap1 _ _ _ _ _ heap1_clean eq_refl eq_refl) as [H1 _]. by vm_compute in H1.
Qed.
Print Assumptions client_gives_back_refuted.
(** It holds when each Init or InitSSL is followed by Close, no Init comes after an
    InitSSL, and SSL_new finds memory. *)
Fixpoint orderly (tls : bool) (is : list ccop) : Prop :=
  match is with
  | [] => True
  | CInit _ _ _ :: is' => tls = false ∧ orderly tls is'
  | CInitSSL m _ _ _ _ :: is' => me_ssl m = true ∧ orderly true is'
  | CClose :: _ => False
  end.
Lemma opens_app a b : opens (a ++ b) = opens a ++ opens b.
Proof. apply omap_app. Qed.
Lemma shuts_app a b : shuts (a ++ b) = shuts a ++ shuts b.
Proof. apply omap_app. Qed.

(** What is true between the calls: the last socket is closed; the library has its
    old objects and perhaps the context. *)
Definition settled (h0 : heap) (c : hcli) (h : heap) : Prop :=
  (hp_next h0 ≤ hp_next h)%nat ∧
  match hc_soc c with
  | None => True
  | Some (CPlain s) => so_status s ≠ kInit
  | Some (CTls z) => so_status (ss_base z) ≠ kInit ∧ ss_ssl z = None
  end ∧
  match hc_ctx c with
  | Some (Some i) => (hp_next h0 ≤ i < hp_next h)%nat ∧ ∃ o, hp h = <[i := o]> (hp h0)
  | _ => hp h = hp h0
  end.
Lemma settled_close h0 c h : clean_heap h0 → settled h0 c h → has_ctx c && is_plain c = false →
  ∃ h2, client_destroy c h = Ok (h2, []) ∧ hp h2 = hp h0.
Proof.
  intros Hc (Hn & Hs & Hx) Hp. destruct c as [soc x]. unfold has_ctx, is_plain in Hp. simpl in *.
  assert (Hfree : ∀ i, (hp_next h0 ≤ i)%nat → hp h0 !! i = None).
  { intros i Hi. apply eq_None_not_Some. intros [o Ho]. apply Hc in Ho. lia. }
  unfold client_destroy, client_close. simpl. destruct soc as [[s|z]|]; simpl.
  - rewrite decide_False by done. simpl. destruct x; [done|]. by eexists.
  - destruct Hs as [H1 H2]. unfold ssock_close. rewrite decide_False by done. destruct x as [x|]; [|by eexists].
    destruct x as [i|]; simpl; unfold close_ssl; rewrite H2; simpl; [|by eexists]. eexists. split; [done|]. simpl.
    destruct Hx as [Hi [o ->]]. rewrite delete_insert; [done|]. apply Hfree. lia.
  - destruct x as [[i|]|]; simpl; [|by eexists..]. eexists. split; [done|]. simpl.
    destruct Hx as [Hi [o ->]]. rewrite delete_insert; [done|]. apply Hfree. lia.
Qed.
Lemma settled_step h0 o c h : clean_heap h0 → settled h0 c h → orderly (has_ctx c) [o] →
  ∃ c' h' tr, client_run [o; CClose] c h = Ok (c', h', tr) ∧ opens tr = shuts tr ∧ settled h0 c' h' ∧ has_ctx c' && is_plain c' = false ∧
    has_ctx c' = match o with CInitSSL _ _ _ _ _ => true | _ => has_ctx c end.
Proof.
  intros Hc (Hn & Hs & Hx) Ho.
  assert (Hfree : ∀ i, (hp_next h0 ≤ i)%nat → hp h0 !! i = None).
  { intros i Hi. apply eq_None_not_Some. intros [o' Ho']. apply Hc in Ho'. lia. }
  destruct o as [r rc a|m r rc rc2 a|]; simpl in Ho; [| |done].
  - destruct Ho as [Ho _]. destruct c as [soc [x|]]; unfold has_ctx in *; simpl in *; [done|]. unfold client_init. simpl.
    destruct (Z.ltb_spec r 0); simpl.
    + eexists _, _, _. split; [done|]. split; [done|]. unfold settled, is_plain. simpl. by split_and!.
    + eexists _, _, _. split; [done|]. split; [done|]. unfold settled. simpl. by split_and!.
  - destruct Ho as [Hm _]. simpl. unfold client_init_ssl.
    set (h1 := match hc_ctx c with Some x => (ctx_close x h).2 | None => h end).
    assert (hp h1 = hp h0 ∧ hp_next h1 = hp_next h) as [Hh1 Hn1].
    { subst h1. destruct (hc_ctx c) as [[i|]|]; simpl; try done. destruct Hx as [Hi [o ->]]. rewrite delete_insert; [done|]. apply Hfree. lia. }
    clearbody h1. destruct h1 as [hp1 n1]. simpl in *. subst hp1 n1.
    unfold ctx_init_cli, create_ssl_socket, create_ssl_socket_on. simpl. rewrite Hm.
    destruct (me_method m); simpl.
    2: { eexists _, _, _. split; [done|]. split; [done|]. unfold settled. simpl. by split_and!. }
    destruct (me_ctx m); simpl.
    2: { eexists _, _, _. split; [done|]. split; [done|]. unfold settled. simpl. by split_and!. }
    destruct (Z.ltb_spec r 0); simpl.
    { eexists _, _, _. split; [done|]. split; [done|]. unfold settled. simpl. split_and!; try done; try lia. by eexists. }
    unfold ssock_connect. simpl. destruct (rc <? 0); simpl; [|destruct (rc2 <=? 0); simpl].
    all: eexists _, _, _; (split; [done|]); (split; [done|]); unfold settled; simpl; split_and!; try done; try lia.
    all: rewrite (delete_insert (<[hp_next h := _]> _)), delete_insert; [done|..]; rewrite ?lookup_insert_ne by lia; apply Hfree; lia.
Qed.
Theorem client_gives_back_partial is h : clean_heap h → orderly false is →
  ∃ c h1 tr h2 tr', client_run (is ≫= λ o, [o; CClose]) hcli_new h = Ok (c, h1, tr) ∧ client_destroy c h1 = Ok (h2, tr') ∧
    opens (tr ++ tr') = shuts (tr ++ tr') ∧ hp h2 = hp h.
Proof.
  intros Hc. assert (Hg : ∀ is c h', settled h c h' → has_ctx c && is_plain c = false → orderly (has_ctx c) is →
    ∃ c' h1 tr h2 tr', client_run (is ≫= λ o, [o; CClose]) c h' = Ok (c', h1, tr) ∧ client_destroy c' h1 = Ok (h2, tr') ∧
      opens (tr ++ tr') = shuts (tr ++ tr') ∧ hp h2 = hp h).
  { clear is. induction is as [|o is IH]; intros c h' Hs Hp Ho.
    - destruct (settled_close _ _ _ Hc Hs Hp) as (h2 & H1 & H2). by eexists _, _, _, _, _.
    - assert (orderly (has_ctx c) [o]) as Ho1 by (destruct o; simpl in *; naive_solver).
      destruct (settled_step _ _ _ _ Hc Hs Ho1) as (c1 & h1 & t1 & E & Ht & Hs1 & Hp1 & Hx1).
      destruct (IH c1 h1 Hs1 Hp1) as (c2 & h2 & t2 & h3 & t3 & E2 & Hd & Ht2 & Hh).
      { rewrite Hx1. destruct o; simpl in *; naive_solver. }
      cbn [client_run] in E. change ((o :: is) ≫= λ o0, [o0; CClose]) with (o :: CClose :: (is ≫= λ o0, [o0; CClose])). cbn [client_run].
      destruct (ccop_step o c h') as [[[ca ha] ta]| | | | |]; try done. simpl in *.
      destruct (client_close ca ha) as [[[cb hb] tb]| | | | |]; try done. simpl in *. injection E as -> -> <-. rewrite app_nil_r in Ht. rewrite E2. simpl.
      eexists _, _, _, _, _. split; [done|]. split; [done|]. split; [|done].
      rewrite (app_assoc ta), <- app_assoc, opens_app, shuts_app, Ht. f_equal. done. }
  intros Ho. apply (Hg is hcli_new h); [|done|done]. unfold settled. simpl. done.
Qed.
Print Assumptions client_gives_back_partial.
Example client_gives_back_ex : orderly false [CInit 5 0 addr0; CInitSSL mem_ok 6 0 1 addr0; CInitSSL mem_ok 5 (-1) 1 addr0] ∧
  ∃ c h tr, client_run ([CInit 5 0 addr0; CInitSSL mem_ok 6 0 1 addr0] ≫= λ o, [o; CClose]) hcli_new heap1 = Ok (c, h, tr) ∧ shuts tr = [5; 6].
Proof. split; [done|]. eexists _, _, _. split; [by vm_compute|done]. Qed.
