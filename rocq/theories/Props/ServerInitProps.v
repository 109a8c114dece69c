(** C69, C74, C95-C98: TcpServer::Init and what belongs to it. *)
From Verif.Spec Require Import TcpServerSpec.

Local Open Scope Z_scope.

(** * C69: the trigger mode *)
Definition trigger_full : Prop := ∀ t e fd k, k_watch (epoll_monitor true (set_trigger_type t e) fd k).2 !! fd = Some t.
Definition nothing : kern := Kern ∅ [] ∅ 0.
(** Edge triggering cannot be selected. *)
Theorem trigger_refuted : ¬ trigger_full.
Proof. intros H. specialize (H kEdge epoll_new 5 nothing). by vm_compute in H. Qed.
Print Assumptions trigger_refuted.
(** A socket is watched as soon as MonitorSoc succeeds, level triggered whatever was
    set; other sockets are not affected; when epoll_ctl fails, an error is returned
    and nothing is watched. *)
Theorem trigger_partial ts r k0 fd k :
  let e := (epoll_init r (foldr set_trigger_type epoll_new ts) k0).1.2 in
  (epoll_monitor true e fd k).1 = kSuccess ∧ k_watch (epoll_monitor true e fd k).2 = <[fd := kLevel]> (k_watch k) ∧
  (epoll_monitor false e fd k).1 < 0 ∧ (epoll_monitor false e fd k).2 = k.
Proof.
  simpl. split_and!; try done. assert (ep_static_trigger (foldr set_trigger_type epoll_new ts) = kLevel) as ->; [|done].
  induction ts; simpl; auto.
Qed.
Print Assumptions trigger_partial.
Example trigger_ex : k_watch (epoll_monitor true (set_trigger_type kEdge epoll_new) 5 nothing).2 = {[ 5 := kLevel ]}.
Proof. by vm_compute. Qed.

(** * C74: a failed Init leaks nothing *)
(** The answers are possible: new descriptors are numbers that are not in use. *)
Definition possible (a : answers) (k : kern) : Prop :=
  (0 <= an_socket a → k_fds k !! an_socket a = None) ∧
  (0 <= an_epoll a → k_fds k !! an_epoll a = None ∧ an_epoll a ≠ an_socket a).
Definition init_no_leak_full : Prop := ∀ a m ad k,
  possible a k → let '(rc, v, k') := srv_init a (srv_new m ad) k in rc ≠ kSuccess → k_fds k' = k_fds k.
Definition addr80 : address := (addr_init (B "127.0.0.1") 80).2.
(** The port is in use: bind fails, the socket stays open. *)
Theorem init_no_leak_refuted : ¬ init_no_leak_full.
Proof.
  intros H. specialize (H (Answers 3 true false true 4 true) kIOMultiplexing addr80 nothing). vm_compute in H.
  assert (possible (Answers 3 true false true 4 true) nothing) as Hp by (by split; intros).
  vm_compute in Hp. by specialize (H Hp ltac:(done)).
Qed.
Print Assumptions init_no_leak_refuted.
(** So it does when setsockopt fails and when the port is 0; and when epoll_ctl
    fails, the epoll descriptor does. *)
Example init_leaks :
  k_fds (srv_init (Answers 3 false true true 4 true) (srv_new kMixed addr80) nothing).2 = {[ 3 := DSock ]} ∧
  k_fds (srv_init (Answers 3 true true true 4 true) (srv_new kMixed (addr_init (B "127.0.0.1") 0).2) nothing).2 = {[ 3 := DSock ]} ∧
  k_fds (srv_init (Answers 3 true true true 4 false) (srv_new kMixed addr80) nothing).2 = {[ 4 := DEpoll ]}.
Proof. apply (bool_decide_unpack _). by vm_compute. Qed.

Lemma ip_not_empty a : addr_ip a ≠ [].
Proof.
  unfold addr_ip. destruct (ad_ip a) as [[[x y] z] t]. unfold inet_ntoa. intros H. apply (f_equal length) in H. rewrite !app_length in H. simpl in H. lia.
Qed.

(** When setsockopt, bind and epoll_ctl succeed and the port is not 0, a failed Init
    leaves the table of descriptors as it was. *)
Theorem init_no_leak_partial a m ad k :
  possible a k → an_reuse a = true → an_bind a = true → an_ctl a = true → addr_port ad ≠ 0%N →
  let '(rc, v, k') := srv_init a (srv_new m ad) k in
  rc ≠ kSuccess → k_fds k' = k_fds k ∧ so_status (sv_lis v) ≠ kInit.
Proof.
  intros [H1 H2] Hr Hb Hc Hp. unfold srv_init, create_socket. rewrite Hr, Hb. simpl.
  destruct (Z.ltb_spec (an_socket a) 0); [done|].
  pose proof (ip_not_empty ad) as Hne. destruct (addr_ip ad) eqn:E; [done|]. clear E.
  assert ((addr_port ad =? 0)%N = false) as -> by lia. simpl.
  destruct (an_listen a) eqn:El; simpl.
  2: { intros _. split; [|done]. rewrite delete_insert; [done|]. auto. }
  unfold init_mode. simpl. destruct m; simpl; [|done|].
  all: unfold epoll_init, epoll_monitor, sock_of_fd; rewrite Hc; simpl.
  all: destruct (Z.ltb_spec (an_epoll a) 0); simpl; [|done].
  all: intros _; split; [|done]; rewrite insert_insert, delete_insert; auto.
Qed.
Print Assumptions init_no_leak_partial.
Example init_fail_ex :
  let r := srv_init (Answers 3 true true true (-1) true) (srv_new kMixed addr80) nothing in
  r.1.1 = kSysErr ∧ k_fds r.2 = ∅ ∧ sv_lis r.1.2 = Sock 3 kClosed.
Proof. intros r. split; [by vm_compute|]. split; [|by vm_compute]. apply (bool_decide_unpack _). by vm_compute. Qed.

(** * C95: a successful Init *)
(** Exactly the listening socket and (not in multithread mode) the epoll descriptor
    are new; the listening socket is watched; EventLoop can start; Clean gives
    everything back. *)
Theorem init_ok a m ad k :
  possible a k → let '(rc, v, k') := srv_init a (srv_new m ad) k in
  rc = kSuccess →
  ∃ l, 0 <= l ∧ k_fds k !! l = None ∧ sv_lis v = Sock l kInit ∧ sv_flag v = true ∧
    (m = kMultiThread → k_fds k' = <[l := DListen]> (k_fds k) ∧ sv_io v = None ∧ sv_pool v = true) ∧
    (m ≠ kMultiThread → ∃ e, 0 <= e ∧ e ≠ l ∧ k_fds k !! e = None ∧
       k_fds k' = <[e := DEpoll]> (<[l := DListen]> (k_fds k)) ∧
       (∃ ep, sv_io v = Some ep ∧ ep_fd ep = Sock e kInit ∧ ep_flag ep = true) ∧
       k_watch k' = <[l := kLevel]> (k_watch k) ∧ (m = kMixed → sv_pool v = true)) ∧
    (∀ n, s_loop (loop_start v n k') = LTop) ∧
    k_fds (srv_clean v k').2 = k_fds k.
Proof.
  intros [H1 H2]. unfold srv_init, create_socket. simpl.
  destruct (Z.ltb_spec (an_socket a) 0); [done|]. specialize (H1 ltac:(lia)).
  destruct (an_reuse a); simpl; [|done].
  destruct (match addr_ip ad with [] => true | _ => false end || (addr_port ad =? 0)%N); [done|].
  destruct (an_bind a); simpl; [|done]. destruct (an_listen a); simpl; [|done].
  unfold init_mode. simpl. destruct m; simpl.
  2: { intros _. exists (an_socket a). rewrite insert_insert. split_and!; try done.
       unfold srv_clean, close_sock. simpl. by rewrite ?insert_insert, delete_insert. }
  all: unfold epoll_init, epoll_monitor, sock_of_fd; simpl.
  all: destruct (Z.ltb_spec (an_epoll a) 0); simpl; [done|]; destruct (H2 ltac:(lia)) as [H3 H4].
  all: destruct (an_ctl a); simpl; [|done]; intros _; exists (an_socket a).
  all: split_and!; try done.
  all: try (intros _; exists (an_epoll a); split_and!; try done; [by rewrite insert_insert|by eexists]).
  all: unfold srv_clean, close_sock; simpl; rewrite insert_insert, insert_commute, delete_insert, delete_insert; try done.
  all: by rewrite lookup_insert_ne.
Qed.
Print Assumptions init_ok.
Example init_ok_ex :
  let r := srv_init (Answers 3 true true true 4 true) (srv_new kMixed addr80) nothing in
  r.1.1 = kSuccess ∧ k_fds r.2 = <[4 := DEpoll]> {[ 3 := DListen ]} ∧ s_loop (loop_start r.1.2 2 r.2) = LTop.
Proof. intros r. split; [by vm_compute|]. split; [|by vm_compute]. apply (bool_decide_unpack _). by vm_compute. Qed.
(** The states that the theorems about EventLoop start from are those after Init. *)
Theorem booted_ok m n l e others :
  others_ok others l e →
  let '(rc, v, k) := srv_init (Answers l true true true e true) (srv_new m addr80) (kern0 others) in
  rc = kSuccess ∧ loop_start v n k = booted m n l e others.
Proof.
  intros (Hl & He & Hne & H1 & H2). unfold srv_init, create_socket. cbn [an_socket an_reuse an_bind an_listen negb].
  destruct (Z.ltb_spec l 0); [lia|]. cbn [sv_addr srv_new].
  assert (match addr_ip addr80 with [] => true | _ => false end || (addr_port addr80 =? 0)%N = false) as -> by (by vm_compute).
  cbn [so_status]. rewrite decide_True by done. unfold init_mode. cbn [sv_mode srv_new].
  destruct m; unfold epoll_init, epoll_monitor, sock_of_fd; cbn [an_epoll an_ctl so_status sv_mode sv_lis so_fd fst snd].
  2: { split; [done|]. unfold k_set, kern0, booted. cbn [k_fds k_backlog k_watch k_next]. by rewrite insert_insert. }
  all: destruct (Z.ltb_spec e 0); [lia|]; cbn [so_status so_fd ep_static_trigger epoll_new]; rewrite decide_True by done.
  all: change (kSuccess <? 0) with false; change (0 <? 0) with false; cbn [fst snd].
  all: split; [done|]; unfold k_set, k_add, kern0, booted; cbn [k_fds k_backlog k_watch k_next]; by rewrite insert_insert.
Qed.
Print Assumptions booted_ok.
Example booted_ex : others_ok {[ 0; 1; 2 ]} 3 4.
Proof. unfold others_ok. split_and!; try lia; set_solver. Qed.

(** * C96: a registered callback stays in force *)
Definition register_full : Prop := ∀ cb a m ad k,
  let '(rc, v, _) := srv_init a (srv_register (Some (Some cb)) (srv_new m ad)) k in rc = kSuccess → sv_cb v = Some (Some cb).
(** Registered before Init, it is replaced by the callback that does nothing. *)
Theorem register_refuted : ¬ register_full.
Proof. intros H. specialize (H 7%nat (Answers 3 true true true 4 true) kMixed addr80 nothing). vm_compute in H. by specialize (H eq_refl). Qed.
Print Assumptions register_refuted.
(** Registered after Init, it stays; and after a successful Init there always is a
    callback that can be called. *)
Theorem register_partial cb a v k :
  let '(rc, v', _) := srv_init a v k in rc = kSuccess →
  sv_cb (srv_stop (srv_register cb v')) = cb ∧ is_Some (sv_cb v').
Proof.
  destruct (srv_init a v k) as [[rc v'] k'] eqn:E. intros ->. split.
  - unfold srv_stop. simpl. by case_decide.
  - unfold srv_init in E. destruct (create_socket a v k) as [l k1]. case_decide; [|done].
    destruct (negb (an_listen a)); [by destruct (close_sock l k1)|].
    unfold init_mode in E. simpl in E.
    repeat match type of E with context [match ?b with _ => _ end] => destruct b end; try done; by injection E as <- _.
Qed.
Print Assumptions register_partial.
Example register_ex : sv_cb (srv_register (Some (Some 7%nat)) (srv_init (Answers 3 true true true 4 true) (srv_new kMixed addr80) nothing).1.2) = Some (Some 7%nat).
Proof. by vm_compute. Qed.

(** * C97: AddSoc *)
Definition add_soc_full : Prop := ∀ ok s a m ad k,
  let '(rc, v, k1) := srv_init a (srv_new m ad) k in
  rc = kSuccess → ∃ r, srv_add_soc ok s v k1 = Ok r.
(** In multithread mode the member function of a null pointer is called. *)
Theorem add_soc_refuted : ¬ add_soc_full.
Proof.
  intros H. specialize (H true (Sock 9 kInit) (Answers 3 true true true 4 true) kMultiThread addr80 nothing).
  vm_compute in H. by destruct (H eq_refl).
Qed.
Print Assumptions add_soc_refuted.
Theorem add_soc_partial ok s a m ad k :
  let '(rc, v, k1) := srv_init a (srv_new m ad) k in
  rc = kSuccess → m ≠ kMultiThread →
  ∃ r, srv_add_soc ok s v k1 = Ok r ∧
    (r.1 = kSuccess ↔ so_status s = kInit ∧ ok = true) ∧
    (r.1 = kSuccess → is_Some (k_watch r.2 !! so_fd s)) ∧ (r.1 ≠ kSuccess → r.2 = k1).
Proof.
  destruct (srv_init a (srv_new m ad) k) as [[rc v] k1] eqn:E. intros -> Hm.
  assert (∃ e, sv_io v = Some e) as [e He].
  { unfold srv_init in E. destruct (create_socket a _ k) as [l k0]. case_decide; [|done].
    destruct (negb (an_listen a)); [by destruct (close_sock l k0)|]. unfold init_mode in E. simpl in E. destruct m; [| |]; [|done|].
    all: repeat match type of E with context [match ?b with _ => _ end] => destruct b end; try done.
    all: injection E as <- _; simpl; eauto. }
  unfold srv_add_soc. rewrite He. case_decide.
  - eexists. split; [done|]. destruct ok; simpl.
    + split; [done|]. split; [intros _; rewrite lookup_insert; eauto|done].
    + split; [split; [done|by intros [_ ?]]|]. done.
  - eexists. split; [done|]. simpl. split; [split; [done|by intros [? _]]|done].
Qed.
Print Assumptions add_soc_partial.
Example add_soc_ex :
  let '(rc, v, k1) := srv_init (Answers 3 true true true 4 true) (srv_new kMixed addr80) nothing in
  srv_add_soc true (Sock 9 kInit) v k1 = Ok (0, k_add k1 9 kLevel) ∧ srv_add_soc true (Sock 9 kClosed) v k1 = Ok (kLogicErr, k1).
Proof. by vm_compute. Qed.

(** * C98: WakeUp leaves no descriptor open *)
Definition wakeup_no_leak_full : Prop := ∀ r ok v k, k_fds (srv_wakeup r ok v k).2 = k_fds k.
Definition stopped_srv : srv := srv_stop (srv_init (Answers 3 true true true 4 true) (srv_new kMixed addr80) nothing).1.2.
Theorem wakeup_no_leak_refuted : ¬ wakeup_no_leak_full.
Proof. intros H. specialize (H 9 false stopped_srv nothing). by vm_compute in H. Qed.
Print Assumptions wakeup_no_leak_refuted.
(** Unless connect fails; and WakeUp succeeds only on a stopped server. *)
Theorem wakeup_no_leak_partial r v k :
  k_fds (srv_wakeup r true v k).2 = k_fds k ∧ k_fds (srv_wakeup (-1) false v k).2 = k_fds k ∧
  (∀ ok, (srv_wakeup r ok v k).1 = kSuccess → sv_flag v = false).
Proof.
  unfold srv_wakeup. destruct (sv_flag v), (sv_mode v); simpl; split_and!; try done; by destruct (r <? 0).
Qed.
Print Assumptions wakeup_no_leak_partial.
Example wakeup_ex : srv_wakeup 9 true stopped_srv nothing = (kSuccess, Kern ∅ [Conn 0 0 true false] ∅ 1).
Proof. by vm_compute. Qed.
