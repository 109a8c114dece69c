(** What Stop and WakeUp do to TcpServer::EventLoop. *)
From Verif.Proof Require Export TcpServerProof.

Local Open Scope Z_scope.

(** ** The loop makes a bounded number of moves once the flags are down *)
Definition evs_cost (evs : list (Z * mask)) : nat := 3 + 6 * length evs.
Definition cost (p : lpc) : nat :=
  match p with
  | LRet _ => 0 | LJoin => 1 | LTop => 2
  | LGot _ => 2
  | LBatch evs => evs_cost evs
  | LShut _ evs => 1 + evs_cost evs
  | LDrop _ evs => 2 + evs_cost evs
  | LIn _ _ (KBatch evs) => 1 + evs_cost evs
  | LIn _ _ (KDrop _ evs) => 3 + evs_cost evs
  | LIn _ _ (KShut _ evs) => 2 + evs_cost evs
  | LIn _ _ KQuit => 1
  | LMonitor _ evs => 4 + evs_cost evs
  | LSleep => 4 + 6 * 1024
  | LWait => 5 + 6 * 1024
  end.
Definition down (s : st) : Prop :=
  sv_flag (s_v s) = false ∧ (∀ ep, sv_io (s_v s) = Some ep → ep_flag ep = false) ∧ (sv_io (s_v s) = None → sv_mode (s_v s) = kMultiThread).

Lemma down_loop s x s' : down s → loop_step s x = Some s' → down s' ∧ ((cost (s_loop s') < cost (s_loop s))%nat ∨ x = AIntr ∧ (cost (s_loop s') ≤ cost (s_loop s))%nat).
Proof.
  intros Hd H. pose proof Hd as (Hf & He & Hn). unfold loop_step in H. cbv zeta in H.
  assert (Hep : sv_mode (s_v s) ≠ kMultiThread → ep_flag (ep_of s) = false).
  { intros Hm. unfold ep_of. destruct (sv_io (s_v s)); [by apply He|]. by specialize (Hn eq_refl). }
  destruct (s_loop s) as [| | |evs|soc evs|e' own kk|fd evs|fd evs|soc| |rc] eqn:El; try done.
  - rewrite Hf in H. destruct (sv_mode (s_v s)) eqn:Em.
    2: { injection H as <-. split; [done|]. simpl. lia. }
    all: rewrite Hep in H by done; injection H as <-; (split; [done|]); simpl; lia.
  - destruct (sv_mode (s_v s)); case_decide; injection H as <-; (split; [done|]); simpl; lia.
  - destruct (sv_mode (s_v s)).
    2: { destruct x; try done; [destruct (accept_as _ _) as [[c k']|]; [|done]|]; injection H as <-; (split; [done|]); simpl; lia. }
    all: destruct x as [fds| | | |]; try done.
    all: try (injection H as <-; (split; [done|]); simpl; lia).
    all: destruct (batch_ok (s_k s) fds) eqn:Eb; [|done]; injection H as <-; (split; [done|]); left; cbn [cost s_loop upd]; unfold evs_cost; rewrite map_length.
    all: unfold batch_ok in Eb; rewrite !andb_true_iff in Eb; destruct Eb as [[_ Eb] _]; apply Nat.leb_le in Eb; lia.
  - destruct evs as [|[fd m] evs]; [injection H as <-; (split; [done|]); simpl; unfold evs_cost; simpl; lia|].
    repeat match type of H with context [match ?b with _ => _ end] => destruct b end; try done; injection H as <-; (split; [done|]); simpl; unfold evs_cost; simpl; lia.
  - destruct x; try done; [case_decide; [|done]|]; injection H as <-; (split; [done|]); simpl; lia.
  - injection H as <-; (split; [done|]); simpl; lia.
  - injection H as <-; (split; [done|]); simpl; lia.
  - rewrite Hf in H. injection H as <-. (split; [done|]); simpl; lia.
  - destruct (forallb _ _); [|done]. injection H as <-. (split; [done|]); simpl; lia.
Qed.
Lemma stop_down s k l q r ws tr : down s → down (St (srv_stop (s_v s)) k l q r ws tr).
Proof.
  intros (Hf & He & Hn). unfold down. simpl. unfold srv_stop.
  case_decide; [|done]. simpl. split; [done|].
  destruct (sv_mode (s_v s)), (sv_io (s_v s)); split; try done; try naive_solver.
Qed.
Lemma down_loop_act s a s' : down s → loop_act s a = Some s' →
  down s' ∧ ((cost (s_loop s') < cost (s_loop s))%nat ∨ a ≠ AReturn ∧ (cost (s_loop s') ≤ cost (s_loop s))%nat).
Proof.
  intros Hd H. unfold loop_act in H. destruct (s_loop s) as [| | |evs|soc evs|e' own kk|fd evs|fd evs|soc| |rc] eqn:El; try done.
  destruct a; simpl in H.
  - destruct (id_at (s_k s) own); injection H as <-; (split; [done|]); simpl; right; split; done.
  - injection H as <-; (split; [done|]); simpl; right; split; done.
  - case_decide; injection H as <-; (split; [done|]); simpl; right; split; done.
  - injection H as <-; (split; [by apply stop_down|]); simpl; right; split; done.
  - injection H as <-. split; [done|]. left. destruct kk; simpl; lia.
Qed.
Lemma down_worker s i s' : down s → worker_step s i = Some s' → down s' ∧ s_loop s' = s_loop s.
Proof.
  intros Hd H. unfold worker_step in H.
  repeat match type of H with context [match ?b with _ => _ end] => destruct b end; try done; by injection H as <-.
Qed.
Lemma down_worker_act s i a s' : down s → worker_act s i a = Some s' → down s' ∧ s_loop s' = s_loop s.
Proof.
  intros Hd H. unfold worker_act in H. destruct (s_workers s !! i) as [[| |e own soc once]|]; try done.
  destruct a; simpl in H.
  - destruct (id_at (s_k s) own); by injection H as <-.
  - by injection H as <-.
  - case_decide; by injection H as <-.
  - injection H as <-. split; [by apply stop_down|done].
  - by injection H as <-.
Qed.
Lemma down_step s lb s' : down s → internal lb → step s lb = Some s' →
  down s' ∧ ((cost (s_loop s') + (if loop_move lb then 1 else 0) ≤ cost (s_loop s))%nat).
Proof.
  intros Hd Hi H. destruct lb as [x|a|i|i a| |id n|id|id|fd|fd| |r| ]; try done; cbn [step] in H.
  - destruct (down_loop _ _ _ Hd H) as [H1 [H2|[-> H2]]]; (split; [done|]); simpl; [|lia]. destruct x; lia.
  - destruct (down_loop_act _ _ _ Hd H) as [H1 [H2|[H3 H2]]]; (split; [done|]); simpl; [destruct a; lia|]. destruct a; try lia. done.
  - destruct (down_worker _ _ _ Hd H) as [H1 ->]. split; [done|]. simpl. lia.
  - destruct (down_worker_act _ _ _ _ Hd H) as [H1 ->]. split; [done|]. simpl. lia.
Qed.
Lemma down_run ls s s' : down s → Forall internal ls → run s ls = Some s' →
  down s' ∧ (length (List.filter loop_move ls) + cost (s_loop s') ≤ cost (s_loop s))%nat.
Proof.
  revert s. induction ls as [|lb ls IH]; intros s Hd Hi H; simpl in *.
  - injection H as ->. split; [done|lia].
  - apply Forall_cons in Hi as [Hi1 Hi2]. destruct (step s lb) as [s1|] eqn:E; [|done].
    destruct (down_step _ _ _ Hd Hi1 E) as [H1 H2]. destruct (IH _ H1 Hi2 H) as [H3 H4]. split; [done|].
    destruct (loop_move lb); simpl; lia.
Qed.

(** ** The listening socket and the epoll descriptor are in nobody's hands *)
Definition cont_nums (k : cont) : list Z := match k with KDrop fd _ | KShut fd _ => [fd] | _ => [] end.
Definition pc_nums (p : lpc) : list Z :=
  match p with
  | LMonitor s _ | LGot s => [so_fd s]
  | LIn _ own k => so_fd own :: cont_nums k
  | LDrop fd _ | LShut fd _ => [fd]
  | _ => []
  end.
Definition w_nums (w : wst) : list Z := match w with VIdle => [] | VPeek s => [so_fd s] | VIn _ own s _ => [so_fd own; so_fd s] end.
Definition j_nums (j : job) : Z := match j with JConn s => so_fd s | JRead fd => fd end.
Definition apart (l e : Z) (fd : Z) : Prop := fd ≠ l ∧ fd ≠ e.
Record safe (l e : Z) (k : kern) (p : lpc) (q : list job) (ws : list wst) : Prop := {
  f_ep : k_fds k !! e = Some DEpoll;
  f_watch : is_Some (k_watch k !! l);
  f_keys fd : is_Some (k_watch k !! fd) → fd ≠ e;
  f_backlog : l ∈ (pending p).*1 → k_backlog k ≠ [];
  f_pending fd : fd ∈ (pending p).*1 → fd ≠ e;
  f_pc : Forall (apart l e) (pc_nums p);
  f_q : Forall (λ j, apart l e (j_nums j)) q;
  f_ws : Forall (λ w, Forall (apart l e) (w_nums w)) ws }.
Record held (l e : Z) (s : st) : Prop := {
  h_pos : 0 <= l ∧ 0 <= e ∧ l ≠ e;
  h_mode : sv_mode (s_v s) ≠ kMultiThread;
  h_io : ∃ x, sv_io (s_v s) = Some x ∧ so_fd (ep_fd x) = e ∧ (so_status (ep_fd x) = kInit → so_status (sv_lis (s_v s)) = kInit);
  h_lis : so_fd (sv_lis (s_v s)) = l;
  h_nodup : NoDup (pending (s_loop s)).*1;
  h_once : Forall (λ w, match w with VIdle | VIn _ _ _ true => True | _ => False end) (s_workers s);
  h_jobs : Forall (λ j, match j with JRead _ => True | _ => False end) (s_queue s);
  h_pc : match s_loop s with LGot _ | LIn _ _ KQuit => False | _ => True end;
  h_safe : k_fds (s_k s) !! l = Some DListen → so_status (sv_lis (s_v s)) = kInit ∧ safe l e (s_k s) (s_loop s) (s_queue s) (s_workers s) }.

Lemma k_del_watch k fd f : is_Some (k_watch (k_del k fd) !! f) ↔ f ≠ fd ∧ is_Some (k_watch k !! f).
Proof. simpl. rewrite lookup_delete_is_Some. naive_solver. Qed.

(** Changes of the kernel. *)
Lemma safe_kern l e k k' p q ws :
  safe l e k p q ws → k_fds k' !! e = Some DEpoll → is_Some (k_watch k' !! l) →
  (∀ fd, is_Some (k_watch k' !! fd) → is_Some (k_watch k !! fd)) → (k_backlog k ≠ [] → k_backlog k' ≠ []) → safe l e k' p q ws.
Proof. intros [H1 H2 H3 H4 H5 H6 H7 H8] E1 E2 E3 E4. split; eauto. Qed.
Lemma safe_set l e k fd d p q ws : safe l e k p q ws → k_fds k !! fd = None → safe l e (k_set k fd d) p q ws.
Proof.
  intros H Hn. apply safe_kern with k; try done; simpl; try apply H.
  rewrite lookup_insert_ne; [apply H|]. intros ->. by rewrite (f_ep _ _ _ _ _ _ H) in Hn.
Qed.
Lemma safe_close l e k fd p q ws : safe l e k p q ws → apart l e fd → safe l e (k_close k fd) p q ws.
Proof.
  intros H [H1 H2]. apply safe_kern with k; try done; simpl.
  - rewrite lookup_delete_ne by done. apply H.
  - rewrite lookup_delete_ne by done. apply H.
  - intros f. rewrite lookup_delete_is_Some. naive_solver.
Qed.
Lemma safe_del l e k fd p q ws : safe l e k p q ws → apart l e fd → safe l e (k_del k fd) p q ws.
Proof.
  intros H [H1 H2]. apply safe_kern with k; try done; simpl.
  - apply H.
  - rewrite lookup_delete_ne by done. apply H.
  - intros f. rewrite lookup_delete_is_Some. naive_solver.
Qed.
Lemma safe_update l e k g id p q ws : safe l e k p q ws → safe l e (k_update k g id) p q ws.
Proof.
  intros H. apply safe_kern with k; try done; simpl; try apply H.
  - apply fds_update; [done|]. apply H.
  - intros Hb. destruct (k_backlog k); [done|]. done.
Qed.
Lemma safe_connect l e k b p q ws : safe l e k p q ws → safe l e (k_connect k b) p q ws.
Proof. intros H. apply safe_kern with k; try done; simpl; try apply H. intros _. by destruct (k_backlog k). Qed.

Lemma held_kern l e s v k :
  held l e s → sv_mode v = sv_mode (s_v s) →
  (∃ x, sv_io v = Some x ∧ so_fd (ep_fd x) = e ∧ (so_status (ep_fd x) = kInit → so_status (sv_lis v) = kInit)) →
  so_fd (sv_lis v) = l →
  (k_fds k !! l = Some DListen → k_fds (s_k s) !! l = Some DListen ∧
     (so_status (sv_lis (s_v s)) = kInit → so_status (sv_lis v) = kInit) ∧
     (safe l e (s_k s) (s_loop s) (s_queue s) (s_workers s) → safe l e k (s_loop s) (s_queue s) (s_workers s))) →
  held l e (with_k s v k).
Proof.
  intros [H0 H1 H2 H3 H4 H5 H6 H7 H8] E1 E2 E3 E4. split; simpl; try done; [by rewrite E1|].
  intros Hd. apply E4 in Hd as (Hd & E5 & E6). destruct (H8 Hd). auto.
Qed.
Lemma held_trace l e s tr : held l e s → held l e (St (s_v s) (s_k s) (s_loop s) (s_queue s) (s_run s) (s_workers s) tr).
Proof. by intros []. Qed.
(** The thread in the loop goes on. *)
Lemma held_pc l e s k p q r tr :
  held l e s → NoDup (pending p).*1 → Forall (λ j, match j with JRead _ => True | _ => False end) q →
  match p with LGot _ | LIn _ _ KQuit => False | _ => True end →
  (k_fds k !! l = Some DListen → k_fds (s_k s) !! l = Some DListen ∧
     (safe l e (s_k s) (s_loop s) (s_queue s) (s_workers s) → safe l e k p q (s_workers s))) →
  held l e (St (s_v s) k p q r (s_workers s) tr).
Proof.
  intros [H0 H1 H2 H3 H4 H5 H6 H7 H8] E1 E2 E3 E4. split; simpl; try done.
  intros Hd. apply E4 in Hd as (Hd & E5). destruct (H8 Hd). auto.
Qed.
Lemma safe_pc l e k p p' q ws : safe l e k p q ws → (∀ fd, fd ∈ (pending p').*1 → fd ∈ (pending p).*1) → Forall (apart l e) (pc_nums p') →
  safe l e k p' q ws.
Proof. intros [H1 H2 H3 H4 H5 H6 H7 H8] E1 E2. split; eauto. Qed.

Lemma held_loop l e s x s' : held l e s → loop_step s x = Some s' → held l e s'.
Proof.
  intros M H. pose proof M as [H0 H1 (ep & H2 & Hef & Hes) H3 H4 H5 H6 H7 H8]. unfold loop_step in H. cbv zeta in H.
  unfold ep_of in H. rewrite H2, Hef, H3 in H. destruct H0 as (Hl0 & He0 & Hle).
  assert (Hneg : apart l e (-1)) by (split; lia).
  destruct (s_loop s) as [| | |evs|soc evs|e' own kk|fd evs|fd evs|soc| |rc] eqn:El; try done.
  - assert (Hx : s' = upd s (s_k s) LWait [] ∨ s' = St (s_v s) (s_k s) LJoin (s_queue s) false (s_workers s) (s_trace s) ∨ s' = upd s (s_k s) (LRet kSuccess) []).
    { destruct (sv_mode (s_v s)); try done; destruct (ep_flag ep); injection H as <-; auto. }
    clear H. destruct Hx as [->|[->| ->]]; apply held_pc; try done; try (constructor; fail).
    all: intros Hd; split; [done|]; intros Hs; rewrite El in Hs; (eapply safe_pc; [done|done|constructor]).
  - assert (Hx : s' = upd s (s_k s) LSleep [] ∨ s' = upd s (s_k s) (LRet kSysErr) []).
    { destruct (sv_mode (s_v s)); try done; case_decide; injection H as <-; auto. }
    clear H. destruct Hx as [->| ->]; apply held_pc; try done; try (constructor; fail).
    all: intros Hd; split; [done|]; intros Hs; rewrite El in Hs; (eapply safe_pc; [done|done|constructor]).
  - assert (Hx : (∃ fds, batch_ok (s_k s) fds = true ∧ s' = upd s (s_k s) (LBatch (map (λ fd, (fd, mask_of (s_k s) fd)) fds)) [TBatch (map (λ fd, (fd, mask_of (s_k s) fd)) fds)]) ∨ s' = upd s (s_k s) LTop []).
    { destruct (sv_mode (s_v s)); try done; destruct x as [fds| | | |]; try done.
      all: try (destruct (batch_ok (s_k s) fds) eqn:Eb; [|done]; left; exists fds; split; [done|]).
      all: injection H as <-; auto. }
    clear H. destruct Hx as [(fds & Hb & ->)| ->].
    + unfold batch_ok in Hb. rewrite !andb_true_iff in Hb. destruct Hb as [[[_ Hb1] _] Hb2]. apply bool_decide_eq_true in Hb1.
      assert (Ef : (map (λ fd, (fd, mask_of (s_k s) fd)) fds).*1 = fds).
      { clear. induction fds; simpl; f_equal; done. }
      rewrite forallb_forall in Hb2.
      apply held_pc; try done.
      * simpl. by rewrite Ef.
      * intros Hd. split; [done|]. intros Hs. rewrite El in Hs. destruct Hs as [S1 S2 S3 S4 S5 S6 S7 S8]. split; try done.
        -- simpl. rewrite Ef. intros Hin. apply elem_of_list_In, Hb2 in Hin. destruct (k_watch (s_k s) !! l); [|done].
           unfold mask_of in Hin. rewrite Hd in Hin. by destruct (k_backlog (s_k s)).
        -- simpl. rewrite Ef. intros fd Hin. apply elem_of_list_In, Hb2 in Hin. apply S3. by destruct (k_watch (s_k s) !! fd).
    + apply held_pc; try done; try (constructor; fail).
      all: intros Hd; split; [done|]; intros Hs; rewrite El in Hs; (eapply safe_pc; [done|intros ? Hin; by apply elem_of_nil in Hin|constructor]).
  - destruct evs as [|[fd m] evs].
    { injection H as <-. apply held_pc; try done. intros Hd; split; [done|]; intros Hs; rewrite El in Hs. eapply safe_pc; [done|done|constructor]. }
    simpl in H4. apply NoDup_cons in H4 as [Hn4 H4].
    assert (Htl : ∀ p tr, pending p = evs → Forall (apart l e) (pc_nums p) → match p with LGot _ | LIn _ _ KQuit => False | _ => True end → held l e (upd s (s_k s) p tr)).
    { intros p tr Hp Hpn Hpp. apply held_pc; try done; [by rewrite Hp|]. intros Hd. split; [done|]. intros Hs. rewrite El in Hs.
      eapply safe_pc; [done| |done]. rewrite Hp. intros f Hf. simpl. apply elem_of_cons. by right. }
    assert (Htl' : fd ≠ l → ∀ p tr, pending p = evs → (fd ≠ e → Forall (apart l e) (pc_nums p)) → match p with LGot _ | LIn _ _ KQuit => False | _ => True end → held l e (upd s (s_k s) p tr)).
    { intros Hfd p tr Hp Hpn Hpp. apply held_pc; try done; [by rewrite Hp|]. intros Hd. split; [done|]. intros Hs. rewrite El in Hs.
      assert (fd ≠ e). { apply (f_pending _ _ _ _ _ _ Hs). simpl. apply elem_of_cons. by left. }
      eapply safe_pc; [done| |auto]. rewrite Hp. intros f Hf. simpl. apply elem_of_cons. by right. }
    destruct (decode m) as [ev|]; [|injection H as <-; apply Htl; [done|constructor|done]].
    destruct (decide (fd = l)) as [->|Hfd].
    + assert (He : ∀ tr, held l e (upd s (s_k s) (LIn kError no_sock (KBatch evs)) tr)).
      { intros tr. apply Htl; [done| |done]. constructor; [exact Hneg|constructor]. }
      case_decide as Hd; [|injection H as <-; apply He].
      destruct x as [| |fd'| |]; try done; [|injection H as <-; apply He].
      destruct (accept_as (s_k s) fd') as [[c k']|] eqn:Ea; [|done]. injection H as <-.
      apply accept_inv in Ea as (Hpos & Hnone & r & Hb & Ek).
      apply held_pc; try done. intros Hd'. split; [apply Hd|]. intros Hs. rewrite El in Hs. destruct Hs as [S1 S2 S3 S4 S5 S6 S7 S8].
      rewrite Ek. split; try done; simpl.
      * rewrite lookup_insert_ne; [done|]. intros ->. congruence.
      * intros f Hf. apply S5. simpl. apply elem_of_cons. by right.
      * rewrite sock_of_fd_pos by done. constructor; [|constructor]. simpl. destruct Hd as [_ Hd]. split; intros ->; congruence.
    + assert (Hso : so_fd (sock_of_fd fd) = fd ∨ so_fd (sock_of_fd fd) = -1).
      { unfold sock_of_fd. destruct (fd <? 0); simpl; auto. }
      assert (Ha : fd ≠ e → apart l e fd ∧ apart l e (so_fd (sock_of_fd fd))).
      { intros. assert (apart l e fd) by done. split; [done|]. by destruct Hso as [->| ->]. }
      destruct ev; try (injection H as <-).
      1: { destruct (sv_mode (s_v s)); try done; injection H as <-.
        - apply Htl'; try done. intros Hx. simpl. constructor; [by apply Ha|constructor].
        - apply held_pc; try done.
          + apply Forall_app. split; [done|]. by repeat constructor.
          + intros Hd. split; [done|]. intros Hs. rewrite El in Hs.
            assert (fd ≠ e). { apply (f_pending _ _ _ _ _ _ Hs). simpl. apply elem_of_cons. by left. }
            destruct Hs as [S1 S2 S3 S4 S5 S6 S7 S8]. split; try done; simpl.
            * intros Hin. apply S4. simpl. apply elem_of_cons. by right.
            * intros f Hin. apply S5. simpl. apply elem_of_cons. by right.
            * apply Forall_app. split; [done|]. repeat constructor; done. }
      all: apply Htl'; try done; intros Hx; simpl; (constructor; [by apply Ha|constructor; [by apply Ha|constructor]]).
  - assert (Hx : s' = upd s (s_k s) (LIn kError soc (KShut (so_fd soc) evs)) [call (s_k s) kError soc] ∨
       s' = upd s (k_add (s_k s) (so_fd soc) (ep_static_trigger ep)) (LIn kAccept soc (KBatch evs)) [call (k_add (s_k s) (so_fd soc) (ep_static_trigger ep)) kAccept soc]).
    { destruct x; try done; [case_decide; [|done]|]; injection H as <-; auto. }
    clear H. destruct Hx as [->| ->]; apply held_pc; try done; intros Hd; (split; [done|]); intros Hs; rewrite El in Hs.
    + eapply safe_pc; [done|done|]. pose proof (f_pc _ _ _ _ _ _ Hs) as Hp. simpl in *. apply Forall_cons in Hp as [Hp _]. constructor; [done|]. constructor; [done|constructor].
    + pose proof (f_pc _ _ _ _ _ _ Hs) as Hp. simpl in Hp. pose proof Hp as Hp'. apply Forall_cons in Hp' as [[Hp1 Hp2] _].
      destruct Hs as [S1 S2 S3 S4 S5 S6 S7 S8]. split; try done; simpl.
      * rewrite lookup_insert_ne; done.
      * intros f Hf. apply lookup_insert_is_Some in Hf as [<-|[_ Hf]]; [done|auto].
  - injection H as <-. apply held_pc; try done. intros Hd. split; [done|]. intros Hs. rewrite El in Hs.
    pose proof (f_pc _ _ _ _ _ _ Hs) as Hp. simpl in Hp. apply safe_del; [|by apply Forall_cons in Hp as [? _]].
    by eapply safe_pc.
  - injection H as <-. apply held_pc; try done. intros Hd. simpl in Hd. apply lookup_delete_Some in Hd as [_ Hd]. split; [done|]. intros Hs. rewrite El in Hs.
    pose proof (f_pc _ _ _ _ _ _ Hs) as Hp. simpl in Hp. apply safe_close; [|by apply Forall_cons in Hp as [? _]].
    eapply safe_pc; [done|done|constructor].
  - destruct (forallb _ _); [|done]. injection H as <-. apply held_pc; try done. intros Hd; split; [done|]; intros Hs; rewrite El in Hs. eapply safe_pc; [done|done|constructor].
Qed.

(** What a callback does to the kernel and the server object. *)
Lemma held_do l e s a own own' v k tr :
  held l e s → (k_fds (s_k s) !! l = Some DListen → apart l e (so_fd own)) → do_act a own (s_v s) (s_k s) = (own', v, k, tr) →
  held l e (with_k s v k) ∧ so_fd own' = so_fd own.
Proof.
  intros M Ho H. pose proof M as [H0 H1 (ep & H2 & Hef & Hes) H3 H4 H5 H6 H7 H8].
  assert (Hid : held l e (with_k s (s_v s) (s_k s))) by (by destruct s).
  destruct a; simpl in H.
  - destruct (id_at (s_k s) own); injection H as <- <- <- _; (split; [|done]); [|done].
    apply held_kern; try done; [by exists ep|]. intros Hd. apply fds_update in Hd; [|done]. split_and!; try done. apply safe_update.
  - injection H as <- <- <- _. split; [|done]. apply held_kern; try done; [by exists ep|]. intros Hd. split_and!; try done.
    intros Hs. apply safe_del; auto.
  - case_decide; injection H as <- <- <- _; (split; [|done]); [|done].
    apply held_kern; try done; [by exists ep|]. intros Hd. simpl in Hd. apply lookup_delete_Some in Hd as [_ Hd].
    split_and!; try done. intros Hs. apply safe_close; auto.
  - injection H as <- <- <- _. split; [|done]. unfold srv_stop. case_decide; [|done].
    apply held_kern; try done.
    simpl. rewrite H2. destruct (sv_mode (s_v s)); [|done|]; eexists; split; try done.
  - injection H as <- <- <- _. done.
Qed.
Lemma held_lact l e s a s' : held l e s → loop_act s a = Some s' → held l e s'.
Proof.
  intros M H. unfold loop_act in H. destruct (s_loop s) as [| | |evs|soc evs|e' own kk|fd evs|fd evs|soc| |rc] eqn:El; try done.
  assert (Ho : k_fds (s_k s) !! l = Some DListen → apart l e (so_fd own)).
  { intros Hd. destruct (h_safe _ _ _ M Hd) as [_ Hs]. apply f_pc in Hs. rewrite El in Hs. simpl in Hs. by apply Forall_cons in Hs as [? _]. }
  assert (Hgo : ∀ own' v' k' tr, do_act a own (s_v s) (s_k s) = (own', v', k', tr) →
    held l e (St v' k' (LIn e' own' kk) (s_queue s) (s_run s) (s_workers s) (s_trace s ++ tr))).
  { intros own' v' k' tr Ea. destruct (held_do _ _ _ _ _ _ _ _ _ M Ho Ea) as [M1 Eo].
    destruct M1 as [H0 H1 H2 H3 H4 H5 H6 H7 H8]. unfold with_k in *. simpl in *. rewrite El in *.
    split; simpl; try done. intros Hd. destruct (H8 Hd) as [Hi [S1 S2 S3 S4 S5 S6 S7 S8]]. split; [done|]. split; try done.
    simpl. by rewrite Eo. }
  destruct a; try (destruct (do_act _ own (s_v s) (s_k s)) as [[[own' v'] k'] tr] eqn:Ea; injection H as <-; by apply Hgo).
  injection H as <-. pose proof (h_nodup _ _ _ M) as Hn. pose proof (h_pc _ _ _ M) as Hpc. rewrite El in Hn, Hpc.
  destruct kk; try done; apply held_pc; try done; try apply M.
  all: intros Hd; split; [done|]; rewrite El; intros Hs; pose proof (f_pc _ _ _ _ _ _ Hs) as Hp; simpl in Hp.
  all: eapply safe_pc; [done|done|]; simpl; apply Forall_cons in Hp as [_ Hp]; done.
Qed.

Lemma held_w l e s i w w' q r tr :
  held l e s → s_workers s !! i = Some w → match w' with VIdle | VIn _ _ _ true => True | _ => False end →
  Forall (λ j, match j with JRead _ => True | _ => False end) q →
  (safe l e (s_k s) (s_loop s) (s_queue s) (s_workers s) → Forall (λ j, apart l e (j_nums j)) q ∧ Forall (apart l e) (w_nums w')) →
  held l e (St (s_v s) (s_k s) (s_loop s) q r (<[i := w']> (s_workers s)) tr).
Proof.
  intros [H0 H1 H2 H3 H4 H5 H6 H7 H8] Ew Ew' Hq Hs. split; simpl; try done.
  - by apply Forall_insert.
  - intros Hd. destruct (H8 Hd) as [Hi HS]. split; [done|]. destruct (Hs HS) as [Q1 Q2]. destruct HS as [S1 S2 S3 S4 S5 S6 S7 S8]. split; try done.
    by apply Forall_insert.
Qed.
Lemma held_worker l e s i s' : held l e s → worker_step s i = Some s' → held l e s'.
Proof.
  intros M H. unfold worker_step in H. destruct (s_workers s !! i) as [w|] eqn:Ew; [|done].
  pose proof (h_once _ _ _ M) as Ho. rewrite Forall_forall in Ho. specialize (Ho _ ltac:(by eapply elem_of_list_lookup_2)).
  destruct w as [| |]; try done.
  destruct (s_run s) eqn:Er; [|done]. destruct (s_queue s) as [|j q] eqn:Eq; [done|].
  pose proof (h_jobs _ _ _ M) as Hj. rewrite Eq in Hj. apply Forall_cons in Hj as [Hj1 Hj2]. destruct j as [|fd]; [done|].
  injection H as <-. apply (held_w l e s i VIdle); [done|done|done|done|]. intros HS. apply f_q in HS. rewrite Eq in HS. apply Forall_cons in HS as [HS1 HS2].
  split; [done|]. simpl in *. assert (apart l e (so_fd (sock_of_fd fd))).
  { unfold sock_of_fd. by destruct (fd <? 0). }
  constructor; [done|]. constructor; [done|constructor].
Qed.
Lemma held_wact l e s i a s' : held l e s → worker_act s i a = Some s' → held l e s'.
Proof.
  intros M H. unfold worker_act in H. destruct (s_workers s !! i) as [w|] eqn:Ew; [|done].
  pose proof (h_once _ _ _ M) as Ho. rewrite Forall_forall in Ho. specialize (Ho _ ltac:(by eapply elem_of_list_lookup_2)).
  destruct w as [| |e' own soc [|]]; try done.
  assert (Hown : k_fds (s_k s) !! l = Some DListen → apart l e (so_fd own) ∧ apart l e (so_fd soc)).
  { intros Hd. destruct (h_safe _ _ _ M Hd) as [_ Hs]. apply f_ws in Hs. rewrite Forall_forall in Hs.
    specialize (Hs _ ltac:(by eapply elem_of_list_lookup_2)). simpl in Hs. apply Forall_cons in Hs as [? Hs]. by apply Forall_cons in Hs as [? _]. }
  assert (Hgo : ∀ own' v' k' tr, do_act a own (s_v s) (s_k s) = (own', v', k', tr) →
    held l e (St v' k' (s_loop s) (s_queue s) (s_run s) (<[i := VIn e' own' soc true]> (s_workers s)) (s_trace s ++ tr))).
  { intros own' v' k' tr Ea. destruct (held_do l e _ _ _ _ _ _ _ M (λ H, proj1 (Hown H)) Ea) as [M1 Eo].
    apply (held_w l e (with_k s v' k') i (VIn e' own soc true)); try done; simpl; try apply M1. intros HS. pose proof (f_ws _ _ _ _ _ _ HS) as Hw.
    split; [apply HS|]. rewrite Eo. rewrite Forall_forall in Hw.
    specialize (Hw _ ltac:(by eapply elem_of_list_lookup_2)). done. }
  destruct a; try (destruct (do_act _ own (s_v s) (s_k s)) as [[[own' v'] k'] tr] eqn:Ea; injection H as <-; by apply Hgo).
  injection H as <-. unfold upd_w. eapply held_w; try done; try apply M. intros HS. split; [apply HS|constructor].
Qed.

Lemma held_step l e s lb s' : held l e s → step s lb = Some s' → held l e s'.
Proof.
  intros M H. pose proof M as [H0 H1 (ep & H2 & Hef & Hes) H3 H4 H5 H6 H7 H8].
  assert (Hk : ∀ k, (k_fds k !! l = Some DListen → k_fds (s_k s) !! l = Some DListen ∧
     (safe l e (s_k s) (s_loop s) (s_queue s) (s_workers s) → safe l e k (s_loop s) (s_queue s) (s_workers s))) → held l e (with_k s (s_v s) k)).
  { intros k Hx. apply held_kern; try done; [by exists ep|]. intros Hd. destruct (Hx Hd). done. }
  destruct lb as [x|a|i|i a| |id n|id|id|fd|fd| |r| ]; cbn [step] in H.
  - by eapply held_loop.
  - by eapply held_lact.
  - by eapply held_worker.
  - by eapply held_wact.
  - destruct (listening s); [|done]. injection H as <-. apply Hk. intros. split; [done|]. apply safe_connect.
  - injection H as <-. apply Hk. intros Hd. apply fds_update in Hd; [|done]. split; [done|]. apply safe_update.
  - injection H as <-. apply Hk. intros Hd. apply fds_update in Hd; [|done]. split; [done|]. apply safe_update.
  - injection H as <-. apply Hk. intros Hd. apply fds_update in Hd; [|done]. split; [done|]. apply safe_update.
  - destruct (decide (0 <= fd)); [|done]. destruct (k_fds (s_k s) !! fd) eqn:E; [done|]. injection H as <-.
    apply Hk. intros Hd. simpl in Hd. apply lookup_insert_Some in Hd as [[_ ?]|[_ Hd]]; [done|]. split; [done|]. intros. by apply safe_set.
  - case_decide as E; [|done]. injection H as <-.
    apply Hk. intros Hd. simpl in Hd. apply lookup_delete_Some in Hd as [_ Hd]. split; [done|]. intros HS. apply safe_close; [done|].
    split; intros ->; [congruence|]. by rewrite (f_ep _ _ _ _ _ _ HS) in E.
  - injection H as <-. destruct (stop_facts (s_v s)) as (E1 & E2 & E3).
    destruct (held_do l e s AStop no_sock no_sock (srv_stop (s_v s)) (s_k s) [] M) as [Hh _]; [intros; split; simpl; lia|done|done].
  - case_decide as E; [|done]. injection H as <-. unfold srv_wakeup.
    assert (Hid : held l e (with_k s (s_v s) (s_k s))) by (by destruct s).
    destruct (sv_flag (s_v s)); [done|]. destruct (sv_mode (s_v s)); try done.
    destruct (Z.ltb_spec r 0); [done|]. destruct E as [?|E]; [lia|].
    destruct (listening s); simpl; apply Hk; intros Hd.
    + split; [done|]. apply safe_connect.
    + simpl in Hd. apply lookup_insert_Some in Hd as [[_ ?]|[_ Hd]]; [done|]. split; [done|]. intros. by apply safe_set.
  - unfold srv_clean, close_sock in H. rewrite H2 in H. rewrite bool_decide_false in H by done. cbn [andb] in H.
    rewrite H3, Hef in H.
    destruct (decide (so_status (ep_fd ep) = kInit)) as [Hi2|Hi2].
    { rewrite (decide_True _ _ (Hes Hi2)) in H. injection H as <-. split; simpl; try done; [by eexists|].
      intros Hd. repeat (apply lookup_delete_Some in Hd as [? Hd]). done. }
    destruct (decide (so_status (sv_lis (s_v s)) = kInit)) as [Hi|Hi]; injection H as <-; split; simpl; try done; try (by eexists).
    + intros Hd. repeat (apply lookup_delete_Some in Hd as [? Hd]). done.
    + intros Hd. exfalso. apply Hi. by apply H8.
Qed.

Lemma held_boot m n l e others : m ≠ kMultiThread → others_ok others l e → held l e (booted m n l e others).
Proof.
  intros Hm (Hl & He & Hne & H1 & H2).
  assert (booted m n l e others = St (Srv m (addr_init (B "127.0.0.1") 80).2 (Sock l kInit) true (Some None)
                      (Some (Epoll (Sock e kInit) true kLevel kLevel)) (bool_decide (m = kMixed)))
            (Kern (<[e := DEpoll]> (<[l := DListen]> (other_fds others))) [] {[ l := kLevel ]} 0) LTop [] true (replicate n VIdle) []) as ->.
  { destruct m; done. }
  split; simpl; try done; try (constructor; fail).
  - by eexists.
  - by apply Forall_replicate.
  - intros _. split; [done|]. split; simpl; try done; try (constructor; fail).
    + by rewrite lookup_insert.
    + rewrite lookup_singleton. by eexists.
    + intros fd [t Ht]. apply lookup_singleton_Some in Ht as [<- _]. done.
    + intros Hx. by apply elem_of_nil in Hx.
    + intros fd Hx. by apply elem_of_nil in Hx.
    + apply Forall_replicate. constructor.
Qed.
Lemma held_reach ok m n l e others s : m ≠ kMultiThread → others_ok others l e → reach ok (booted m n l e others) s → held l e s.
Proof. intros Hm Ho. induction 1 as [|s lb s' _ IH _ Hs]; [by apply held_boot|]. by eapply held_step. Qed.

(** ** The server object *)
Lemma do_v a own v k own' v' k' tr : do_act a own v k = (own', v', k', tr) → v' = v ∨ v' = srv_stop v.
Proof. destruct a; simpl; repeat case_match; intros; simplify_eq; auto. Qed.
Lemma step_v s lb s' : step s lb = Some s' → s_v s' = s_v s ∨ s_v s' = srv_stop (s_v s) ∨ (lb = XClean ∧ s_v s' = (srv_clean (s_v s) (s_k s)).1).
Proof.
  destruct lb as [x|a|i|i a| |id n|id|id|fd|fd| |r| ]; cbn [step]; intros H.
  - left. unfold loop_step in H. cbv zeta in H.
    repeat match type of H with context [match ?b with _ => _ end] => destruct b end; try done; by injection H as <-.
  - unfold loop_act in H. destruct (s_loop s); try done.
    destruct a; try (destruct (do_act _ own (s_v s) (s_k s)) as [[[own' v'] k'] tr] eqn:Ea; injection H as <-; apply do_v in Ea as [->| ->]; auto).
    injection H as <-. auto.
  - left. unfold worker_step in H. repeat match type of H with context [match ?b with _ => _ end] => destruct b end; try done; by injection H as <-.
  - unfold worker_act in H. destruct (s_workers s !! i) as [[| |e own soc once]|]; try done.
    destruct a; try (destruct (do_act _ own (s_v s) (s_k s)) as [[[own' v'] k'] tr] eqn:Ea; injection H as <-; apply do_v in Ea as [->| ->]; auto).
    injection H as <-. auto.
  - destruct (listening s); [|done]. injection H as <-. auto.
  - injection H as <-. auto.
  - injection H as <-. auto.
  - injection H as <-. auto.
  - destruct (decide (0 <= fd)); [|done]. destruct (k_fds (s_k s) !! fd); [done|]. injection H as <-. auto.
  - case_decide; [|done]. injection H as <-. auto.
  - injection H as <-. auto.
  - case_decide; [|done]. injection H as <-. auto.
  - destruct (srv_clean (s_v s) (s_k s)) as [v' k'] eqn:E. injection H as <-. auto.
Qed.
Definition flags (m : mode) (v : srv) : Prop :=
  sv_mode v = m ∧ (sv_flag v = false → ∀ ep, sv_io v = Some ep → m ≠ kMultiThread → ep_flag ep = false) ∧ (sv_io v = None ↔ m = kMultiThread).
Lemma flags_stop m v : flags m v → flags m (srv_stop v).
Proof.
  intros (<- & H2 & H3). unfold srv_stop. case_decide; [|done]. unfold flags. simpl. split; [done|].
  destruct (sv_mode v), (sv_io v); naive_solver.
Qed.
Lemma flags_clean m v k : flags m v → flags m (srv_clean v k).1.
Proof.
  intros (<- & H2 & H3). unfold srv_clean, close_sock.
  destruct (decide (so_status (sv_lis v) = kInit)); destruct (sv_io v) as [ep|] eqn:E; try destruct (decide (so_status (ep_fd ep) = kInit)).
  all: unfold flags; simpl; split; [done|]; naive_solver.
Qed.
Lemma flags_reach ok m n l e others s : reach ok (booted m n l e others) s → flags m (s_v s).
Proof.
  induction 1 as [|s lb s' _ IH _ Hs].
  - destruct m; unfold flags; simpl; naive_solver.
  - destruct (step_v _ _ _ Hs) as [->|[->|[_ ->]]]; [done|by apply flags_stop|by apply flags_clean].
Qed.

Lemma woken_down m s s' : flags m (s_v s) → woken s s' → down s' ∧ flags m (s_v s') ∧ s_loop s' = s_loop s ∧
  (m ≠ kIOMultiplexing → listening s = true ∧ k_backlog (s_k s') ≠ [] ∧ ∀ fd, k_fds (s_k s') !! fd = k_fds (s_k s) !! fd).
Proof.
  intros Hf (s1 & r & H1 & H2 & H3). cbn [step] in H1, H2. injection H1 as <-. case_decide as Hr; [|done]. injection H2 as <-.
  apply flags_stop in Hf. unfold with_k in *. simpl in *.
  assert (sv_flag (srv_stop (s_v s)) = false) as Hfl.
  { unfold srv_wakeup in H3. by destruct (sv_flag (srv_stop (s_v s))). }
  pose proof Hf as (Hm & Hf' & Hn). split; [|split; [done|split; [done|]]].
  - split; [done|]. simpl. split.
    + intros ep Hep. destruct (decide (m = kMultiThread)) as [->|]; [|eauto].
      destruct Hn as [_ Hn]. rewrite Hn in Hep; done.
    + intros Hi. rewrite Hm. by apply Hn.
  - intros Hmo. unfold srv_wakeup in *. simpl in *. rewrite Hfl, Hm in *.
    assert (E : listening (St (srv_stop (s_v s)) (s_k s) (s_loop s) (s_queue s) (s_run s) (s_workers s) (s_trace s)) = listening s).
    { unfold listening. simpl. destruct (stop_facts (s_v s)) as (E1 & E2 & _). by rewrite E1, E2. }
    rewrite E in *.
    destruct m; [done|..]; destruct (r <? 0); try done; destruct (listening s); try done; simpl; split_and!; try done.
    all: by destruct (k_backlog (s_k s)).
Qed.

Lemma fresh_fd (k : kern) : ∃ fd, 0 <= fd ∧ k_fds k !! fd = None.
Proof.
  exists (Z.of_nat (fresh (Z.to_nat <$> elements (dom (k_fds k))))). split; [lia|].
  apply not_elem_of_dom. intros Hin. apply (infinite_is_fresh (Z.to_nat <$> elements (dom (k_fds k)))).
  apply elem_of_list_fmap. eexists. rewrite elem_of_elements. split; [|done]. by rewrite Nat2Z.id.
Qed.
Lemma can_accept k : k_backlog k ≠ [] → ∃ fd r, accept_as k fd = Some r.
Proof.
  intros H. destruct (fresh_fd k) as (fd & H1 & H2). exists fd. unfold accept_as. destruct (k_backlog k); [done|].
  rewrite decide_True by done. rewrite H2. eauto.
Qed.

(** Callbacks and workers leave the backlog alone. *)
Lemma update_backlog k g id : k_backlog (k_update k g id) = [] → k_backlog k = [].
Proof. simpl. by destruct (k_backlog k). Qed.
Lemma do_backlog a own v k own' v' k' tr : do_act a own v k = (own', v', k', tr) → k_backlog k' = [] → k_backlog k = [].
Proof. destruct a; simpl; repeat case_match; intros; simplify_eq; auto; by eapply update_backlog. Qed.
Lemma act_backlog s lb s' : match lb with ALoop _ | GWork _ | AWork _ _ => True | _ => False end → step s lb = Some s' →
  k_backlog (s_k s') = [] → k_backlog (s_k s) = [].
Proof.
  destruct lb as [x|a|i|i a| |id n|id|id|fd|fd| |r| ]; try done; intros _; cbn [step]; intros H.
  - unfold loop_act in H. destruct (s_loop s); try done.
    destruct a; try (destruct (do_act _ own (s_v s) (s_k s)) as [[[own' v'] k'] tr] eqn:Ea; injection H as <-; by eapply do_backlog).
    by injection H as <-.
  - unfold worker_step in H. repeat match type of H with context [match ?b with _ => _ end] => destruct b end; try done; by injection H as <-.
  - unfold worker_act in H. destruct (s_workers s !! i) as [[| |e own soc once]|]; try done.
    destruct a; try (destruct (do_act _ own (s_v s) (s_k s)) as [[[own' v'] k'] tr] eqn:Ea; injection H as <-; by eapply do_backlog).
    by injection H as <-.
Qed.
Lemma act_loop s lb s' : match lb with ALoop _ | GWork _ | AWork _ _ => True | _ => False end → step s lb = Some s' →
  s_loop s' = s_loop s ∨ match s_loop s' with LWait | LSleep => False | _ => True end.
Proof.
  destruct lb as [x|a|i|i a| |id n|id|id|fd|fd| |r| ]; try done; intros _; cbn [step]; intros H.
  - unfold loop_act in H. destruct (s_loop s); try done.
    destruct a; try (destruct (do_act _ own (s_v s) (s_k s)) as [[[own' v'] k'] tr] eqn:Ea; injection H as <-; by right).
    injection H as <-. right. by destruct k.
  - left. unfold worker_step in H. repeat match type of H with context [match ?b with _ => _ end] => destruct b end; try done; by injection H as <-.
  - left. unfold worker_act in H. destruct (s_workers s !! i) as [[| |e own soc once]|]; try done.
    destruct a; try (destruct (do_act _ own (s_v s) (s_k s)) as [[[own' v'] k'] tr] eqn:Ea; by injection H as <-).
    by injection H as <-.
Qed.

(** *** Multithread mode *)
Definition mt_wait (s : st) : Prop :=
  flags kMultiThread (s_v s) ∧ down s ∧
  match s_loop s with
  | LSleep => k_backlog (s_k s) ≠ []
  | LWait => k_backlog (s_k s) ≠ [] ∨ so_status (sv_lis (s_v s)) ≠ kInit
  | LTop | LGot _ | LIn _ _ KQuit | LJoin | LRet _ => True
  | _ => False
  end.
Lemma flags_step m s lb s' : flags m (s_v s) → step s lb = Some s' → flags m (s_v s').
Proof. intros Hf Hs. destruct (step_v _ _ _ Hs) as [->|[->|[_ ->]]]; [done|by apply flags_stop|by apply flags_clean]. Qed.
Lemma down_clean s s' : down s → step s XClean = Some s' → down s' ∧ s_loop s' = s_loop s.
Proof.
  intros (H1 & H2 & H3) H. cbn [step] in H. unfold srv_clean, close_sock in H.
  destruct (decide (so_status (sv_lis (s_v s)) = kInit)); destruct (sv_io (s_v s)) as [ep|] eqn:E; try destruct (decide (so_status (ep_fd ep) = kInit)).
  all: injection H as <-; split; [|done]; unfold down; simpl; split_and!; try done; naive_solver.
Qed.
Lemma mt_wait_step s lb s' : mt_wait s → internal lb ∨ lb = XClean → step s lb = Some s' → mt_wait s'.
Proof.
  intros (Hf & Hd & Hw) Hi Hs. split; [by eapply flags_step|].
  destruct Hi as [Hi| ->].
  - destruct (down_step _ _ _ Hd Hi Hs) as [Hd' _]. split; [done|].
    destruct lb as [x|a|i|i a| | | | | | | | | ]; try done.
    + cbn [step] in Hs. unfold loop_step in Hs. cbv zeta in Hs. destruct Hf as (Hm & _ & _). rewrite Hm in Hs.
      destruct Hd as (Hfl & _ & _). rewrite Hfl in Hs.
      destruct (s_loop s) as [| | |evs|soc evs|e' own kk|fd evs|fd evs|soc| |rc] eqn:El; try done.
      * by injection Hs as <-.
      * case_decide as Hx; injection Hs as <-; simpl; [|done]. destruct Hw as [Hw|Hw]; [done|]. by destruct Hx.
      * destruct x; try done; [destruct (accept_as _ _) as [[c k']|]; [|done]|]; by injection Hs as <-.
      * by injection Hs as <-.
      * destruct (forallb _ _); [|done]. by injection Hs as <-.
    + pose proof Hs as Hs2. cbn [step] in Hs. unfold loop_act in Hs. destruct (s_loop s) as [| | |evs|soc evs|e' own kk|fd evs|fd evs|soc| |rc] eqn:El; try done.
      destruct kk; try done.
      destruct a; try (destruct (do_act _ own (s_v s) (s_k s)) as [[[own' v'] k'] tr] eqn:Ea; by injection Hs as <-).
      by injection Hs as <-.
    + pose proof (act_backlog s (GWork i) s' I Hs) as Hb. cbn [step] in Hs. destruct (down_worker _ _ _ Hd Hs) as [_ ->].
      destruct (s_loop s); try done; [|naive_solver].
      destruct (step_v s (GWork i) s' Hs) as [Hv|[Hv|[? _]]]; [| |done]; rewrite Hv.
      * naive_solver.
      * destruct (stop_facts (s_v s)) as (_ & -> & _). naive_solver.
    + pose proof (act_backlog s (AWork i a) s' I Hs) as Hb. cbn [step] in Hs. destruct (down_worker_act _ _ _ _ Hd Hs) as [_ ->].
      destruct (s_loop s); try done; [|naive_solver].
      destruct (step_v s (AWork i a) s' Hs) as [Hv|[Hv|[? _]]]; [| |done]; rewrite Hv.
      * naive_solver.
      * destruct (stop_facts (s_v s)) as (_ & -> & _). naive_solver.
  - destruct (down_clean _ _ Hd Hs) as [Hd' ->]. split; [done|]. destruct Hf as (Hm & _ & Hn).
    cbn [step] in Hs. unfold srv_clean, close_sock in Hs. rewrite (proj2 Hn eq_refl), Hm in Hs. rewrite bool_decide_true in Hs by done. cbn [andb] in Hs.
    destruct (s_loop s); try done.
    + right. destruct (decide (so_status (sv_lis (s_v s)) = kInit)); injection Hs as <-; done.
    + destruct (decide (so_status (sv_lis (s_v s)) = kInit)); injection Hs as <-; done.
Qed.
Lemma mt_wait_blocked s : mt_wait s → blocked s → s_loop s = LJoin ∧ ∃ i w, s_workers s !! i = Some w ∧ w ≠ VIdle.
Proof.
  intros ((Hm & _ & _) & (Hfl & _ & _) & Hw) Hb. unfold blocked in Hb.
  destruct (s_loop s) as [| | |evs|soc evs|e' own kk|fd evs|fd evs|soc| |rc] eqn:El; try done.
  - specialize (Hb AOk). unfold loop_step in Hb. by rewrite El, Hm, Hfl in Hb.
  - specialize (Hb AOk). unfold loop_step in Hb. rewrite El, Hm in Hb. by case_decide.
  - destruct (can_accept _ Hw) as (fd & [c k'] & Ha). specialize (Hb (AFd fd) ltac:(done) ltac:(done)).
    unfold loop_step in Hb. by rewrite El, Hm, Ha in Hb.
  - specialize (Hb AOk). unfold loop_step in Hb. by rewrite El, Hfl in Hb.
  - split; [done|]. specialize (Hb AOk). unfold loop_step in Hb. rewrite El in Hb. destruct (forallb _ _) eqn:Ef; [done|].
    clear -Ef. induction (s_workers s) as [|w ws IH]; [done|]. simpl in Ef. destruct w; [|exists 0%nat; by eexists..].
    destruct (IH Ef) as (i & w & ? & ?). exists (S i), w. done.
Qed.

(** *** Mixed mode *)
Definition mx_wait (l e : Z) (s : st) : Prop :=
  held l e s ∧ down s ∧ k_fds (s_k s) !! l = Some DListen ∧
  match s_loop s with LSleep | LWait => k_backlog (s_k s) ≠ [] | _ => True end.
Lemma do_listen l e a own v k own' v' k' tr : do_act a own v k = (own', v', k', tr) → apart l e (so_fd own) →
  k_fds k !! l = Some DListen → k_fds k' !! l = Some DListen.
Proof.
  intros Ha [Ho _] Hd. destruct a; simpl in Ha; repeat case_match; simplify_eq; try done.
  - by apply fds_update.
  - simpl. by rewrite lookup_delete_ne.
Qed.
Lemma mx_wait_step l e s lb s' : mx_wait l e s → internal lb → step s lb = Some s' → mx_wait l e s'.
Proof.
  intros (Hh & Hd & Hl & Hw) Hi Hs. pose proof (held_step _ _ _ _ _ Hh Hs) as Hh'.
  destruct (down_step _ _ _ Hd Hi Hs) as [Hd' _]. split; [done|]. split; [done|].
  destruct (h_safe _ _ _ Hh Hl) as [Hst HS].
  destruct lb as [x|a|i|i a| | | | | | | | | ]; try done.
  - cbn [step] in Hs. destruct Hh as [H0 H1 (ep & H2 & Hef & Hes) H3 H4 H5 H6 H7 H8]. destruct Hd as (Hfl & Hef' & _).
    unfold loop_step in Hs. cbv zeta in Hs. unfold ep_of in Hs. rewrite H2, (Hef' _ H2), Hfl, H3 in Hs.
    destruct (s_loop s) as [| | |evs|soc evs|e' own kk|fd evs|fd evs|soc| |rc] eqn:El; try done.
    + destruct (sv_mode (s_v s)); try done; by injection Hs as <-.
    + destruct (sv_mode (s_v s)); try done; case_decide; by injection Hs as <-.
    + destruct (sv_mode (s_v s)); try done; destruct x; try done; [destruct (batch_ok _ _); [|done]| |destruct (batch_ok _ _); [|done]|]; by injection Hs as <-.
    + destruct evs as [|[fd m] evs]; [by injection Hs as <-|]. destruct (decode m) as [ev|]; [|by injection Hs as <-].
      destruct (decide (fd = l)) as [->|].
      * case_decide; [|by injection Hs as <-]. destruct x; try done; [|by injection Hs as <-].
        destruct (accept_as (s_k s) fd) as [[c k']|] eqn:Ea; [|done]. injection Hs as <-. simpl.
        apply accept_inv in Ea as (Hpos & Hnone & r & Hb & ->). simpl. split; [|done].
        rewrite lookup_insert_ne; [done|]. intros ->. congruence.
      * destruct ev; [destruct (sv_mode (s_v s)); try done| |]; by injection Hs as <-.
    + destruct x; try done; [case_decide; [|done]|]; by injection Hs as <-.
    + by injection Hs as <-.
    + injection Hs as <-. simpl. split; [|done]. apply f_pc in HS. simpl in HS. apply Forall_cons in HS as [[? _] _]. by rewrite lookup_delete_ne.
    + destruct (forallb _ _); [|done]. by injection Hs as <-.
  - assert (k_fds (s_k s') !! l = Some DListen) as Hl'.
    { cbn [step] in Hs. unfold loop_act in Hs. destruct (s_loop s) eqn:El; try done.
      apply f_pc in HS. simpl in HS. apply Forall_cons in HS as [HS _].
      destruct a; try (destruct (do_act _ own (s_v s) (s_k s)) as [[[own' v'] k'] tr] eqn:Ea; injection Hs as <-; by eapply do_listen).
      by injection Hs as <-. }
    split; [done|]. pose proof (act_backlog s (ALoop a) s' I Hs) as Hb. destruct (act_loop s (ALoop a) s' I Hs) as [->|Hx]; destruct (s_loop s); try done; try naive_solver.
    all: by destruct (s_loop s').
  - assert (s_k s' = s_k s) as Ek.
    { cbn [step] in Hs. unfold worker_step in Hs. repeat match type of Hs with context [match ?b with _ => _ end] => destruct b end; try done; by injection Hs as <-. }
    rewrite Ek. split; [done|]. cbn [step] in Hs. by destruct (down_worker _ _ _ Hd Hs) as [_ ->].
  - assert (k_fds (s_k s') !! l = Some DListen) as Hl'.
    { cbn [step] in Hs. unfold worker_act in Hs. destruct (s_workers s !! i) as [[| |e' own soc once]|] eqn:Ew; try done.
      apply f_ws in HS. rewrite Forall_forall in HS. specialize (HS _ ltac:(by eapply elem_of_list_lookup_2)). simpl in HS. apply Forall_cons in HS as [HS _].
      destruct a; try (destruct (do_act _ own (s_v s) (s_k s)) as [[[own' v'] k'] tr] eqn:Ea; injection Hs as <-; by eapply do_listen).
      by injection Hs as <-. }
    split; [done|]. pose proof (act_backlog s (AWork i a) s' I Hs) as Hb. cbn [step] in Hs. destruct (down_worker_act _ _ _ _ Hd Hs) as [_ ->].
    destruct (s_loop s); try done; naive_solver.
Qed.
Lemma mx_wait_blocked l e s : mx_wait l e s → blocked s → s_loop s = LJoin ∧ ∃ i e' own soc, s_workers s !! i = Some (VIn e' own soc true).
Proof.
  intros (Hh & Hd & Hl & Hw) Hb. destruct (h_safe _ _ _ Hh Hl) as [Hst HS].
  destruct Hh as [H0 H1 (ep & H2 & Hef & Hes) H3 H4 H5 H6 H7 H8]. destruct Hd as (Hfl & Hef' & _). unfold blocked in Hb.
  destruct (s_loop s) as [| | |evs|soc evs|e' own kk|fd evs|fd evs|soc| |rc] eqn:El; try done.
  - specialize (Hb AOk). unfold loop_step, ep_of in Hb. rewrite El, H2, (Hef' _ H2) in Hb. by destruct (sv_mode (s_v s)).
  - specialize (Hb AOk). unfold loop_step in Hb. rewrite El in Hb. destruct (sv_mode (s_v s)); try done; by case_decide.
  - specialize (Hb (AFds [l]) ltac:(done) ltac:(done)). unfold loop_step in Hb. rewrite El in Hb.
    assert (batch_ok (s_k s) [l] = true) as Eb.
    { unfold batch_ok. rewrite !andb_true_iff. split_and!; try done.
      simpl. destruct (f_watch _ _ _ _ _ _ HS) as [t ->]. unfold mask_of. rewrite Hl. by destruct (k_backlog (s_k s)). }
    rewrite Eb in Hb. by destruct (sv_mode (s_v s)).
  - exfalso. destruct evs as [|[fd m] evs].
    { specialize (Hb AOk ltac:(done) ltac:(done)). unfold loop_step in Hb. by rewrite El in Hb. }
    destruct (decide (fd = l ∧ is_Some (decode m))) as [[-> [ev Hev]]|Hne].
    + assert (k_backlog (s_k s) ≠ []) as Hbl. { apply (f_backlog _ _ _ _ _ _ HS). simpl. apply elem_of_cons. by left. }
      destruct (can_accept _ Hbl) as (fd' & [c k'] & Ha). specialize (Hb (AFd fd') ltac:(done) ltac:(done)).
      unfold loop_step in Hb. by rewrite El, Hev, H3, decide_True, decide_True, Ha in Hb.
    + specialize (Hb AOk ltac:(done) ltac:(done)). unfold loop_step in Hb. rewrite El, H3 in Hb.
      destruct (decode m) as [ev|]; [|done]. rewrite decide_False in Hb by (intros ->; apply Hne; split; [done|by eexists]).
      destruct ev; try done. by destruct (sv_mode (s_v s)).
  - specialize (Hb AFail). unfold loop_step in Hb. by rewrite El in Hb.
  - specialize (Hb AFail). unfold loop_step in Hb. by rewrite El in Hb.
  - specialize (Hb AFail). unfold loop_step in Hb. by rewrite El in Hb.
  - split; [done|]. specialize (Hb AOk). unfold loop_step in Hb. rewrite El in Hb. destruct (forallb _ _) eqn:Ef; [done|].
    clear -Ef H5. induction (s_workers s) as [|w ws IH]; [done|]. apply Forall_cons in H5 as [Hw H5]. simpl in Ef. destruct w as [| |e own soc [|]]; try done.
    + destruct (IH H5 Ef) as (i & e' & own & soc & ?). exists (S i), e', own, soc. done.
    + exists 0%nat. by eauto.
Qed.

(** ** Without Stop and Clean the loop goes on *)
Lemma do_v_same a own v k own' v' k' tr : a ≠ AStop → do_act a own v k = (own', v', k', tr) → v' = v.
Proof. destruct a; simpl; repeat case_match; intros; simplify_eq; auto. Qed.
Lemma step_v_same s lb s' : stopping lb = false → step s lb = Some s' → s_v s' = s_v s.
Proof.
  destruct lb as [x|a|i|i a| |id n|id|id|fd|fd| |r| ]; cbn [step]; intros Hn H; try done.
  - unfold loop_step in H. cbv zeta in H.
    repeat match type of H with context [match ?b with _ => _ end] => destruct b end; try done; by injection H as <-.
  - unfold loop_act in H. destruct (s_loop s); try done.
    destruct a; try done; try (destruct (do_act _ own (s_v s) (s_k s)) as [[[own' v'] k'] tr] eqn:Ea; injection H as <-; simpl; by eapply do_v_same in Ea).
    by injection H as <-.
  - unfold worker_step in H. repeat match type of H with context [match ?b with _ => _ end] => destruct b end; try done; by injection H as <-.
  - unfold worker_act in H. destruct (s_workers s !! i) as [[| |e own soc once]|]; try done.
    destruct a; try done; try (destruct (do_act _ own (s_v s) (s_k s)) as [[[own' v'] k'] tr] eqn:Ea; injection H as <-; simpl; by eapply do_v_same in Ea).
    by injection H as <-.
  - destruct (listening s); [|done]. by injection H as <-.
  - by injection H as <-.
  - by injection H as <-.
  - by injection H as <-.
  - destruct (decide (0 <= fd)); [|done]. destruct (k_fds (s_k s) !! fd); [done|]. by injection H as <-.
  - case_decide; [|done]. by injection H as <-.
  - case_decide; [|done]. by injection H as <-.
Qed.
Lemma listen_step l e s lb s' : held l e s → k_fds (s_k s) !! l = Some DListen → lb ≠ XClean → step s lb = Some s' → k_fds (s_k s') !! l = Some DListen.
Proof.
  intros Hh Hl Hx Hs. destruct (h_safe _ _ _ Hh Hl) as [Hst HS].
  destruct lb as [x|a|i|i a| |id n|id|id|fd|fd| |r| ]; cbn [step] in Hs; try done.
  - destruct Hh as [H0 H1 (ep & H2 & Hef & Hes) H3 H4 H5 H6 H7 H8].
    unfold loop_step in Hs. cbv zeta in Hs. unfold ep_of in Hs. rewrite H2, H3 in Hs.
    destruct (s_loop s) as [| | |evs|soc evs|e' own kk|fd evs|fd evs|soc| |rc] eqn:El; try done.
    + destruct (sv_mode (s_v s)); try done; destruct (ep_flag ep); by injection Hs as <-.
    + destruct (sv_mode (s_v s)); try done; case_decide; by injection Hs as <-.
    + destruct (sv_mode (s_v s)); try done; destruct x; try done; [destruct (batch_ok _ _); [|done]| |destruct (batch_ok _ _); [|done]|]; by injection Hs as <-.
    + destruct evs as [|[fd m] evs]; [by injection Hs as <-|]. destruct (decode m) as [ev|]; [|by injection Hs as <-].
      destruct (decide (fd = l)) as [->|].
      * case_decide; [|by injection Hs as <-]. destruct x; try done; [|by injection Hs as <-].
        destruct (accept_as (s_k s) fd) as [[c k']|] eqn:Ea; [|done]. injection Hs as <-. simpl.
        apply accept_inv in Ea as (Hpos & Hnone & r & Hb & ->). simpl.
        rewrite lookup_insert_ne; [done|]. intros ->. congruence.
      * destruct ev; [destruct (sv_mode (s_v s)); try done| |]; by injection Hs as <-.
    + destruct x; try done; [case_decide; [|done]|]; by injection Hs as <-.
    + by injection Hs as <-.
    + injection Hs as <-. simpl. apply f_pc in HS. simpl in HS. apply Forall_cons in HS as [[? _] _]. by rewrite lookup_delete_ne.
    + destruct (forallb _ _); [|done]. by injection Hs as <-.
  - unfold loop_act in Hs. destruct (s_loop s) eqn:El; try done.
    apply f_pc in HS. simpl in HS. apply Forall_cons in HS as [HS _].
    destruct a; try (destruct (do_act _ own (s_v s) (s_k s)) as [[[own' v'] k'] tr] eqn:Ea; injection Hs as <-; by eapply do_listen).
    by injection Hs as <-.
  - unfold worker_step in Hs. repeat match type of Hs with context [match ?b with _ => _ end] => destruct b end; try done; by injection Hs as <-.
  - unfold worker_act in Hs. destruct (s_workers s !! i) as [[| |e' own soc once]|] eqn:Ew; try done.
    apply f_ws in HS. rewrite Forall_forall in HS. specialize (HS _ ltac:(by eapply elem_of_list_lookup_2)). simpl in HS. apply Forall_cons in HS as [HS _].
    destruct a; try (destruct (do_act _ own (s_v s) (s_k s)) as [[[own' v'] k'] tr] eqn:Ea; injection Hs as <-; by eapply do_listen).
    by injection Hs as <-.
  - destruct (listening s); [|done]. by injection Hs as <-.
  - injection Hs as <-. by apply fds_update.
  - injection Hs as <-. by apply fds_update.
  - injection Hs as <-. by apply fds_update.
  - destruct (decide (0 <= fd)); [|done]. destruct (k_fds (s_k s) !! fd) eqn:E; [done|]. injection Hs as <-. simpl.
    rewrite lookup_insert_ne; [done|]. intros ->. congruence.
  - case_decide as E; [|done]. injection Hs as <-. simpl. rewrite lookup_delete_ne; [done|]. intros ->. congruence.
  - by injection Hs as <-.
  - case_decide as E; [|done]. injection Hs as <-. unfold srv_wakeup. simpl.
    destruct (sv_flag (s_v s)); [done|]. destruct (sv_mode (s_v s)); try done.
    all: destruct (Z.ltb_spec r 0); [done|]; destruct E as [?|E]; [lia|]; destruct (listening s); [done|]; simpl.
    all: rewrite lookup_insert_ne; [done|]; intros ->; congruence.
Qed.
Definition goes_on (l e : Z) (s : st) : Prop :=
  held l e s ∧ k_fds (s_k s) !! l = Some DListen ∧ (∀ ep, sv_io (s_v s) = Some ep → ep_flag ep = true) ∧
  match s_loop s with LRet _ | LJoin => False | _ => True end.
Lemma goes_on_step l e s lb s' : goes_on l e s → stopping lb = false → step s lb = Some s' → goes_on l e s'.
Proof.
  intros (Hh & Hl & Hf & Hp) Hn Hs. split; [by eapply held_step|]. split; [eapply listen_step; [done|done| |done]; by intros ->|].
  rewrite (step_v_same _ _ _ Hn Hs). split; [done|]. destruct (h_safe _ _ _ Hh Hl) as [Hst HS].
  destruct Hh as [H0 H1 (ep & H2 & Hef & Hes) H3 H4 H5 H6 H7 H8].
  destruct lb as [x|a|i|i a| |id n|id|id|fd|fd| |r| ]; cbn [step] in Hs; try done.
  - unfold loop_step in Hs. cbv zeta in Hs. unfold ep_of in Hs. rewrite H2, (Hf _ H2), H3, Hef in Hs.
    destruct (s_loop s) as [| | |evs|soc evs|e' own kk|fd evs|fd evs|soc| |rc] eqn:El; try done.
    + destruct (sv_mode (s_v s)); try done; by injection Hs as <-.
    + rewrite (f_ep _ _ _ _ _ _ HS) in Hs. rewrite (decide_True (P := Some DEpoll = Some DEpoll)) in Hs by done.
      destruct (sv_mode (s_v s)); try done; by injection Hs as <-.
    + destruct (sv_mode (s_v s)); try done; destruct x; try done; [destruct (batch_ok _ _); [|done]| |destruct (batch_ok _ _); [|done]|]; by injection Hs as <-.
    + repeat match type of Hs with context [match ?b with _ => _ end] => destruct b end; try done; by injection Hs as <-.
    + destruct x; try done; [case_decide; [|done]|]; by injection Hs as <-.
    + by injection Hs as <-.
    + by injection Hs as <-.
  - unfold loop_act in Hs. destruct (s_loop s) eqn:El; try done.
    destruct a; try (destruct (do_act _ own (s_v s) (s_k s)) as [[[own' v'] k'] tr] eqn:Ea; by injection Hs as <-).
    injection Hs as <-. by destruct k.
  - unfold worker_step in Hs. repeat match type of Hs with context [match ?b with _ => _ end] => destruct b end; try done; by injection Hs as <-.
  - unfold worker_act in Hs. destruct (s_workers s !! i) as [[| |e' own soc once]|] eqn:Ew; try done.
    destruct a; try (destruct (do_act _ own (s_v s) (s_k s)) as [[[own' v'] k'] tr] eqn:Ea; by injection Hs as <-).
    by injection Hs as <-.
  - destruct (listening s); [|done]. by injection Hs as <-.
  - by injection Hs as <-.
  - by injection Hs as <-.
  - by injection Hs as <-.
  - destruct (decide (0 <= fd)); [|done]. destruct (k_fds (s_k s) !! fd) eqn:E; [done|]. by injection Hs as <-.
  - case_decide as E; [|done]. by injection Hs as <-.
  - case_decide as E; [|done]. by injection Hs as <-.
Qed.
Lemma goes_on_reach m n l e others s : m ≠ kMultiThread → others_ok others l e →
  reach (λ _ lb, stopping lb = false) (booted m n l e others) s → goes_on l e s.
Proof.
  intros Hm Ho. induction 1 as [|s lb s' _ IH Hk Hs]; [|by eapply goes_on_step].
  pose proof (held_boot m n l e others Hm Ho) as Hh. destruct Ho as (Hl & He & Hne & H1 & H2).
  split; [done|]. destruct m; try done; simpl; (split; [|split; [|done]]).
  all: try (rewrite lookup_insert_ne, lookup_insert; done). all: by intros ep [= <-].
Qed.
