(** C68, C70-C73, C99-C101: TcpServer::EventLoop. *)
From Verif.Proof Require Import TcpStopProof TcpNotifyProof TcpThreadProof TcpDrainProof.

Local Open Scope Z_scope.

Lemma run_reach ok s0 s ls s' : reach ok s0 s → all_ok ok s ls → run s ls = Some s' → reach ok s0 s'.
Proof.
  revert s. induction ls as [|lb ls IH]; intros s Hr Ho H; simpl in *; [by injection H as <-|].
  destruct Ho as [Ho1 Ho2]. destruct (step s lb) as [s1|] eqn:E; [|done]. eapply IH; [|done|done]. by econstructor.
Qed.
Lemma reach_mono (ok ok' : st → label → Prop) s0 s : (∀ s lb, ok s lb → ok' s lb) → reach ok s0 s → reach ok' s0 s.
Proof. intros H. induction 1; [constructor|]. econstructor; [done|by apply H|done]. Qed.
Lemma any_ok s ls : all_ok anything s ls.
Proof. revert s. induction ls as [|lb ls IH]; intros s; simpl; [done|]. split; [done|]. by destruct (step s lb). Qed.

Lemma conn_dec k id : (∃ fd, conn_id k fd = Some id) ∨ ∀ fd, conn_id k fd ≠ Some id.
Proof.
  destruct (decide (map_Exists (λ fd _, conn_id k fd = Some id) (k_fds k))) as [(fd & d & _ & H)|H]; [by left; exists fd|].
  right. intros fd Hfd. apply H. destruct (k_fds k !! fd) as [d|] eqn:Ed; [by exists fd, d|]. unfold conn_id in Hfd. by rewrite Ed in Hfd.
Qed.

(** The server of the examples: descriptors 0, 1, 2 are open, 3 listens, 4 is epoll. *)
Definition srv3 (m : mode) (n : nat) : st := booted m n 3 4 {[ 0; 1; 2 ]}.
Lemma others3 : others_ok {[ 0; 1; 2 ]} 3 4.
Proof. unfold others_ok. split_and!; try lia; set_solver. Qed.
Lemma reach3 m n ls s : run (srv3 m n) ls = Some s → reach anything (srv3 m n) s.
Proof. intros H. eapply run_reach; [constructor|apply any_ok|done]. Qed.

(** Epoll modes: the loop accepts connection 0 as descriptor 5, and sleeps again. *)
Definition accept5 : list label :=
  [GLoop AOk; GLoop AOk; EConn; GLoop (AFds [3]); GLoop (AFd 5); GLoop AOk; ALoop AReturn; GLoop AOk; GLoop AOk; GLoop AOk].
(** Multithread mode: so does it here, and worker 0 waits for data. *)
Definition accept5_mt : list label :=
  [GLoop AOk; GLoop AOk; EConn; GLoop (AFd 5); GLoop AOk; GWork 0; AWork 0 AReturn].

(** * C68: data received before a half-close is delivered *)
Definition delivered_full : Prop := ∀ m n l e others s fd c,
  others_ok others l e → reach anything (booted m n l e others) s →
  k_fds (s_k s) !! fd = Some (DConn c) → cn_err c = false →
  kLeave ∈ calls (cn_id c) (s_trace s) → kRead ∉ calls (cn_id c) (s_trace s) → cn_data c = 0%nat.
(** The peer sends 10 bytes and closes before epoll_wait is called: only the leave
    event is delivered. *)
Definition lost_run : list label := accept5 ++ [EData 0 10; EFin 0; GLoop (AFds [5]); GLoop AOk].
Theorem delivered_refuted : ¬ delivered_full.
Proof.
  intros H. destruct (run (srv3 kIOMultiplexing 0) lost_run) as [s|] eqn:E; [|by vm_compute in E].
  specialize (H kIOMultiplexing 0%nat 3 4 {[ 0; 1; 2 ]} s 5 (Conn 0 10 true false) others3 (reach3 _ _ _ _ E)).
  vm_compute in E. injection E as <-. specialize (H eq_refl eq_refl).
  assert (10%nat = 0%nat); [|done]. apply H; vm_compute.
  - apply elem_of_cons. right. apply elem_of_cons. by left.
  - intros Hin. repeat (apply elem_of_cons in Hin as [?|Hin]; [done|]). by apply elem_of_nil in Hin.
Qed.
Print Assumptions delivered_refuted.
(** In multithread mode all data has been read when the end is reported, if the
    callbacks leave closing to others. *)
Theorem delivered_threads_partial n l e others s fd c :
  others_ok others l e → reach keeps (booted kMultiThread n l e others) s →
  k_fds (s_k s) !! fd = Some (DConn c) → cn_err c = false → kLeave ∈ calls (cn_id c) (s_trace s) → cn_data c = 0%nat.
Proof. intros Ho Hr Hc He Hl. by eapply (drained_reach n l e others s Ho Hr). Qed.
Print Assumptions delivered_threads_partial.
Example delivered_ex : ∃ s, run (srv3 kMultiThread 1) (accept5_mt ++ [EData 0 10; EFin 0; GWork 0; AWork 0 (ARead 10); AWork 0 AReturn; GWork 0]) = Some s ∧
  all_ok keeps (srv3 kMultiThread 1) (accept5_mt ++ [EData 0 10; EFin 0; GWork 0; AWork 0 (ARead 10); AWork 0 AReturn; GWork 0]) ∧
  calls 0 (s_trace s) = [kAccept; kRead; kLeave].
Proof. eexists. split; [by vm_compute|]. split; [by vm_compute; repeat split|by vm_compute]. Qed.
(** In all modes: what epoll reported has been notified, each descriptor's event
    once and in order, or is still to be looked at. *)
Theorem delivered_partial m n l e others s :
  reach anything (booted m n l e others) s →
  to_notify (batches (s_trace s)) = notified (s_trace s) ++ to_notify (pending (s_loop s)).
Proof. apply told_reach. Qed.
Print Assumptions delivered_partial.
(** Each notification of data or of a leave has led to one callback with that
    descriptor, or (mixed mode) is in the queue of the pool. *)
Theorem delivered_once_partial m n l e others s fd :
  m ≠ kMultiThread → others_ok others l e → fd ≠ l → reach anything (booted m n l e others) s →
  notes (fd, ioRead) (s_trace s) = (queued fd (s_queue s) + called kRead fd (s_trace s))%nat ∧
  notes (fd, ioLeave) (s_trace s) = called kLeave fd (s_trace s).
Proof. intros. by eapply reads_reach. Qed.
Print Assumptions delivered_once_partial.
Example delivered_once_ex : ∃ s, run (srv3 kMixed 1) (accept5 ++ [EData 0 10; GLoop (AFds [5]); GLoop AOk; GLoop AOk; GLoop AOk; GLoop AOk; GWork 0;
    GLoop (AFds [5]); GLoop AOk; AWork 0 (ARead 10); EFin 0]) = Some s ∧
  notes (5, ioRead) (s_trace s) = 2%nat ∧ queued 5 (s_queue s) = 1%nat ∧ called kRead 5 (s_trace s) = 1%nat ∧
  to_notify (batches (s_trace s)) = [(3, ioRead); (5, ioRead); (5, ioRead)].
Proof. eexists. split; [by vm_compute|]. by vm_compute. Qed.

(** * C70: every accepted connection is closed exactly once *)
Definition closed_once (s : st) : Prop :=
  Forall (λ t, stray t = false) (s_trace s) ∧
  ∀ id, (closes id (s_trace s) ≤ 1)%nat ∧ (closes id (s_trace s) = 1%nat → accepted id (s_trace s)) ∧
    (quiet s → kLeave ∈ calls id (s_trace s) ∨ kError ∈ calls id (s_trace s) → closes id (s_trace s) = 1%nat).
Definition closed_once_full : Prop := ∀ m n l e others s,
  others_ok others l e → reach polite (booted m n l e others) s → closed_once s.
(** Multithread mode: the server never closes. *)
Definition leak_run : list label := accept5_mt ++ [EFin 0; GWork 0; AWork 0 AReturn].
Theorem closed_once_refuted : ¬ closed_once_full.
Proof.
  intros H. destruct (run (srv3 kMultiThread 1) leak_run) as [s|] eqn:E; [|by vm_compute in E].
  assert (reach polite (srv3 kMultiThread 1) s) as Hr.
  { eapply run_reach; [constructor| |done]. by vm_compute; repeat split. }
  destruct (H kMultiThread 1%nat 3 4 {[ 0; 1; 2 ]} s others3 Hr) as [_ Hc]. vm_compute in E. injection E as <-. destruct (Hc 0%nat) as (_ & _ & Hc').
  vm_compute in Hc'. assert (0%nat = 1%nat); [|done]. apply Hc'.
  - split; [done|]. by repeat constructor.
  - left. apply elem_of_cons. right. apply elem_of_cons. by left.
Qed.
Print Assumptions closed_once_refuted.
(** Whatever happens, if callbacks do not close: every accepted connection stays open. *)
Theorem threads_never_close n l e others s id :
  others_ok others l e → reach keeps (booted kMultiThread n l e others) s →
  closes id (s_trace s) = 0%nat ∧ (accepted id (s_trace s) → ∃ fd c, k_fds (s_k s) !! fd = Some (DConn c) ∧ cn_id c = id).
Proof.
  intros Ho Hr. pose proof (mth_reach _ _ _ _ _ Ho Hr) as M. split; [apply M|]. intros Ha.
  destruct (t_stg _ _ M) as (stg & HK & _).
  destruct (decide (id ∈ bl (s_k s))) as [Hb|Hb]; [by destruct (ki_bl _ _ _ _ HK _ Hb) as (_ & _ & _ & ?)|].
  destruct (decide (k_next (s_k s) ≤ id)%nat) as [Hn|Hn]; [by destruct (ki_new _ _ _ _ HK _ Hn) as (_ & _ & ?)|].
  destruct (conn_dec (s_k s) id) as [[fd Hc]|Hnc].
  { unfold conn_id in Hc. destruct (k_fds (s_k s) !! fd) as [[]|] eqn:Ef; try done. injection Hc as Hc. eauto. }
  exfalso.
  destruct (ki_gone _ _ _ _ HK id ltac:(lia) Hb Hnc) as [(Hc & _)|(_ & _ & ?)]; [|done]. by rewrite (t_closes _ _ M) in Hc.
Qed.
Print Assumptions threads_never_close.
(** In mixed mode a callback in a worker closes its socket, the number is given to
    another part of the program, and the loop closes that. *)
Definition stray_run : list label :=
  accept5 ++ [EData 0 10; GLoop (AFds [5]); GLoop AOk; GLoop AOk; GLoop AOk; GLoop AOk; GWork 0; EFin 0; GLoop (AFds [5]); GLoop AOk;
              ALoop AReturn; AWork 0 AClose; XOpen 5; GLoop AOk; GLoop AOk].
Example stray_ex : ∃ s, run (srv3 kMixed 1) stray_run = Some s ∧ all_ok polite (srv3 kMixed 1) stray_run ∧ last (s_trace s) = Some (TClose 5 (Some DOther)).
Proof. eexists. split; [by vm_compute|]. split; [by vm_compute; repeat split|by vm_compute]. Qed.

Lemma live_no_end b l : good b Live l → kLeave ∉ l ∧ kError ∉ l.
Proof.
  intros [n ->]. split; intros Hin; apply elem_of_cons in Hin as [?|Hin]; try done; apply elem_of_replicate in Hin as [? _]; done.
Qed.
(** With io multiplexing in one thread the property holds, if a callback does not
    close the socket of a connection that it is told has ended. *)
Theorem closed_once_partial n l e others s :
  others_ok others l e → reach polite (booted kIOMultiplexing n l e others) s → closed_once s.
Proof.
  intros Ho Hr. assert (mio false l e s) as M.
  { eapply mio_reach; [done|]. eapply reach_mono; [|exact Hr]. by split. }
  pose proof (m_ki _ _ _ _ M) as HK. split; [apply M|]. intros id.
  assert (Hcase : (closes id (s_trace s) = 0%nat ∧ (calls id (s_trace s) = [] ∨ ∃ fd, conn_id (s_k s) fd = Some id)) ∨ (closes id (s_trace s) = 1%nat ∧ accepted id (s_trace s))).
  { destruct (decide (id ∈ bl (s_k s))) as [Hb|Hb]; [destruct (ki_bl _ _ _ _ HK _ Hb) as (_ & ? & ? & _); auto|].
    destruct (decide (k_next (s_k s) ≤ id)%nat) as [Hn|Hn]; [destruct (ki_new _ _ _ _ HK _ Hn) as (? & ? & _); auto|].
    destruct (conn_dec (s_k s) id) as [[fd Hc]|Hnc].
    { destruct (ki_conn _ _ _ _ HK _ _ Hc) as (_ & _ & _ & ? & _). left. eauto. }
    destruct (ki_gone _ _ _ _ HK id ltac:(lia) Hb Hnc) as [(? & ? & _)|(? & ? & ?)]; auto. }
  destruct Hcase as [[H0 Hcase]|[H1 Hcase]].
  - rewrite H0. split; [lia|]. split; [done|]. intros [Hq _] Hend. exfalso. destruct Hcase as [Hnil|[fd Hc]].
    + rewrite Hnil in Hend. destruct Hend as [Hx|Hx]; by apply elem_of_nil in Hx.
    + destruct (ki_conn _ _ _ _ HK _ _ Hc) as (_ & _ & _ & _ & Hg & _).
      assert (mstage (s_loop s) fd = Live) as El by (destruct (s_loop s); done). rewrite El in Hg.
      apply live_no_end in Hg. naive_solver.
  - rewrite H1. split; [lia|]. done.
Qed.
Print Assumptions closed_once_partial.
Definition served_run : list label :=
  accept5 ++ [EData 0 10; GLoop (AFds [5]); GLoop AOk; ALoop (ARead 10); ALoop AReturn; GLoop AOk; GLoop AOk; GLoop AOk;
              EFin 0; GLoop (AFds [5]); GLoop AOk; ALoop AReturn; GLoop AOk; GLoop AOk; GLoop AOk].
Example served_ex : ∃ s, run (srv3 kIOMultiplexing 0) served_run = Some s ∧ all_ok (λ s lb, polite s lb ∧ monitors s lb) (srv3 kIOMultiplexing 0) served_run ∧
  calls 0 (s_trace s) = [kAccept; kRead; kLeave] ∧ closes 0 (s_trace s) = 1%nat ∧ quiet s ∧ accepted 0 (s_trace s).
Proof.
  eexists. split; [by vm_compute|]. split; [by vm_compute; repeat split|]. split; [by vm_compute|]. split; [by vm_compute|].
  split; [by vm_compute; repeat constructor|]. exists 5. vm_compute. apply elem_of_list_In. simpl. auto 10.
Qed.

(** * C72: the callback protocol *)
Definition protocol_full : Prop := ∀ m n l e others s id,
  others_ok others l e → reach polite (booted m n l e others) s → protocol (calls id (s_trace s)).
Lemma not_protocol l : protocol l → match l with kAccept :: kLeave :: _ :: _ | kError :: _ => False | _ => True end.
Proof.
  intros [->|(n & fin & -> & Hf)]; [done|]. destruct n; simpl; [|done]. by destruct Hf as [->|[->| ->]].
Qed.
(** Mixed mode: the read task is still in the queue when the leave is reported. *)
Definition late_run : list label :=
  accept5 ++ [EData 0 10; GLoop (AFds [5]); GLoop AOk; GLoop AOk; GLoop AOk; GLoop AOk; EFin 0; GLoop (AFds [5]); GLoop AOk; GWork 0].
Theorem protocol_refuted : ¬ protocol_full.
Proof.
  intros H. destruct (run (srv3 kMixed 1) late_run) as [s|] eqn:E; [|by vm_compute in E].
  assert (reach polite (srv3 kMixed 1) s) as Hr.
  { eapply run_reach; [constructor| |done]. by vm_compute; repeat split. }
  specialize (H kMixed 1%nat 3 4 {[ 0; 1; 2 ]} s 0%nat others3 Hr). vm_compute in E. injection E as <-.
  apply not_protocol in H. by vm_compute in H.
Qed.
Print Assumptions protocol_refuted.
(** One thread: an error without an accept before, when epoll_ctl fails.
    Multithread: a callback closes its socket, the number is used again, and the
    next connection's first event is not the accept. *)
Example protocol_breaks :
  (∃ s, run (srv3 kIOMultiplexing 0) [GLoop AOk; GLoop AOk; EConn; GLoop (AFds [3]); GLoop (AFd 5); GLoop AFail] = Some s ∧
     calls 0 (s_trace s) = [kError]) ∧
  (∃ s, run (srv3 kMultiThread 1) (accept5_mt ++ [EData 0 10; GWork 0; AWork 0 AClose; AWork 0 AReturn; EConn; GLoop AOk; GLoop AOk; GLoop (AFd 5);
       EData 1 10; GWork 0; AWork 0 AReturn]) = Some s ∧ calls 1 (s_trace s) = [kRead]).
Proof. split; eexists; (split; [by vm_compute|]; by vm_compute). Qed.
Theorem protocol_single_partial n l e others s id :
  others_ok others l e → reach (λ s lb, polite s lb ∧ monitors s lb) (booted kIOMultiplexing n l e others) s →
  protocol (calls id (s_trace s)).
Proof.
  intros Ho Hr. assert (mio true l e s) as M.
  { eapply mio_reach; [done|]. eapply reach_mono; [|exact Hr]. naive_solver. }
  pose proof (m_ki _ _ _ _ M) as HK.
  destruct (decide (id ∈ bl (s_k s))) as [Hb|Hb]; [destruct (ki_bl _ _ _ _ HK _ Hb) as (_ & -> & _); by left|].
  destruct (decide (k_next (s_k s) ≤ id)%nat) as [Hn|Hn]; [destruct (ki_new _ _ _ _ HK _ Hn) as (-> & _); by left|].
  destruct (conn_dec (s_k s) id) as [[fd Hc]|Hnc].
  { destruct (ki_conn _ _ _ _ HK _ _ Hc) as (_ & _ & _ & _ & Hg & _). by eapply good_protocol. }
  destruct (ki_gone _ _ _ _ HK id ltac:(lia) Hb Hnc) as [(_ & _ & g & Hg)|(_ & -> & _)]; [by eapply good_protocol|by left].
Qed.
Print Assumptions protocol_single_partial.
Theorem protocol_threads_partial n l e others s id :
  others_ok others l e → reach keeps (booted kMultiThread n l e others) s → protocol (calls id (s_trace s)).
Proof.
  intros Ho Hr. pose proof (mth_reach _ _ _ _ _ Ho Hr) as M. destruct (t_stg _ _ M) as (stg & HK & _).
  destruct (decide (id ∈ bl (s_k s))) as [Hb|Hb]; [destruct (ki_bl _ _ _ _ HK _ Hb) as (_ & -> & _); by left|].
  destruct (decide (k_next (s_k s) ≤ id)%nat) as [Hn|Hn]; [destruct (ki_new _ _ _ _ HK _ Hn) as (-> & _); by left|].
  destruct (conn_dec (s_k s) id) as [[fd Hc]|Hnc].
  { destruct (ki_conn _ _ _ _ HK _ _ Hc) as (_ & _ & _ & _ & Hg & _). by eapply good_protocol. }
  destruct (ki_gone _ _ _ _ HK id ltac:(lia) Hb Hnc) as [(_ & _ & g & Hg)|(_ & -> & _)]; [by eapply good_protocol|by left].
Qed.
Print Assumptions protocol_threads_partial.

(** * C71: Stop makes EventLoop return *)
(** After Stop and a successful WakeUp, without any client, nobody is stuck: the
    loop can move, or is in a callback, or waits for a worker that can. *)
Definition stop_returns_full : Prop := ∀ m n l e others s s' s'',
  others_ok others l e → reach anything (booted m n l e others) s → woken s s' → reach (λ _, internal) s' s'' →
  ¬ (blocked s'' ∧ workers_blocked s'').
(** One thread: WakeUp does nothing, the loop goes on sleeping in epoll_wait. *)
Theorem stop_returns_refuted : ¬ stop_returns_full.
Proof.
  intros H. destruct (run (srv3 kIOMultiplexing 0) [GLoop AOk; GLoop AOk]) as [s|] eqn:E; [|by vm_compute in E].
  destruct (run s [XStop; XWake 9]) as [s'|] eqn:E'; [|exfalso; revert E'; vm_compute in E; injection E as <-; by vm_compute].
  assert (woken s s') as Hw.
  { simpl in E'. destruct (decide _) as [Hd|]; [|done]. injection E' as <-. eexists _, 9. split; [done|]. split; [simpl; by rewrite decide_True|].
    vm_compute in E. injection E as <-. by vm_compute. }
  apply (H kIOMultiplexing 0%nat 3 4 {[ 0; 1; 2 ]} s s' s' others3 (reach3 _ _ _ _ E) Hw); [constructor|].
  vm_compute in E. injection E as <-. vm_compute in E'. injection E' as <-. split.
  - intros x Hx1 Hx2. destruct x as [fds| | | |]; try done. unfold loop_step. simpl.
    destruct (batch_ok _ fds) eqn:Eb; [|done]. exfalso. unfold batch_ok in Eb. rewrite !andb_true_iff in Eb. destruct Eb as [[[Eb _] _] Hf].
    destruct fds as [|fd fds]; [by vm_compute in Eb|]. simpl in Hf. apply andb_true_iff in Hf as [Hf _].
    destruct (_ !! fd) as [t|] eqn:Ew; [|done]. assert (fd = 3) as ->; [|by vm_compute in Hf].
    change (({[ 3 := kLevel ]} : gmap Z trig) !! fd = Some t) in Ew. by apply lookup_singleton_Some in Ew as [<- _].
  - intros i. by vm_compute.
Qed.
Print Assumptions stop_returns_refuted.
(** Mixed mode: yes; and the loop makes a bounded number of moves. *)
Theorem stop_mixed_partial n l e others s s' ls s'' :
  others_ok others l e → reach anything (booted kMixed n l e others) s → woken s s' →
  Forall internal ls → run s' ls = Some s'' →
  ¬ (blocked s'' ∧ workers_blocked s'') ∧
  (length (List.filter loop_move ls) ≤ 6 * 1024 + 5 + 6 * length (pending (s_loop s')))%nat.
Proof.
  intros Ho Hr Hw Hi Hrun. pose proof (flags_reach _ _ _ _ _ _ _ Hr) as Hf.
  destruct (woken_down _ _ _ Hf Hw) as (Hd & Hf' & Hp & Hk). destruct (Hk ltac:(done)) as (Hls & Hb & Hfds).
  pose proof (held_reach _ kMixed _ _ _ _ _ ltac:(done) Ho Hr) as Hh.
  assert (mx_wait l e s') as Hx.
  { destruct Hw as (s1 & r & H1 & H2 & _). split; [eapply held_step; [eapply held_step; [done|exact H1]|exact H2]|]. split; [done|].
    rewrite Hfds. assert (k_fds (s_k s) !! l = Some DListen) as ->.
    { unfold listening in Hls. rewrite (h_lis _ _ _ Hh) in Hls. destruct Hf as (Hm & _). rewrite Hm, (bool_decide_eq_false_2 (kMixed = kMultiThread)), orb_false_r in Hls by done. by apply bool_decide_eq_true in Hls. }
    split; [done|]. by destruct (s_loop s'). }
  split.
  - intros [Hb1 Hb2]. assert (mx_wait l e s'') as Hx'.
    { clear -Hx Hi Hrun. revert s' Hx Hrun. induction ls as [|lb ls IH]; intros s' Hx Hrun; simpl in *; [by injection Hrun as <-|].
      apply Forall_cons in Hi as [Hi1 Hi2]. destruct (step s' lb) as [s1|] eqn:E; [|done]. eapply (IH Hi2); [|done]. by eapply mx_wait_step. }
    destruct (mx_wait_blocked _ _ _ Hx' Hb1) as (_ & i & e' & own & soc & Hwk). destruct (Hb2 i) as [_ Hb3]. by rewrite Hwk in Hb3.
  - destruct (down_run _ _ _ Hd Hi Hrun) as [_ Hc].
    assert (cost (s_loop s') ≤ 6 * 1024 + 5 + 6 * length (pending (s_loop s')))%nat; [|lia].
    destruct (s_loop s') as [| | |evs|soc evs|e' own []|fd evs|fd evs|soc| |rc]; cbn [cost pending cont_evs]; unfold evs_cost; simpl length; lia.
Qed.
Print Assumptions stop_mixed_partial.
Example stop_mixed_ex : ∃ s s' s'', run (srv3 kMixed 1) accept5 = Some s ∧ woken s s' ∧
  run s' [GLoop (AFds [3]); GLoop (AFd 9); GLoop AOk; ALoop AReturn; GLoop AOk; GLoop AOk; GLoop AOk] = Some s'' ∧ s_loop s'' = LRet kSuccess.
Proof.
  eexists _, _, _. split; [by vm_compute|]. split; [eexists _, 9; split; [by vm_compute|]; split; [by vm_compute|]; by vm_compute|].
  split; [by vm_compute|]. by vm_compute.
Qed.
(** Multithread mode: the loop gets as far as waiting for the workers, within a
    bounded number of moves, even if Clean is called meanwhile. *)
Theorem stop_threads_partial n l e others s s' ls s'' :
  others_ok others l e → reach anything (booted kMultiThread n l e others) s → woken s s' →
  run s' ls = Some s'' →
  (Forall (λ lb, internal lb ∨ lb = XClean) ls → blocked s'' → s_loop s'' = LJoin ∧ ∃ i w, s_workers s'' !! i = Some w ∧ w ≠ VIdle) ∧
  (Forall internal ls → (length (List.filter loop_move ls) ≤ 6 * 1024 + 5 + 6 * length (pending (s_loop s')))%nat).
Proof.
  intros Ho Hr Hw Hrun. pose proof (flags_reach _ _ _ _ _ _ _ Hr) as Hf.
  destruct (woken_down _ _ _ Hf Hw) as (Hd & Hf' & Hp & Hk). destruct (Hk ltac:(done)) as (Hls & Hb & Hfds).
  assert (Hpc : match s_loop s with LBatch _ | LMonitor _ _ | LDrop _ _ | LShut _ _ => False | LIn _ _ kk => kk = KQuit | _ => True end).
  { clear -Hr. induction Hr as [|s lb s' Hr' IH _ Hs]; [by destruct n|].
    destruct (flags_reach _ _ _ _ _ _ _ Hr') as (Hm & _).
    destruct lb as [x|a|i|i a| |id n'|id|id|fd|fd| |r| ]; cbn [step] in Hs.
    - unfold loop_step in Hs. cbv zeta in Hs. rewrite Hm in Hs.
      destruct (s_loop s); try done; repeat match type of Hs with context [match ?b with _ => _ end] => destruct b end; try done; by injection Hs as <-.
    - unfold loop_act in Hs. destruct (s_loop s) eqn:El; try done. subst.
      destruct a; try (destruct (do_act _ own (s_v s) (s_k s)) as [[[own' v'] k'] tr] eqn:Ea; by injection Hs as <-).
      by injection Hs as <-.
    - unfold worker_step in Hs. repeat match type of Hs with context [match ?b with _ => _ end] => destruct b end; try done; by injection Hs as <-.
    - unfold worker_act in Hs. destruct (s_workers s !! i) as [[| |e' own soc once]|] eqn:Ew; try done.
      destruct a; try (destruct (do_act _ own (s_v s) (s_k s)) as [[[own' v'] k'] tr] eqn:Ea; by injection Hs as <-).
      by injection Hs as <-.
    - destruct (listening s); [|done]. by injection Hs as <-.
    - by injection Hs as <-.
    - by injection Hs as <-.
    - by injection Hs as <-.
    - destruct (decide (0 <= fd)); [|done]. destruct (k_fds (s_k s) !! fd); [done|]. by injection Hs as <-.
    - case_decide; [|done]. by injection Hs as <-.
    - by injection Hs as <-.
    - case_decide; [|done]. by injection Hs as <-.
    - destruct (srv_clean (s_v s) (s_k s)). by injection Hs as <-. }
  assert (mt_wait s') as Hx.
  { split; [done|]. split; [done|]. rewrite Hp. destruct (s_loop s); try done; [by left|]. by subst. }
  split.
  - intros Hi Hbl. apply mt_wait_blocked; [|done]. clear -Hx Hi Hrun. revert s' Hx Hrun. induction ls as [|lb ls IH]; intros s' Hx Hrun; simpl in *; [by injection Hrun as <-|].
    apply Forall_cons in Hi as [Hi1 Hi2]. destruct (step s' lb) as [s1|] eqn:E; [|done]. eapply (IH Hi2); [|done]. by eapply mt_wait_step.
  - intros Hi. destruct (down_run _ _ _ Hd Hi Hrun) as [_ Hc].
    assert (cost (s_loop s') ≤ 6 * 1024 + 5 + 6 * length (pending (s_loop s')))%nat; [|lia].
    destruct (s_loop s') as [| | |evs|soc evs|e' own []|fd evs|fd evs|soc| |rc]; cbn [cost pending cont_evs]; unfold evs_cost; simpl length; lia.
Qed.
Print Assumptions stop_threads_partial.
(** It does not get further while a client is connected and silent. *)
Example stop_threads_ex : ∃ s s' s'', run (srv3 kMultiThread 1) accept5_mt = Some s ∧ woken s s' ∧
  run s' [GLoop AOk] = Some s'' ∧ s_loop s'' = LJoin ∧ blocked s'' ∧ workers_blocked s''.
Proof.
  eexists _, _, _. split; [by vm_compute|]. split; [eexists _, 9; split; [by vm_compute|]; split; [by vm_compute|]; by vm_compute|].
  split; [by vm_compute|]. split; [by vm_compute|]. split; [intros x; by vm_compute|]. intros [|i]; by vm_compute.
Qed.

(** * C73: in mixed mode one worker at a time reads a connection *)
Definition one_reader_full : Prop := ∀ n l e others s i j id,
  others_ok others l e → reach keeps (booted kMixed n l e others) s → reading s i id → reading s j id → i = j.
(** Level triggering: until the first worker has read, epoll_wait returns the same
    descriptor again, and a second worker gets it. *)
Definition twice_run : list label :=
  accept5 ++ [EData 0 10; GLoop (AFds [5]); GLoop AOk; GLoop AOk; GLoop AOk; GLoop AOk; GLoop (AFds [5]); GLoop AOk; GWork 0; GWork 1].
Theorem one_reader_refuted : ¬ one_reader_full.
Proof.
  intros H. destruct (run (srv3 kMixed 2) twice_run) as [s|] eqn:E; [|by vm_compute in E].
  assert (reach keeps (srv3 kMixed 2) s) as Hr.
  { eapply run_reach; [constructor| |done]. by vm_compute; repeat split. }
  specialize (H 2%nat 3 4 {[ 0; 1; 2 ]} s 0%nat 1%nat 0%nat others3 Hr). vm_compute in E. injection E as <-.
  assert (0%nat = 1%nat); [|done]. apply H; eexists _, _, _; (split; [by vm_compute|by vm_compute]).
Qed.
Print Assumptions one_reader_refuted.
(** It holds in multithread mode, and (there are no reading workers) in one thread. *)
Theorem one_reader_partial m n l e others s i j id :
  others_ok others l e → m ≠ kMixed → reach keeps (booted m n l e others) s → reading s i id → reading s j id → i = j.
Proof.
  intros Ho Hm Hr (s1 & o1 & b1 & Hi & Hid1) (s2 & o2 & b2 & Hj & Hid2). destruct m; try done.
  - assert (mio false l e s) as M.
    { eapply mio_reach; [done|]. eapply reach_mono; [|exact Hr]. intros s0 lb Hk. split; [|done]. unfold keeps in Hk. intros Hc. by rewrite Hk in Hc. }
    by apply (m_workers _ _ _ _ M) in Hi.
  - pose proof (mth_reach _ _ _ _ _ Ho Hr) as M. destruct (t_stg _ _ M) as (stg & HK & _ & _ & Hw).
    rewrite Forall_forall in Hw. pose proof (Hw _ ltac:(by eapply elem_of_list_lookup_2, Hi)) as (Hs1 & _).
    pose proof (Hw _ ltac:(by eapply elem_of_list_lookup_2, Hj)) as (Hs2 & _).
    rewrite id_at_conn in Hid1, Hid2 by done. assert (so_fd s1 = so_fd s2) as Efd by (by eapply (ki_inj _ _ _ _ HK)).
    destruct (decide (i = j)) as [|Hij]; [done|]. exfalso. pose proof (t_nodup _ _ M) as Hn. unfold holders in Hn.
    apply NoDup_app in Hn as (_ & _ & Hn). apply NoDup_app in Hn as (_ & _ & Hn).
    rewrite (bind_take _ _ _ Hi) in Hn. simpl in Hn. apply NoDup_cons in Hn as [Hn _]. apply Hn. apply elem_of_list_bind.
    exists (VIn kRead o2 s2 b2). split; [simpl; rewrite Efd; by apply elem_of_list_singleton|].
    apply elem_of_list_lookup. destruct (decide (j < i)%nat).
    + exists j. by rewrite lookup_delete_lt.
    + exists (j - 1)%nat. rewrite lookup_delete_ge by lia. by replace (S (j - 1)) with j by lia.
Qed.
Print Assumptions one_reader_partial.
Example one_reader_ex : ∃ s, run (srv3 kMultiThread 2) (accept5_mt ++ [EConn; GLoop AOk; GLoop AOk; GLoop (AFd 6); GLoop AOk; GWork 1; AWork 1 AReturn;
    EData 0 1; EData 1 1; GWork 0; GWork 1]) = Some s ∧ reading s 0 0 ∧ reading s 1 1.
Proof. eexists. split; [by vm_compute|]. split; eexists _, _, _; (split; [by vm_compute|by vm_compute]). Qed.

(** * C99: Stop, WakeUp and Clean (HttpServer::Stop) make EventLoop return *)
Definition shutdown_full : Prop := ∀ m n l e others s s' s'',
  others_ok others l e → reach anything (booted m n l e others) s → woken s s' →
  reach (λ _ lb, internal lb ∨ lb = XClean) s' s'' → ¬ (blocked s'' ∧ workers_blocked s'').
(** Mixed mode: Clean closes the listening socket before the sleeping thread has
    looked; epoll_wait does not return any more. *)
Theorem shutdown_refuted : ¬ shutdown_full.
Proof.
  intros H. destruct (run (srv3 kMixed 1) [GLoop AOk; GLoop AOk]) as [s|] eqn:E; [|by vm_compute in E].
  destruct (run s [XStop; XWake 9]) as [s'|] eqn:E'; [|exfalso; revert E'; vm_compute in E; injection E as <-; by vm_compute].
  destruct (step s' XClean) as [s''|] eqn:E''; [|exfalso; revert E''; vm_compute in E; injection E as <-; vm_compute in E'; injection E' as <-; by vm_compute].
  assert (woken s s') as Hw.
  { simpl in E'. destruct (decide _) as [Hd|]; [|done]. injection E' as <-. eexists _, 9. split; [done|]. split; [simpl; by rewrite decide_True|].
    vm_compute in E. injection E as <-. by vm_compute. }
  apply (H kMixed 1%nat 3 4 {[ 0; 1; 2 ]} s s' s'' others3 (reach3 _ _ _ _ E) Hw).
  { eapply reach_S; [constructor|by right|done]. }
  vm_compute in E. injection E as <-. vm_compute in E'. injection E' as <-. vm_compute in E''. injection E'' as <-. split.
  - intros x Hx1 Hx2. destruct x as [fds| | | |]; try done. unfold loop_step. simpl.
    destruct (batch_ok _ fds) eqn:Eb; [|done]. exfalso. unfold batch_ok in Eb. rewrite !andb_true_iff in Eb. destruct Eb as [[[Eb _] _] Hf].
    destruct fds as [|fd fds]; [by vm_compute in Eb|]. by simpl in Hf.
  - intros [|i]; by vm_compute.
Qed.
Print Assumptions shutdown_refuted.
(** Multithread mode: the loop does not sleep in accept; it returns when the
    workers have come back. *)
Theorem shutdown_partial n l e others s s' s'' :
  others_ok others l e → reach anything (booted kMultiThread n l e others) s → woken s s' →
  reach (λ _ lb, internal lb ∨ lb = XClean) s' s'' → blocked s'' →
  s_loop s'' = LJoin ∧ ∃ i w, s_workers s'' !! i = Some w ∧ w ≠ VIdle.
Proof.
  intros Ho Hr Hw Hi Hb.
  assert (∃ ls, Forall (λ lb, internal lb ∨ lb = XClean) ls ∧ run s' ls = Some s'') as (ls & Hls & Hrun).
  { clear -Hi. induction Hi as [|s lb s2 _ (ls & H1 & H2) Hl Hs]; [by exists []|]. exists (ls ++ [lb]). split; [apply Forall_app; by auto|].
    clear -H2 Hs. revert s' H2. induction ls as [|a ls IH]; intros s' H2; simpl in *.
    - injection H2 as ->. by rewrite Hs.
    - destruct (step s' a); [|done]. by apply IH. }
  by eapply (stop_threads_partial n l e others s s' ls s'').
Qed.
Print Assumptions shutdown_partial.
Example shutdown_ex : ∃ s s' s'', run (srv3 kMultiThread 1) [GLoop AOk; GLoop AOk] = Some s ∧ woken s s' ∧
  run s' [XClean; GLoop (AFd 9); GLoop AOk; GLoop AOk] = Some s'' ∧ s_loop s'' = LRet kSuccess.
Proof.
  eexists _, _, _. split; [by vm_compute|]. split; [eexists _, 9; split; [by vm_compute|]; split; [by vm_compute|]; by vm_compute|].
  split; [by vm_compute|]. by vm_compute.
Qed.

(** * C100: EventLoop runs until it is told to stop *)
Definition runs_on_full : Prop := ∀ m n l e others s,
  others_ok others l e → reach (λ _ lb, stopping lb = false) (booted m n l e others) s →
  match s_loop s with LRet _ => False | _ => True end.
(** Multithread mode: one failing accept (a client that has gone away, no free
    descriptor) ends the server. *)
Theorem runs_on_refuted : ¬ runs_on_full.
Proof.
  intros H. destruct (run (srv3 kMultiThread 1) [GLoop AOk; GLoop AOk; EConn; GLoop AFail; GLoop AOk; ALoop AReturn]) as [s|] eqn:E; [|by vm_compute in E].
  assert (reach (λ _ lb, stopping lb = false) (srv3 kMultiThread 1) s) as Hr.
  { eapply run_reach; [constructor| |done]. by vm_compute; repeat split. }
  specialize (H kMultiThread 1%nat 3 4 {[ 0; 1; 2 ]} s others3 Hr). vm_compute in E. by injection E as <-.
Qed.
Print Assumptions runs_on_refuted.
Theorem runs_on_partial m n l e others s :
  m ≠ kMultiThread → others_ok others l e → reach (λ _ lb, stopping lb = false) (booted m n l e others) s →
  match s_loop s with LRet _ | LJoin => False | _ => True end.
Proof. intros Hm Ho Hr. by eapply (goes_on_reach m n l e others s). Qed.
Print Assumptions runs_on_partial.
Example runs_on_ex : ∃ s, run (srv3 kMixed 1) [GLoop AOk; GLoop AOk; EConn; GLoop (AFds [3]); GLoop AFail; ALoop AReturn; GLoop AOk; GLoop AOk; GLoop AOk; GLoop AIntr; EConn] = Some s ∧
  all_ok (λ _ lb, stopping lb = false) (srv3 kMixed 1) [GLoop AOk; GLoop AOk; EConn; GLoop (AFds [3]); GLoop AFail; ALoop AReturn; GLoop AOk; GLoop AOk; GLoop AOk; GLoop AIntr; EConn] ∧
  s_loop s = LTop.
Proof. eexists. split; [by vm_compute|]. split; [by vm_compute; repeat split|by vm_compute]. Qed.

(** * C101: no connection outlives the server *)
Definition all_closed_full : Prop := ∀ m n l e others s s' fd c,
  others_ok others l e → reach keeps (booted m n l e others) s → s_loop s = LRet kSuccess → step s XClean = Some s' →
  k_fds (s_k s') !! fd ≠ Some (DConn c).
(** Open connections are not closed by Stop and Clean. *)
Theorem all_closed_refuted : ¬ all_closed_full.
Proof.
  intros H. destruct (run (srv3 kIOMultiplexing 0) (accept5 ++ [XStop; GLoop AIntr; GLoop AOk])) as [s|] eqn:E; [|by vm_compute in E].
  assert (reach keeps (srv3 kIOMultiplexing 0) s) as Hr.
  { eapply run_reach; [constructor| |done]. by vm_compute; repeat split. }
  destruct (step s XClean) as [s'|] eqn:E'; [|exfalso; revert E'; vm_compute in E; injection E as <-; by vm_compute].
  apply (H kIOMultiplexing 0%nat 3 4 {[ 0; 1; 2 ]} s s' 5 (Conn 0 0 false false) others3 Hr).
  - vm_compute in E. by injection E as <-.
  - done.
  - vm_compute in E. injection E as <-. vm_compute in E'. injection E' as <-. by vm_compute.
Qed.
Print Assumptions all_closed_refuted.
(** In one thread: what is left open when EventLoop has returned are connections
    whose end was not reported. *)
Theorem all_closed_partial n l e others s rc fd c :
  others_ok others l e → reach polite (booted kIOMultiplexing n l e others) s → s_loop s = LRet rc →
  k_fds (s_k s) !! fd = Some (DConn c) → kLeave ∉ calls (cn_id c) (s_trace s) ∧ kError ∉ calls (cn_id c) (s_trace s).
Proof.
  intros Ho Hr El Hc. assert (mio false l e s) as M.
  { eapply mio_reach; [done|]. eapply reach_mono; [|exact Hr]. by split. }
  pose proof (m_ki _ _ _ _ M) as HK. assert (conn_id (s_k s) fd = Some (cn_id c)) as Hi by (unfold conn_id; by rewrite Hc).
  destruct (ki_conn _ _ _ _ HK _ _ Hi) as (_ & _ & _ & _ & Hg & _). rewrite El in Hg. by eapply live_no_end.
Qed.
Print Assumptions all_closed_partial.
Example all_closed_ex : ∃ s, run (srv3 kIOMultiplexing 0) (served_run ++ [GLoop AOk; GLoop AOk; XStop; GLoop AIntr; GLoop AOk]) = Some s ∧
  s_loop s = LRet kSuccess ∧ k_fds (s_k s) !! 5 = None ∧ calls 0 (s_trace s) = [kAccept; kRead; kLeave].
Proof.
  eexists. split; [by vm_compute|]. split; [by vm_compute|]. by vm_compute.
Qed.
