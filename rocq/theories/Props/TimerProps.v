(** C77, C94: the timer. *)
From Verif.Model Require Import Timer.

Local Open Scope Z_scope.

(** The timer of object [t] will go off every [sec] seconds and [nsec] nanoseconds. *)
Definition armed (t : sock) (k : timers) (sec nsec : Z) : Prop := k !! so_fd t = Some (Some (sec, nsec)).
(** A time that a timer can be armed with. *)
Definition timely (sec nsec : Z) : Prop := 0 ≤ sec ∧ 0 ≤ nsec < 10 ^ 9 ∧ 0 < sec + nsec.

(** * C77: success means armed *)
Definition timer_armed_full : Prop := ∀ r sec nsec t k t' k',
  k !! r = None → timer_init r sec nsec t k = (kSuccess, t', k') → armed t' k' sec nsec.
(** 1.5 seconds given as 0 s and 1500000000 ns. *)
Theorem timer_armed_refuted : ¬ timer_armed_full.
Proof.
  intros H. pose proof (H 3 0 1500000000 sock_new ∅ (Sock 3 kInit) (<[3 := None]> ∅) eq_refl eq_refl) as Ha.
  by vm_compute in Ha.
Qed.
Print Assumptions timer_armed_refuted.

Lemma settime_ok k fd sec nsec x : timely sec nsec → k !! fd = Some x →
  timerfd_settime k fd sec nsec = (0, <[fd := Some (sec, nsec)]> k).
Proof.
  intros (H1 & H2 & H3) Hk. unfold timerfd_settime. rewrite Hk.
  assert ((sec <? 0) || (nsec <? 0) || (10 ^ 9 <=? nsec) = false) as -> by lia.
  assert ((sec =? 0) && (nsec =? 0) = false) as -> by lia. done.
Qed.
Theorem timer_armed_partial r sec nsec t k :
  timely sec nsec →
  (∀ t' k', timer_init r sec nsec t k = (kSuccess, t', k') → armed t' k' sec nsec ∧ so_status t' = kInit) ∧
  (∀ x, k !! so_fd t = Some x → armed t (timer_reset sec nsec t k).2 sec nsec) ∧
  (∀ fd, fd ≠ so_fd t → (timer_reset sec nsec t k).2 !! fd = k !! fd).
Proof.
  intros Ht. split_and!.
  - intros t' k' H. unfold timer_init in H. destruct (Z.leb_spec r 0); [done|]. unfold timer_reset in H.
    destruct (Z.ltb_spec r 0); [lia|]. erewrite settime_ok in H; [|done|by apply lookup_insert].
    injection H as <- <-. split; [|done]. unfold armed. apply lookup_insert.
  - intros x Hx. unfold armed, timer_reset. simpl. erewrite settime_ok by done. cbn [snd]. apply lookup_insert.
  - intros fd Hfd. unfold timer_reset, timerfd_settime. simpl. destruct (k !! so_fd t); [|done].
    destruct (_ || _); [done|]. cbn [snd]. by apply lookup_insert_ne.
Qed.
Print Assumptions timer_armed_partial.
Example timer_armed_ex : timely 1 500000000 ∧
  timer_init 3 1 500000000 sock_new ∅ = (kSuccess, Sock 3 kInit, <[3 := Some (1, 500000000)]> (<[3 := None]> ∅)).
Proof. split; [unfold timely; lia|]. by vm_compute. Qed.

(** * C94: descriptors of timers *)
(** After Init has failed, or after Init and Close, no descriptor is open that was
    not open before. *)
Definition timer_no_leak_full : Prop := ∀ r sec nsec t k,
  k !! r = None →
  let '(rc, t1, k1) := timer_init r sec nsec t k in
  let '(_, k2) := timer_close t1 k1 in ∀ fd, is_Some (k2 !! fd) → is_Some (k !! fd).
(** Descriptor 0 is taken for a failure, and kept open. *)
Theorem timer_no_leak_refuted : ¬ timer_no_leak_full.
Proof.
  intros H. specialize (H 0 1 0 sock_new ∅ eq_refl). vm_compute in H. specialize (H 0). vm_compute in H.
  destruct H as [x Hx]; [by eexists|]. done.
Qed.
Print Assumptions timer_no_leak_refuted.
Theorem timer_no_leak_partial r sec nsec t k :
  k !! r = None → r ≠ 0 → (0 < r ∨ so_status t ≠ kInit) →
  let '(rc, t1, k1) := timer_init r sec nsec t k in
  let '(_, k2) := timer_close t1 k1 in ∀ fd, is_Some (k2 !! fd) → is_Some (k !! fd).
Proof.
  intros Hr H0 Hst. unfold timer_init. destruct (Z.leb_spec r 0) as [Hle|Hgt].
  - destruct (Z.ltb_spec r 0); [|lia]. destruct Hst; [lia|]. unfold timer_close. simpl. by rewrite decide_False.
  - destruct (Z.ltb_spec r 0); [lia|]. unfold timer_reset, timer_close. cbn [so_fd so_status snd fst]. rewrite decide_True by done.
    intros fd Hfd. apply lookup_delete_is_Some in Hfd as [Hne Hfd]. unfold timerfd_settime in Hfd. rewrite lookup_insert in Hfd.
    destruct (_ || _); cbn [snd] in Hfd; by rewrite ?lookup_insert_ne in Hfd.
Qed.
Print Assumptions timer_no_leak_partial.
Example timer_no_leak_ex :
  let '(rc, t1, k1) := timer_init 5 1 0 sock_new ∅ in is_Some (k1 !! 5) ∧ (timer_close t1 k1).2 !! 5 = None.
Proof. vm_compute. split; [by eexists|done]. Qed.

(** Init twice and then Close: the descriptor of the first Init stays open. *)
Definition timer_reinit_full : Prop := ∀ r1 r2 sec nsec t k,
  0 < r1 → 0 < r2 → r1 ≠ r2 → k !! r1 = None → k !! r2 = None →
  let '(_, t1, k1) := timer_init r1 sec nsec t k in
  let '(_, t2, k2) := timer_init r2 sec nsec t1 k1 in
  let '(_, k3) := timer_close t2 k2 in ∀ fd, is_Some (k3 !! fd) → is_Some (k !! fd).
Theorem timer_reinit_refuted : ¬ timer_reinit_full.
Proof.
  intros H. specialize (H 3 4 1 0 sock_new ∅ ltac:(lia) ltac:(lia) ltac:(lia) eq_refl eq_refl). vm_compute in H.
  specialize (H 3). vm_compute in H. destruct H as [x Hx]; [by eexists|]. done.
Qed.
Print Assumptions timer_reinit_refuted.
(** Closing in between, nothing stays open. *)
Theorem timer_reinit_partial r1 r2 sec nsec t k :
  0 < r1 → 0 < r2 → k !! r1 = None → k !! r2 = None →
  let '(_, t1, k1) := timer_init r1 sec nsec t k in
  let '(t1', k1') := timer_close t1 k1 in
  let '(_, t2, k2) := timer_init r2 sec nsec t1' k1' in
  let '(_, k3) := timer_close t2 k2 in ∀ fd, is_Some (k3 !! fd) → is_Some (k !! fd).
Proof.
  intros H1 H2 Hk1 Hk2. pose proof (timer_no_leak_partial r1 sec nsec t k Hk1 ltac:(lia) (or_introl H1)) as HA.
  destruct (timer_init r1 sec nsec t k) as [[rc1 t1] k1]. destruct (timer_close t1 k1) as [t1' k1'].
  assert (k1' !! r2 = None) as Hn.
  { destruct (k1' !! r2) eqn:E; [|done]. specialize (HA r2 ltac:(by eexists)). rewrite Hk2 in HA. by destruct HA. }
  pose proof (timer_no_leak_partial r2 sec nsec t1' k1' Hn ltac:(lia) (or_introl H2)) as HB.
  destruct (timer_init r2 sec nsec t1' k1') as [[rc2 t2] k2]. destruct (timer_close t2 k2) as [t2' k3]. auto.
Qed.
Print Assumptions timer_reinit_partial.
