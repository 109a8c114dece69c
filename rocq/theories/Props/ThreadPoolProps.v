(** C52-C58, C87-C89: the thread pool. *)
From Verif.Proof Require Import ThreadPoolProof.

(** Schedules used in the examples: a pool of [n] workers; call [j] of AddTask
    done to the end (nobody is asleep); [k] steps of worker [i]. *)
Definition boot (n : nat) : list label := [LCall (OpInit n); LCaller 0 0].
Definition add (j : nat) (t : task) : list label := LCall (OpAdd t) :: replicate 5 (LCaller j 0).
Definition work (i k : nat) : list label := replicate k (LWorker i).
Definition steps (j k : nat) : list label := replicate k (LCaller j 0).

(** Go to the state that a schedule leads to. *)
Ltac at_state ls :=
  let s := fresh "s" in let E := fresh "E" in
  destruct (run pool_new ls) as [s|] eqn:E; [|by vm_compute in E];
  assert (Hr : reachable s) by (by exists ls); vm_compute in E; injection E as <-.

(** * C52: order, and at most once *)
Definition fifo_full : Prop := ∀ s, reachable s → ∃ rest, p_accepted s = p_called s ++ rest.

(** Two workers have taken the two tasks in order, but the second one is the
    first to get to call its task. *)
Theorem fifo_refuted : ¬ fifo_full.
Proof.
  intros H.
  destruct (run pool_new (boot 2 ++ add 1 (Some 1) ++ add 2 (Some 2) ++ work 0 4 ++ work 1 6)) as [s|] eqn:E; [|by vm_compute in E].
  destruct (H s) as [rest Hr]; [by eexists|]. vm_compute in E. injection E as <-. by vm_compute in Hr.
Qed.
Print Assumptions fifo_refuted.

(** Tasks leave the queue in the order in which they entered it; the tasks that
    have left it are, each exactly once, those that were called and those in the
    hands of a worker that is about to call it. *)
Theorem fifo_partial s :
  reachable s →
  (∃ rest, p_accepted s = p_taken s ++ rest) ∧
  (∃ pending, p_taken s ≡ₚ p_called s ++ pending ∧ length pending ≤ length (p_workers s)) ∧
  (∀ ls, run pool_new ls = Some s → Forall small_label ls → ∃ rest, p_accepted s = p_called s ++ rest).
Proof.
  intros Hr. destruct (reachable_inv s Hr) as [I J]. split; [by eexists; apply (i_queue _ I)|]. split.
  - exists (in_hand (p_workers s)). split; [apply (i_taken _ I)|].
    unfold in_hand. induction (p_workers s) as [|w ws IH]; simpl; [done|]. rewrite app_length.
    destruct w; simpl; lia.
  - intros ls Hls Hsm.
    assert (Hs : single s).
    { revert Hls. apply (run_inv single small_label); [|split; simpl; [lia|done|done]|done].
      intros s0 l s1 H0 Hl Hst. by eapply single_step. }
    rewrite (i_queue _ I), (s_order _ Hs), <- app_assoc. by eexists.
Qed.
Print Assumptions fifo_partial.

(** Three tasks (one with a null function), one worker: two done, the third taken. *)
Example fifo_ex :
  ∃ s, run pool_new (boot 1 ++ add 1 (Some 7) ++ add 2 None ++ add 3 (Some 9) ++ work 0 8 ++ work 0 7 ++ work 0 4) = Some s ∧
    p_accepted s = [Some 7; None; Some 9] ∧ p_taken s = [Some 7; None; Some 9] ∧ p_called s = [Some 7; None].
Proof. eexists. split; [by vm_compute|]. by vm_compute. Qed.

(** * C53: no lost wake-up on AddTask *)
(** An AddTask has pushed its task and not yet notified. *)
Definition notifying (s : pool) : Prop := ∃ j, p_callers s !! j = Some CAddNotify.

Lemma how_many_sum f s : how_many f s = sum_list_with (λ w, if f w then 1 else 0) (p_workers s).
Proof. unfold how_many. induction (p_workers s) as [|w ws IH]; simpl; [done|]. destruct (f w); simpl; lia. Qed.
Lemma sum_le {A} (f g : A → nat) l : (∀ x, f x ≤ g x) → sum_list_with f l ≤ sum_list_with g l.
Proof. intros H. induction l as [|x l IH]; simpl; [done|]. specialize (H x). lia. Qed.

Theorem no_lost_wakeup s :
  reachable s → p_cont s = true → ¬ notifying s →
  (∃ i, p_workers s !! i = Some WAsleep) →
  length (p_queue s) ≤ how_many (λ w, taskless w && negb (sleeps w)) s.
Proof.
  intros Hr Hc Hn [i Hi]. destruct (reachable_inv s Hr) as [I J].
  assert (Hs : 0 < sum_list_with n_asleep (p_workers s)).
  { pose proof (sum_pos n_asleep _ _ _ Hi) as Hp. cbn [n_asleep] in Hp. lia. }
  pose proof (i_wake _ I Hc Hs) as Hw. rewrite how_many_sum.
  rewrite (sum_zero n_notify) in Hw.
  - pose proof (sum_le n_free (λ w, if taskless w && negb (sleeps w) then 1 else 0) (p_workers s)) as Hle.
    assert (sum_list_with n_free (p_workers s) ≤ sum_list_with (λ w, if taskless w && negb (sleeps w) then 1 else 0) (p_workers s))
      by (apply Hle; intros []; simpl; lia).
    lia.
  - intros j c Hj. destruct c; try done. destruct Hn. by exists j.
Qed.
Print Assumptions no_lost_wakeup.

(** So not all free workers sleep while a task waits. *)
Corollary someone_awake s :
  reachable s → p_cont s = true → ¬ notifying s → p_queue s ≠ [] →
  (∃ i w, p_workers s !! i = Some w ∧ taskless w = true) →
  ∃ i w, p_workers s !! i = Some w ∧ taskless w = true ∧ sleeps w = false.
Proof.
  intros Hr Hc Hn Hq (i & w & Hw & Ht). destruct (sleeps w) eqn:Es; [|by exists i, w].
  assert (w = WAsleep) as -> by (by destruct w).
  pose proof (no_lost_wakeup s Hr Hc Hn (ex_intro _ i Hw)) as Hl. rewrite how_many_sum in Hl.
  destruct (p_queue s) as [|t q]; [done|]. cbn [length] in Hl.
  destruct (sum_exists (λ w, if taskless w && negb (sleeps w) then 1 else 0) (p_workers s)) as (i' & w' & Hw' & Hp); [lia|].
  exists i', w'. split; [done|]. destruct (taskless w'), (sleeps w'); simpl in Hp; by try lia.
Qed.
Print Assumptions someone_awake.

(** Two workers go to sleep, two tasks are added (each wakes one), a third task
    comes while both are awake. *)
Example no_lost_wakeup_ex :
  ∃ s, run pool_new (boot 3 ++ work 0 4 ++ work 1 4 ++ work 2 4 ++ add 1 (Some 1) ++
         [LCall (OpAdd (Some 2))] ++ [LCaller 2 0; LCaller 2 0; LCaller 2 0; LCaller 2 1; LCaller 2 0]) = Some s ∧
    p_cont s = true ∧ p_queue s = [Some 1; Some 2] ∧ p_workers s = [WWoken; WWoken; WAsleep].
Proof. eexists. split; [by vm_compute|]. by vm_compute. Qed.

(** * C54: Stop returns *)
Definition stop_returns_full : Prop := ∀ s j i,
  reachable s → p_crashed s = false → p_callers s !! j = Some (CStopJoin i KReturn) →
  ∃ ls s', Forall internal ls ∧ run s ls = Some s' ∧ ∃ b, p_callers s' !! j = Some (CRet (RStop b)).

(** The flag is set and everybody is notified after the worker has seen the
    predicate false and before it sleeps (Stop does not take the mutex): it
    sleeps for ever, and Stop waits for it. *)
Definition lost : list label := boot 1 ++ work 0 3 ++ [LCall OpStop] ++ steps 1 3 ++ work 0 1.

Theorem stop_returns_refuted : ¬ stop_returns_full.
Proof.
  intros H. destruct (run pool_new lost) as [s|] eqn:E; [|by vm_compute in E].
  assert (Hr : reachable s) by (by exists lost).
  vm_compute in E. injection E as <-. destruct (H _ 1 0 Hr eq_refl eq_refl) as (ls & s' & Hi & Hrun & b & Hb).
  destruct ls as [|l ls].
  - simpl in Hrun. injection Hrun as <-. done.
  - apply Forall_cons in Hi as [Hl _]. simpl in Hrun. destruct l as [i|j k|o|i]; [| |done|done].
    + destruct i as [|i]; done.
    + by destruct j as [|[|j]].
Qed.
Print Assumptions stop_returns_refuted.

(** If no worker is at that point when Stop notifies, and no other thread stops,
    resizes or destroys the pool, then whatever tasks are added later: every
    sequence of steps (without new calls) is finite, and ends with Stop returned. *)
Theorem stop_returns_partial s j s1 ls2 s2 :
  reachable s → p_callers s !! j = Some (CStopNotify KReturn) →
  (∀ j' c, p_callers s !! j' = Some c → j' ≠ j → stopper c = false) →
  (∀ i w, p_workers s !! i = Some w → w ≠ WJoined ∧ w ≠ WBlock) →
  step s (LCaller j 0) = Some s1 → Forall plain ls2 → run s1 ls2 = Some s2 →
  (∃ n, ∀ ls3 s3, Forall internal ls3 → run s2 ls3 = Some s3 → length ls3 ≤ n) ∧
  (∀ ls3 s3, Forall internal ls3 → run s2 ls3 = Some s3 →
     p_crashed s3 = false ∧ (quiet s3 → p_callers s3 !! j = Some (CRet (RStop true)))) ∧
  ∃ ls3 s3, Forall internal ls3 ∧ run s2 ls3 = Some s3 ∧ p_callers s3 !! j = Some (CRet (RStop true)).
Proof.
  intros Hr Hj Hso Hw Hs Hp2 H2.
  assert (Hcr : p_crashed s = false) by (unfold step in Hs; by destruct (p_crashed s)).
  assert (Hj1 : joining j s1).
  { destruct (reachable_inv s Hr) as [I J]. unfold step in Hs. rewrite Hcr in Hs. unfold caller_step in Hs. rewrite Hj in Hs.
    injection Hs as <-. assert (Hlt : j < length (p_callers s)) by (by eapply lookup_lt_Some).
    split; [split|split; [|split]]; cbn.
    - by eapply (i_set _ J).
    - intros i w (w' & Hw' & ->)%map_wake_lookup. destruct (Hw _ _ Hw'). by destruct w'.
    - done.
    - intros j' c Hc Hne. rewrite list_lookup_insert_ne in Hc by done. by eapply Hso.
    - left. exists 0. rewrite list_lookup_insert by done. split; [done|]. intros i' _ (w' & Hw' & E)%map_wake_lookup.
      destruct w'; try done. by destruct (Hw _ _ Hw'). }
  assert (Hr1 : reachable s1) by (by eapply reachable_step).
  assert (Hr2 : reachable s2) by (by eapply reachable_run).
  assert (Hj2 : joining j s2).
  { eapply (run_inv (joining j) plain); [|exact Hj1|exact Hp2|exact H2]. intros. by eapply joining_step. }
  assert (Hip : ∀ l, internal l → plain l) by (by intros [] ?).
  assert (Hj3 : ∀ ls3 s3, Forall internal ls3 → run s2 ls3 = Some s3 → joining j s3 ∧ reachable s3).
  { intros ls3 s3 Hi H3. split; [|by eapply reachable_run].
    eapply (run_inv (joining j) plain); [|exact Hj2| |exact H3]; [intros; by eapply joining_step|].
    eapply Forall_impl; [exact Hi|done]. }
  pose proof (joining_no_spawn j s2 Hj2) as Hns.
  split; [|split].
  - exists (weight s2). intros ls3 s3 Hi H3.
    destruct (internal_bound ls3 s2 s3 (reachable_inv _ Hr2) Hns Hi H3) as [Hb _]. lia.
  - intros ls3 s3 Hi H3. destruct (Hj3 ls3 s3 Hi H3) as [Hj' Hr3]. split; [by destruct Hj' as (_ & ? & _)|].
    intros Hq. eapply joining_quiet; [by apply reachable_inv|done|done].
  - destruct (reach_quiet s2 (reachable_inv _ Hr2) Hns) as (ls3 & s3 & Hi & H3 & Hq). exists ls3, s3.
    split; [done|]. split; [done|]. destruct (Hj3 ls3 s3 Hi H3) as [Hj' Hr3].
    eapply joining_quiet; [by apply reachable_inv|done|done].
Qed.
Print Assumptions stop_returns_partial.

(** Two workers, one asleep and one inside a task; Stop; afterwards one more
    AddTask (refused); everybody runs to the end. *)
Example stop_returns_ex :
  ∃ s s1 s2, run pool_new (boot 2 ++ work 0 4 ++ add 1 (Some 5) ++ work 1 6 ++ work 0 3 ++ [LCall OpStop] ++ steps 2 2) = Some s ∧
    reachable s ∧ p_callers s !! 2 = Some (CStopNotify KReturn) ∧
    (∀ j' c, p_callers s !! j' = Some c → j' ≠ 2 → stopper c = false) ∧
    (∀ i w, p_workers s !! i = Some w → w ≠ WJoined ∧ w ≠ WBlock) ∧
    p_workers s = [WAsleep; WIn (Some 5)] ∧
    step s (LCaller 2 0) = Some s1 ∧
    run s1 (work 0 3 ++ work 1 5 ++ steps 2 3) = Some s2 ∧ p_callers s2 !! 2 = Some (CRet (RStop true)).
Proof.
  destruct (run pool_new (boot 2 ++ work 0 4 ++ add 1 (Some 5) ++ work 1 6 ++ work 0 3 ++ [LCall OpStop] ++ steps 2 2))
    as [s|] eqn:E; [|by vm_compute in E].
  assert (Hr : reachable s) by (by eexists). vm_compute in E. injection E as <-.
  eexists _, _, _. split; [done|]. split; [done|]. split; [done|].
  split; [intros [|[|[|j]]] c [= <-] ?; done|]. split; [intros [|[|i]] w [= <-]; done|].
  split; [done|]. split; [by vm_compute|]. split; [by vm_compute|]. by vm_compute.
Qed.

(** * C55: every accepted task runs *)
Definition tasks_run_full : Prop := ∀ s,
  reachable s → p_crashed s = false →
  ∃ ls s', Forall internal ls ∧ run s ls = Some s' ∧ p_called s' ≡ₚ p_accepted s'.

(** Stop throws the queue away. *)
Definition discarded : list label := boot 1 ++ add 1 (Some 3) ++ [LCall OpStop] ++ steps 2 3 ++ work 0 3 ++ steps 2 2.

Theorem tasks_run_refuted : ¬ tasks_run_full.
Proof.
  intros H. destruct (run pool_new discarded) as [s|] eqn:E; [|by vm_compute in E].
  assert (Hr : reachable s) by (by exists discarded).
  vm_compute in E. injection E as <-. destruct (H _ Hr eq_refl) as (ls & s' & Hi & Hrun & Hb).
  destruct ls as [|l ls].
  - simpl in Hrun. injection Hrun as <-. simpl in Hb. by apply Permutation_nil_cons in Hb.
  - apply Forall_cons in Hi as [Hl _]. simpl in Hrun. destruct l as [i|j k|o|i]; [| |done|done].
    + destruct i as [|i]; done.
    + by destruct j as [|[|[|j]]].
Qed.
Print Assumptions tasks_run_refuted.

(** Without Stop (Resize, Init, destructor) under way: every sequence of steps
    (without new calls) is finite, and when nothing can move any more all calls
    have returned and every accepted task has been called, exactly as often as it
    was accepted. *)
Theorem tasks_run_partial s :
  reachable s → p_crashed s = false → p_cont s = true →
  (∀ j c, p_callers s !! j = Some c → stopper c = false) →
  (∃ n, ∀ ls s', Forall internal ls → run s ls = Some s' → length ls ≤ n) ∧
  (∀ ls s', Forall internal ls → run s ls = Some s' → quiet s' →
     p_called s' ≡ₚ p_accepted s' ∧ ∀ j c, p_callers s' !! j = Some c → ∃ r, c = CRet r) ∧
  ∃ ls s', Forall internal ls ∧ run s ls = Some s' ∧ quiet s'.
Proof.
  intros Hr Hcr Hc Hso.
  assert (Hns : no_spawn s) by (intros j c Hj; specialize (Hso _ _ Hj); by destruct c).
  assert (HP : ∀ ls s', Forall internal ls → run s ls = Some s' →
            p_crashed s' = false ∧ p_cont s' = true).
  { intros ls s' Hi H.
    enough (p_crashed s' = false ∧ p_cont s' = true ∧ ∀ j c, p_callers s' !! j = Some c → stopper c = false) as (? & ? & ?) by done.
    eapply (run_inv (λ s, p_crashed s = false ∧ p_cont s = true ∧ ∀ j c, p_callers s !! j = Some c → stopper c = false) plain);
      [|done| |exact H].
    - intros s0 l s1 (H1 & H2 & H3) Hl Hs. destruct (cont_step s0 l s1 Hl Hs H3) as (E & ? & ?). by rewrite E.
    - eapply Forall_impl; [exact Hi|by intros []]. }
  split; [|split].
  - exists (weight s). intros ls s' Hi H. destruct (internal_bound ls s s' (reachable_inv _ Hr) Hns Hi H) as [Hb _]. lia.
  - intros ls s' Hi H Hq. destruct (HP _ _ Hi H) as [Hcr' Hc'].
    destruct (quiet_empty s') as (_ & ? & ?); try done. eapply reachable_inv. by eapply reachable_run.
  - apply reach_quiet; [by apply reachable_inv|done].
Qed.
Print Assumptions tasks_run_partial.

Example tasks_run_ex :
  ∃ s s', run pool_new (boot 1 ++ add 1 (Some 3) ++ [LCall (OpAdd (Some 4))] ++ steps 2 2) = Some s ∧
    reachable s ∧ p_crashed s = false ∧ p_cont s = true ∧ (∀ j c, p_callers s !! j = Some c → stopper c = false) ∧
    p_queue s = [Some 3] ∧
    run s (steps 2 3 ++ work 0 8 ++ work 0 12) = Some s' ∧ p_workers s' = [WAsleep] ∧ p_called s' = [Some 3; Some 4].
Proof.
  destruct (run pool_new (boot 1 ++ add 1 (Some 3) ++ [LCall (OpAdd (Some 4))] ++ steps 2 2)) as [s|] eqn:E; [|by vm_compute in E].
  assert (Hr : reachable s) by (by eexists). vm_compute in E. injection E as <-.
  eexists _, _. split; [done|]. split; [done|]. split; [done|]. split; [done|].
  split; [intros [|[|[|j]]] c [= <-]; done|]. split; [done|]. split; [by vm_compute|]. by vm_compute.
Qed.

(** * C56: after Stop nothing runs *)
(** From [s] on no task is called, nobody is inside one, and AddTask called from
    now on never reports success. *)
Definition dead (s : pool) : Prop :=
  ∀ ls s', run s ls = Some s' →
    p_called s' = p_called s ∧
    (∀ i w, p_workers s' !! i = Some w → inside w = false) ∧
    (∀ j, length (p_callers s) ≤ j → p_callers s' !! j ≠ Some (CRet (RAdd kSuccess))).

Lemma idle_dead s : idle s → dead s.
Proof.
  intros Hi ls s' H.
  assert (HP : (idle s' ∧ p_called s' = p_called s) ∧ no_late (length (p_callers s)) s').
  { eapply (run_inv (λ s', (idle s' ∧ p_called s' = p_called s) ∧ no_late (length (p_callers s)) s') (λ _, True));
      [| | |exact H].
    - intros s0 l s1 [[H1 H2] H3] _ Hs. destruct (idle_step _ _ _ H1 Hs) as (? & E & _).
      split; [split; [done|congruence]|by eapply no_late_step].
    - split; [done|]. split; [by destruct Hi|]. split; [done|]. intros j c Hj Hc. apply lookup_lt_Some in Hc. lia.
    - by apply Forall_true. }
  destruct HP as [[[_ Ha] Hc] (_ & _ & Hl)]. split; [done|]. split.
  - intros i w Hw. specialize (Ha _ _ Hw). by destruct w.
  - intros j Hj Hc'. by specialize (Hl _ _ Hj Hc').
Qed.

Definition after_stop_full : Prop := ∀ s j b,
  reachable s → p_callers s !! j = Some (CRet (RStop b)) → dead s.

(** A second thread that calls Stop returns at once, while the first is still
    waiting for a task. *)
Definition second_stop : list label :=
  boot 1 ++ add 1 (Some 3) ++ work 0 6 ++ [LCall OpStop] ++ steps 2 3 ++ [LCall OpStop] ++ steps 3 1.

Theorem after_stop_refuted : ¬ after_stop_full.
Proof.
  intros H. destruct (run pool_new second_stop) as [s|] eqn:E; [|by vm_compute in E].
  assert (Hr : reachable s) by (by eexists). vm_compute in E. injection E as <-.
  destruct (H _ 3 false Hr eq_refl [] _ eq_refl) as (_ & Hin & _). by specialize (Hin 0 _ eq_refl).
Qed.
Print Assumptions after_stop_refuted.

(** True for the call of Stop that waited for the workers. *)
Theorem after_stop_partial s j :
  reachable s → p_callers s !! j = Some (CRet (RStop true)) → dead s.
Proof. intros Hr Hj. apply idle_dead. by eapply (i_returned _ (reachable_inv3 s Hr)). Qed.
Print Assumptions after_stop_partial.

(** A task is left in the queue by Stop; a later AddTask is refused and a
    later Init starts no task. *)
Example after_stop_ex :
  ∃ s s', run pool_new discarded = Some s ∧ reachable s ∧ p_callers s !! 2 = Some (CRet (RStop true)) ∧ p_queue s = [Some 3] ∧
    run s ([LCall (OpAdd (Some 8))] ++ steps 3 1 ++ [LCall (OpInit 1)] ++ steps 4 1 ++ work 0 3) = Some s' ∧
    p_callers s' !! 3 = Some (CRet (RAdd kLogicErr)) ∧ p_workers s' = [WDone] ∧ p_called s' = [].
Proof.
  destruct (run pool_new discarded) as [s|] eqn:E; [|by vm_compute in E].
  assert (Hr : reachable s) by (by eexists). vm_compute in E. injection E as <-.
  eexists _, _. split; [done|]. split; [done|]. split; [done|]. split; [done|]. split; [by vm_compute|]. by vm_compute.
Qed.

(** * C57: Resize *)
(** In [s] a call of AddTask is accepted and its task called, with [n] workers. *)
Definition usable (n : nat) (t : task) (s : pool) : Prop :=
  ∃ ls s', Forall internal ls ∧ run s (LCall (OpAdd t) :: ls) = Some s' ∧
    p_callers s' !! length (p_callers s) = Some (CRet (RAdd kSuccess)) ∧ t ∈ p_called s' ∧ length (p_workers s') = n.

Definition resize_full : Prop := ∀ s n t ls s',
  reachable s → p_crashed s = false → p_cont s = true → 0 < n → 0 < p_num s →
  (∀ j c, p_callers s !! j = Some c → ∃ r, c = CRet r) →
  Forall internal ls → run s (LCall (OpResize n) :: ls) = Some s' →
  p_callers s' !! length (p_callers s) = Some (CRet RResize) → usable n t s'.

Definition resized : list label := LCall (OpResize 2) :: steps 1 4 ++ work 0 3 ++ steps 1 3.

Theorem resize_refuted : ¬ resize_full.
Proof.
  intros H. destruct (run pool_new (boot 1)) as [s|] eqn:E; [|by vm_compute in E].
  assert (Hr : reachable s) by (by eexists). vm_compute in E. injection E as <-.
  destruct (run (Pool [] true None 0 1 [WTop] [CRet RInit] false [] [] []) resized) as [s'|] eqn:E'; [|by vm_compute in E'].
  pose proof E' as Hrun. vm_compute in E'. injection E' as <-.
  assert (Hu : usable 2 (Some 1) (Pool [] false None 0 2 [WTop; WTop] [CRet RInit; CRet RResize] false [] [] [])).
  { eapply (H _ 2 (Some 1) _ _ Hr); [done|done|lia|simpl; lia| | |exact Hrun|done].
    - intros [|j] c [= <-]. by eexists.
    - by repeat constructor. }
  destruct Hu as (ls & s' & _ & Hr' & Hc & _).
  assert (Hi : idle (Pool [] false None 0 2 [WTop; WTop] [CRet RInit; CRet RResize] false [] [] [])).
  { split; [done|]. by intros [|[|i]] w [= <-]. }
  destruct (idle_dead _ Hi _ _ Hr') as (_ & _ & Hno). by apply (Hno 2).
Qed.
Print Assumptions resize_refuted.

Lemma usable_now s1 n t :
  reachable s1 → p_crashed s1 = false → p_cont s1 = true → 0 < n → p_num s1 = n →
  (∀ j c, p_callers s1 !! j = Some c → stopper c = false) → usable n t s1.
Proof.
  intros Hr1 Hcr Hc Hn Hnum Hso1.
  assert (Hl2 : ∃ s2, step s1 (LCall (OpAdd t)) = Some s2) by (unfold step; rewrite Hcr; by eexists).
  destruct Hl2 as [s2 H2]. assert (Hr2 : reachable s2) by (by eapply reachable_step).
  destruct (cont_step s1 (LCall (OpAdd t)) s2 I H2 Hso1) as (Hc2 & Hcr2 & Hso2).
  assert (Hsv : serving n (length (p_callers s1)) t s2).
  { split; [done|]. split; [by rewrite Hc2|]. split; [done|].
    unfold step in H2. rewrite Hcr in H2. injection H2 as <-. split; [done|]. split; [exact Hso2|].
    unfold added. cbn. by rewrite list_lookup_middle. }
  pose proof Hsv as (_ & Hc2' & _ & Hnum2 & _ & Ha2).
  destruct (tasks_run_partial s2 Hr2 Hcr2 Hc2' Hso2) as (_ & Hfin & ls & s3 & Hi & H3 & Hq).
  destruct (Hfin ls s3 Hi H3 Hq) as [Hcalled Hret].
  assert (Hsv3 : serving n (length (p_callers s1)) t s3).
  { eapply (run_inv (serving n (length (p_callers s1)) t) plain); [| | |exact H3].
    - intros. by eapply serving_step.
    - done.
    - eapply Forall_impl; [exact Hi|by intros []]. }
  destruct Hsv3 as (_ & Hc3 & Hcr3 & Hnum3 & Hso3 & Ha3).
  exists ls, s3. split; [done|]. split; [cbn [run]; by rewrite H2|].
  unfold added in Ha3. destruct (p_callers s3 !! length (p_callers s1)) as [c|] eqn:Ec; [|done].
  destruct (Hret _ _ Ec) as [r ->]. destruct r; try done. destruct Ha3 as [-> Ha3]. split; [done|]. split; [by rewrite Hcalled|].
  by rewrite <- Hnum3, (i_num _ (proj2 (reachable_inv s3 (reachable_run _ _ _ Hr2 H3)))).
Qed.

(** Resize to the size the pool already has changes nothing but its own call, and
    the pool stays usable. *)
Theorem resize_partial s n t j :
  reachable s → p_crashed s = false → p_cont s = true → 0 < n → p_num s = n →
  (∀ j' c, p_callers s !! j' = Some c → j' ≠ j → stopper c = false) → p_callers s !! j = Some (CResize n) →
  ∃ s', step s (LCaller j 0) = Some s' ∧ s' = set_caller s j (CRet RResize) ∧ usable n t s'.
Proof.
  intros Hr Hcr Hc Hn Hnum Hso Hj.
  assert (Hlt : j < length (p_callers s)) by (by eapply lookup_lt_Some).
  assert (Hs : step s (LCaller j 0) = Some (set_caller s j (CRet RResize))).
  { unfold step, caller_step. rewrite Hcr, Hj, Hnum, Nat.eqb_refl. done. }
  eexists. split; [exact Hs|]. split; [done|].
  assert (Hr1 : reachable (set_caller s j (CRet RResize))) by (by eapply reachable_step).
  set (s1 := set_caller s j (CRet RResize)) in *.
  assert (Hso1 : ∀ j' c, p_callers s1 !! j' = Some c → stopper c = false).
  { intros j' c Hc'. subst s1. cbn in Hc'. apply list_lookup_insert_Some in Hc' as [(-> & <- & _)|(? & Hc')]; [done|].
    by eapply Hso. }
  by apply usable_now.
Qed.
Print Assumptions resize_partial.

Example resize_ex :
  ∃ s, run pool_new (boot 2 ++ [LCall (OpResize 2)]) = Some s ∧ reachable s ∧ p_crashed s = false ∧ p_cont s = true ∧ p_num s = 2 ∧
    (∀ j' c, p_callers s !! j' = Some c → j' ≠ 1 → stopper c = false) ∧ p_callers s !! 1 = Some (CResize 2).
Proof.
  at_state (boot 2 ++ [LCall (OpResize 2)]).
  eexists. split; [by vm_compute|]. split; [exact Hr|].
  split; [done|]. split; [done|]. split; [done|]. split; [by intros [|[|j]] c [= <-] ?|done].
Qed.

(** Every other Resize leaves a pool that never accepts or runs anything again. *)
Theorem resize_kills s j n k s' :
  reachable s → p_callers s !! j = Some (CClear n RResize) → step s (LCaller j k) = Some s' → p_crashed s' = false →
  p_num s' = n ∧ dead s'.
Proof.
  intros Hr Hj Hs Hcr'. unfold step in Hs. destruct (p_crashed s) eqn:Hcr; [done|]. unfold caller_step in Hs. rewrite Hj in Hs.
  destruct (forallb joined (p_workers s)) eqn:Ej; injection Hs as <-; [|done]. split; [done|]. apply idle_dead. split.
  - cbn. by eapply (resize_down s Hr _ _ Hj).
  - cbn. by intros i w [-> _]%lookup_replicate.
Qed.
Print Assumptions resize_kills.

Example resize_kills_ex :
  ∃ s s', run pool_new (boot 1 ++ [LCall (OpResize 2)] ++ steps 1 4 ++ work 0 3 ++ steps 1 2) = Some s ∧ reachable s ∧
    p_callers s !! 1 = Some (CClear 2 RResize) ∧ step s (LCaller 1 0) = Some s' ∧ p_crashed s' = false ∧ p_workers s' = [WTop; WTop].
Proof.
  at_state (boot 1 ++ [LCall (OpResize 2)] ++ steps 1 4 ++ work 0 3 ++ steps 1 2).
  eexists _, _. split; [by vm_compute|]. split; [exact Hr|].
  split; [done|]. split; [by vm_compute|]. done.
Qed.

(** * C58: the busy counter *)
Definition busy_exact_full : Prop := ∀ s j k s',
  reachable s → p_callers s !! j = Some CNumRead → step s (LCaller j k) = Some s' →
  p_callers s' !! j = Some (CRet (RNum (how_many inside s) (length (p_queue s)))) ∧
  how_many inside s ≤ length (p_workers s).

(** The worker is counted before it enters its task. *)
Theorem busy_exact_refuted : ¬ busy_exact_full.
Proof.
  intros H.
  destruct (run pool_new (boot 1 ++ add 1 (Some 3) ++ work 0 5 ++ [LCall OpNum] ++ steps 2 1)) as [s|] eqn:E; [|by vm_compute in E].
  assert (Hr : reachable s) by (by eexists). vm_compute in E. injection E as <-.
  by destruct (H _ 2 0 _ Hr eq_refl eq_refl) as [Hc _].
Qed.
Print Assumptions busy_exact_refuted.

(** A worker next to its increment or decrement. *)
Definition at_counter (w : wpc) : bool := match w with WCounted _ | WOut => true | _ => false end.

(** Exact up to workers that have been counted and not yet entered their task, or
    left it and not yet been uncounted. *)
Theorem busy_exact_partial s j k s' :
  reachable s → p_callers s !! j = Some CNumRead → step s (LCaller j k) = Some s' →
  ∃ b, p_callers s' !! j = Some (CRet (RNum b (length (p_queue s)))) ∧
    b = how_many inside s + how_many at_counter s ∧ b ≤ length (p_workers s) ∧ p_num s = length (p_workers s).
Proof.
  intros Hr Hj Hs. destruct (reachable_inv s Hr) as [I J]. unfold step in Hs. destruct (p_crashed s); [done|].
  unfold caller_step in Hs. rewrite Hj in Hs. injection Hs as <-. exists (p_busy s).
  assert (Hlt : j < length (p_callers s)) by (by eapply lookup_lt_Some).
  split; [cbn; by rewrite list_lookup_insert|]. rewrite (i_busy _ I), !how_many_sum. split; [|split; [|apply (i_num _ J)]].
  - induction (p_workers s) as [|w ws IH]; simpl; [done|]. rewrite IH. destruct w; simpl; lia.
  - induction (p_workers s) as [|w ws IH]; simpl; [done|]. destruct w; simpl; lia.
Qed.
Print Assumptions busy_exact_partial.

(** Two workers inside tasks, one task in the queue: (2, 1). *)
Example busy_exact_ex :
  ∃ s s', run pool_new (boot 2 ++ add 1 (Some 3) ++ add 2 (Some 4) ++ add 3 (Some 5) ++ work 0 6 ++ work 1 6 ++
            [LCall OpNum] ++ steps 4 1) = Some s ∧ p_callers s !! 4 = Some CNumRead ∧
    step s (LCaller 4 0) = Some s' ∧ p_callers s' !! 4 = Some (CRet (RNum 2 1)).
Proof. eexists _, _. split; [by vm_compute|]. split; [done|]. split; [by vm_compute|]. done. Qed.

(** Between the pop and the increment a task is in neither number. *)
Theorem unseen_task :
  ∃ s s', reachable s ∧ p_accepted s = [Some 3] ∧ p_called s = [] ∧ p_callers s !! 2 = Some CNumRead ∧
    step s (LCaller 2 0) = Some s' ∧ p_callers s' !! 2 = Some (CRet (RNum 0 0)).
Proof.
  at_state (boot 1 ++ add 1 (Some 3) ++ work 0 4 ++ [LCall OpNum] ++ steps 2 1).
  eexists _, _. split; [exact Hr|].
  split; [done|]. split; [done|]. split; [done|]. split; [by vm_compute|]. done.
Qed.
Print Assumptions unseen_task.

(** * C87, C88: Stop and the destructor do not bring the program down *)
Definition stop_safe_full : Prop := ∀ ls s n,
  Forall (λ l, match l with LCall (OpInit _) | LCall (OpResize _) | LCall OpDestroy => False | _ => True end) ls →
  run pool_new (boot n ++ ls) = Some s → p_crashed s = false.

(** Two Stops that both see the flag up join the same thread twice. *)
Definition two_stops : list label :=
  [LCall OpStop; LCall OpStop] ++ steps 1 1 ++ steps 2 1 ++ steps 1 2 ++ steps 2 2 ++ work 0 3 ++ steps 1 1 ++ steps 2 1.
Theorem stop_safe_refuted : ¬ stop_safe_full.
Proof.
  intros H. destruct (run pool_new (boot 1 ++ two_stops)) as [s|] eqn:E; [|by vm_compute in E].
  assert (Hc : p_crashed s = false).
  { refine (H two_stops s 1 _ E). vm_compute. by repeat apply Forall_cons_2. }
  vm_compute in E. by injection E as <-.
Qed.
Print Assumptions stop_safe_refuted.

(** One Stop, or one destructor, called when the pool is running and nobody else
    stops or resizes it: the program is not terminated, whatever happens. *)
Theorem stop_safe_partial s o s1 ls s2 :
  reachable s → p_crashed s = false → p_cont s = true →
  (∀ j c, p_callers s !! j = Some c → stopper c = false) →
  o = OpStop ∨ o = OpDestroy → step s (LCall o) = Some s1 → Forall plain ls → run s1 ls = Some s2 →
  p_crashed s2 = false.
Proof.
  intros Hr Hcr Hc Hso Ho H1 Hp H2.
  assert (Hk : ∃ k, start o = CStop k ∧ ∀ n, k ≠ KResize n) by (destruct Ho as [-> | ->]; by eexists).
  destruct Hk as (k & Hst & Hk).
  assert (Hl : lone k (length (p_callers s)) s1).
  { unfold step in H1. rewrite Hcr in H1. injection H1 as <-. split; [done|]. cbn. split.
    - intros j c [Hj|Hj]%lookup_app_Some Hne; [by eapply Hso|]. destruct Hj as [Hge Hj].
      apply list_lookup_singleton_Some in Hj as [Hj _]. lia.
    - rewrite list_lookup_middle by done. rewrite Hst. split; [done|]. split; [done|].
      intros i Hi. assert (p_cont s = false) by (by eapply (i_over _ (proj2 (reachable_inv s Hr)))). congruence. }
  assert (Hl2 : lone k (length (p_callers s)) s2).
  { eapply (run_inv (lone k (length (p_callers s))) plain); [|exact Hl|exact Hp|exact H2]. intros. by eapply lone_step. }
  by destruct Hl2.
Qed.
Print Assumptions stop_safe_partial.

Example stop_safe_ex :
  ∃ s s1 s2, run pool_new (boot 2 ++ add 1 (Some 4)) = Some s ∧ reachable s ∧ p_crashed s = false ∧ p_cont s = true ∧
    (∀ j c, p_callers s !! j = Some c → stopper c = false) ∧
    step s (LCall OpDestroy) = Some s1 ∧ run s1 (steps 2 3 ++ work 0 3 ++ work 1 3 ++ steps 2 4) = Some s2 ∧
    p_callers s2 !! 2 = Some (CRet RDestroy).
Proof.
  at_state (boot 2 ++ add 1 (Some 4)).
  eexists _, _, _. split; [by vm_compute|]. split; [exact Hr|]. split; [done|]. split; [done|].
  split; [by intros [|[|j]] c [= <-]|]. split; [by vm_compute|]. split; [by vm_compute|]. done.
Qed.

(** A pool that was resized cannot be destroyed. *)
Definition destroy_safe_full : Prop := ∀ s s1 ls s2,
  reachable s → p_crashed s = false → (∀ j c, p_callers s !! j = Some c → ∃ r, c = CRet r) →
  step s (LCall OpDestroy) = Some s1 → Forall plain ls → run s1 ls = Some s2 → p_crashed s2 = false.
Theorem destroy_safe_refuted : ¬ destroy_safe_full.
Proof.
  intros H.
  destruct (run pool_new (boot 1 ++ resized)) as [s|] eqn:E; [|by vm_compute in E].
  assert (Hr : reachable s) by (by eexists). vm_compute in E. injection E as <-.
  epose proof (H _ _ (steps 2 2) _ Hr eq_refl _ eq_refl _ eq_refl) as Hc. by vm_compute in Hc.
  Unshelve.
  - intros [|[|j]] c [= <-]; by eexists.
  - by repeat constructor.
Qed.
Print Assumptions destroy_safe_refuted.

(** * C89: Init *)
(** Init on a pool that was stopped starts it again. *)
Definition init_again_full : Prop := ∀ s n t s',
  reachable s → p_crashed s = false → 0 < n → (∀ j c, p_callers s !! j = Some c → ∃ r, c = CRet r) →
  run s [LCall (OpInit n); LCaller (length (p_callers s)) 0] = Some s' → p_crashed s' = false ∧ usable n t s'.

(** A second Init on a running pool terminates the program. *)
Theorem init_again_refuted : ¬ init_again_full.
Proof.
  intros H. destruct (run pool_new (boot 1)) as [s|] eqn:E; [|by vm_compute in E].
  assert (Hr : reachable s) by (by eexists). vm_compute in E. injection E as <-.
  epose proof (H _ 1 None _ Hr eq_refl _ _ eq_refl) as [Hc _]. by vm_compute in Hc.
  Unshelve.
  - lia.
  - intros [|j] c [= <-]; by eexists.
Qed.
Print Assumptions init_again_refuted.

(** The first Init makes the pool usable; one after Stop makes a dead pool. *)
Theorem init_again_partial s n s' :
  reachable s → p_crashed s = false →
  run s [LCall (OpInit n); LCaller (length (p_callers s)) 0] = Some s' →
  (p_cont s = false → forallb joined (p_workers s) = true → p_crashed s' = false ∧ dead s') ∧
  (p_cont s = true → p_workers s = [] → 0 < n → (∀ j c, p_callers s !! j = Some c → stopper c = false) →
   p_crashed s' = false ∧ ∀ t, usable n t s').
Proof.
  intros Hr Hcr H. assert (Hr' : reachable s') by (by eapply reachable_run).
  cbn [run] in H. unfold step in H. rewrite Hcr in H. cbn [p_crashed] in H. unfold caller_step in H.
  cbn [p_callers start p_workers] in H. rewrite list_lookup_middle in H by done. split.
  - intros Hc Hj. rewrite Hj in H. injection H as <-. split; [done|]. apply idle_dead. split; [done|].
    cbn. by intros i w [-> _]%lookup_replicate.
  - intros Hc Hw Hn Hso. rewrite Hw in H. cbn [forallb] in H. injection H as <-. split; [done|]. intros t.
    match goal with |- usable _ _ ?x => set (s1 := x) in * end.
    assert (Hso1 : ∀ j' c, p_callers s1 !! j' = Some c → stopper c = false).
    { intros j' c Hc'. subst s1. cbn in Hc'. apply list_lookup_insert_Some in Hc' as [(_ & <- & _)|(Hne & Hc')]; [done|].
      apply lookup_app_Some in Hc' as [Hc'|[Hge Hc']]; [by eapply Hso|].
      apply list_lookup_singleton_Some in Hc' as [Hc' _]. lia. }
    by apply usable_now.
Qed.
Print Assumptions init_again_partial.

Example init_again_ex :
  ∃ s s', run pool_new discarded = Some s ∧ reachable s ∧ p_crashed s = false ∧ p_cont s = false ∧
    forallb joined (p_workers s) = true ∧ run s [LCall (OpInit 2); LCaller (length (p_callers s)) 0] = Some s' ∧
    reachable pool_new ∧ p_cont pool_new = true ∧ p_workers pool_new = [].
Proof.
  at_state discarded.
  eexists _, _. split; [by vm_compute|]. split; [exact Hr|]. split; [done|]. split; [done|]. split; [done|].
  split; [by vm_compute|]. split; [apply reachable_new|done].
Qed.
