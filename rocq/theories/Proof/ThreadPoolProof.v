(** Facts about every reachable state of the thread pool. *)
From Verif.Model Require Export ThreadPool.
From Verif.Spec Require Export ThreadPoolSpec.

(** * Sums over the workers *)
Lemma sum_insert {A} (f : A → nat) l i x y :
  l !! i = Some x → sum_list_with f (<[i := y]> l) + f x = sum_list_with f l + f y.
Proof.
  revert i; induction l as [|a l IH]; intros [|i] H; simpl in *; try done.
  - injection H as ->. lia.
  - specialize (IH _ H). lia.
Qed.
Lemma sum_pos {A} (f : A → nat) l i x : l !! i = Some x → f x ≤ sum_list_with f l.
Proof.
  revert i; induction l as [|a l IH]; intros [|i] H; simpl in *; try done.
  - injection H as ->. lia.
  - specialize (IH _ H). lia.
Qed.
Lemma sum_zero {A} (f : A → nat) l : (∀ i x, l !! i = Some x → f x = 0) → sum_list_with f l = 0.
Proof.
  induction l as [|a l IH]; intros H; simpl; [done|].
  rewrite (H 0 a eq_refl), IH; [done|]. intros i x Hx. by apply (H (S i)).
Qed.
Lemma sum_exists {A} (f : A → nat) l : 0 < sum_list_with f l → ∃ i x, l !! i = Some x ∧ 0 < f x.
Proof.
  induction l as [|a l IH]; simpl; [lia|]. intros H. destruct (f a) eqn:E.
  - destruct (IH ltac:(lia)) as (i & x & ? & ?). by exists (S i), x.
  - exists 0, a. split; [done|lia].
Qed.
Lemma sum_replicate {A} (f : A → nat) n x : sum_list_with f (replicate n x) = n * f x.
Proof. induction n; simpl; lia. Qed.
Lemma sum_map {A B} (g : A → B) (f : B → nat) l : sum_list_with f (map g l) = sum_list_with (λ x, f (g x)) l.
Proof. induction l; simpl; congruence. Qed.

(** * The classes of program points *)
Definition holds (w : wpc) : bool :=
  match w with WTest | WPred | WBlock | WAfter | WTake => true | _ => false end.
Definition cholds (c : cpc) : bool :=
  match c with CAddPush _ | CAddNotify | CAddUnlock | CNumRead => true | _ => false end.
Definition n_asleep (w : wpc) : nat := match w with WAsleep => 1 | _ => 0 end.
Definition n_counted (w : wpc) : nat := match w with WCounted _ | WIn _ | WOut => 1 | _ => 0 end.
Definition n_free (w : wpc) : nat :=
  match w with WTop | WTest | WPred | WBlock | WWoken | WAfter | WTake => 1 | _ => 0 end.
Definition n_notify (c : cpc) : nat := match c with CAddNotify => 1 | _ => 0 end.
Definition hand (w : wpc) : list task := match w with WGot t | WCounted t => [t] | _ => [] end.
Definition in_hand (ws : list wpc) : list task := concat (map hand ws).

Lemma in_hand_insert ws i x y : ws !! i = Some x → in_hand (<[i := y]> ws) ++ hand x ≡ₚ in_hand ws ++ hand y.
Proof.
  unfold in_hand. revert i; induction ws as [|a l IH]; intros [|i] H; simpl in *; try done.
  - injection H as ->. rewrite <- !app_assoc. rewrite (Permutation_app_comm (hand y)), (Permutation_app_comm (hand x)).
    rewrite <- !app_assoc. apply Permutation_app_head, Permutation_app_comm.
  - rewrite <- !app_assoc. by rewrite IH.
Qed.

Lemma in_hand_same ws i x y : ws !! i = Some x → hand x = hand y → in_hand (<[i := y]> ws) = in_hand ws.
Proof.
  unfold in_hand. revert i; induction ws as [|a l IH]; intros [|i] H E; simpl in *; try done.
  - injection H as ->. by rewrite E.
  - by rewrite IH.
Qed.

Record inv (s : pool) : Prop := Inv {
  i_wlock : ∀ i w, p_workers s !! i = Some w → holds w = true → p_lock s = Some (TW i);
  i_clock : ∀ j c, p_callers s !! j = Some c → cholds c = true → p_lock s = Some (TC j);
  i_queue : p_accepted s = p_taken s ++ p_queue s;
  i_taken : p_taken s ≡ₚ p_called s ++ in_hand (p_workers s);
  i_busy : p_busy s = sum_list_with n_counted (p_workers s);
  i_block : ∀ i, p_workers s !! i = Some WBlock → p_queue s = [];
  i_after : ∀ i, p_workers s !! i = Some WAfter → p_queue s ≠ [] ∨ p_cont s = false;
  i_take : ∀ i, p_workers s !! i = Some WTake → p_queue s ≠ [];
  i_wake : p_cont s = true → 0 < sum_list_with n_asleep (p_workers s) →
           length (p_queue s) ≤ sum_list_with n_free (p_workers s) + sum_list_with n_notify (p_callers s) }.

Ltac lk H := apply list_lookup_insert_Some in H; destruct H as [(<- & <- & _)|(? & H)].

Lemma inv_new : inv pool_new.
Proof. split; simpl; done. Qed.

(** Another holder of the mutex is in the way. *)
Ltac clash I :=
  match goal with
  | H : p_workers ?s !! ?i = Some ?w, H2 : holds ?w = true |- _ =>
      let E := fresh in pose proof (i_wlock s I i w H H2) as E; congruence
  end.

Lemma inv_worker s i s' : inv s → worker_step s i = Some s' → inv s'.
Proof.
  intros I H. unfold worker_step in H. destruct (p_workers s !! i) as [x|] eqn:Hx; [|done].
  assert (Hlock : holds x = true → p_lock s = Some (TW i)) by (intros; by eapply i_wlock).
  pose proof (in_hand_insert (p_workers s) i x) as Hhand.
  pose proof (λ y, sum_insert n_counted (p_workers s) i x y Hx) as Hcnt.
  pose proof (λ y, sum_insert n_asleep (p_workers s) i x y Hx) as Hasl.
  pose proof (λ y, sum_insert n_free (p_workers s) i x y Hx) as Hfree.
  assert (Hfr : free s = true → p_lock s = None) by (by intros ?%bool_decide_eq_true_1).
  destruct x; try done;
  repeat match type of H with
         | (if ?b then _ else _) = _ => let E := fresh "E" in destruct b eqn:E
         | match ?q with [] => _ | _ :: _ => _ end = _ => let E := fresh "E" in destruct q eqn:E
         end; try done; injection H as <-.
  all: try (specialize (Hlock eq_refl)); try (specialize (Hfr eq_refl)).
  all: split; unfold set_worker, set_lock, pop, set_busy, log_call;
    cbn [p_queue p_cont p_lock p_busy p_num p_workers p_callers p_crashed p_accepted p_taken p_called].
  all: try match goal with |- context [if ?b then _ else _] => destruct b eqn:Eb end.
  all: try match goal with |- context [match ?t with Some _ => _ | None => _ end] => destruct t end.
  (* the mutex *)
  all: try (intros i' w' Hw Hh; lk Hw; [first [done|discriminate Hh|congruence]|first [by eapply i_wlock|clash I]]).
  all: try (by apply (i_clock _ I)).
  all: try (intros j c Hc Hh; pose proof (i_clock _ I j c Hc Hh); congruence).
  (* the queue *)
  all: try (by apply (i_queue _ I)).
  all: try (rewrite (i_queue _ I), E, <- app_assoc; done).
  (* the tasks *)
  all: try (rewrite (i_taken _ I); match goal with |- context [in_hand (<[_ := ?y]> _)] => specialize (Hhand y Hx) end;
            cbn [hand] in Hhand; rewrite ?app_nil_r in Hhand; try rewrite <- Hhand; try rewrite Hhand;
            rewrite <- ?app_assoc; cbn [app]; try done).
  (* the counter *)
  all: try (rewrite (i_busy _ I); match goal with |- context [sum_list_with n_counted (<[_ := ?y]> _)] => specialize (Hcnt y) end;
            cbn [n_counted] in Hcnt; lia).
  (* the program points *)
  all: try (intros i' Hw; apply list_lookup_insert_Some in Hw; destruct Hw as [(-> & Ew & _)|(Hne & Hw)];
            [ try discriminate Ew
            | first [ by eapply (i_block _ I) | by eapply (i_after _ I) | by eapply (i_take _ I)
                    | exfalso; pose proof (i_wlock _ I _ _ Hw eq_refl); congruence ] ]).
  (* the wake-ups *)
  all: try (intros Hc Hs;
            match goal with |- context [sum_list_with n_free (<[_ := ?y]> _)] => specialize (Hasl y); specialize (Hfree y) end;
            cbn [n_asleep n_free] in Hasl, Hfree; pose proof (i_wake _ I Hc) as Hwk; lia).
  - apply andb_false_iff in Eb as [Eb|Eb]; [by right|left]. by destruct (p_queue s).
  - apply orb_false_iff in Eb as [Eb _]. by destruct (p_queue s).
  - apply orb_true_iff in Eb as [Eb|Eb]; [left; by destruct (p_queue s)|right; by destruct (p_cont s)].
  - intros _ _. rewrite (i_block _ I i Hx). simpl. lia.
  - destruct (i_after _ I _ Hx) as [?|?]; [done|congruence].
  - intros Hc Hs. specialize (Hasl (WGot t)). specialize (Hfree (WGot t)). cbn [n_asleep n_free] in Hasl, Hfree.
    pose proof (i_wake _ I Hc) as Hwk. rewrite E in Hwk. cbn [length] in Hwk. lia.
  - apply Permutation_app_head. symmetry. by eapply Permutation_app_inv_r.
  - apply Permutation_app_head. rewrite <- Hhand. by rewrite Permutation_app_comm.
  - apply Permutation_app_head. rewrite <- Hhand. by rewrite Permutation_app_comm.
Qed.

Lemma no_sleeper ws : existsb asleep ws = false → sum_list_with n_asleep ws = 0.
Proof. induction ws as [|w ws IH]; simpl; [done|]. intros [H1 H2]%orb_false_iff. rewrite (IH H2). by destruct w. Qed.
Lemma map_wake_lookup ws i w : map wake ws !! i = Some w → ∃ w', ws !! i = Some w' ∧ w = wake w'.
Proof. change (map wake ws) with (wake <$> ws). rewrite list_lookup_fmap. intros (w' & ? & ?)%fmap_Some. by exists w'. Qed.
Lemma wake_sleep ws : sum_list_with n_asleep (map wake ws) = 0.
Proof. induction ws as [|[] ws IH]; simpl; done. Qed.
Lemma wake_counted ws : sum_list_with n_counted (map wake ws) = sum_list_with n_counted ws.
Proof. induction ws as [|[] ws IH]; simpl; lia. Qed.
Lemma wake_hand ws : in_hand (map wake ws) = in_hand ws.
Proof. unfold in_hand. induction ws as [|[] ws IH]; simpl; congruence. Qed.
Lemma all_joined ws i w : forallb joined ws = true → ws !! i = Some w → w = WJoined.
Proof.
  intros H Hw. apply elem_of_list_lookup_2, elem_of_list_In in Hw. rewrite forallb_forall in H.
  specialize (H _ Hw). by destruct w.
Qed.
Lemma joined_hand ws : forallb joined ws = true → in_hand ws = [].
Proof. unfold in_hand. induction ws as [|[] ws IH]; simpl; try done. Qed.
Lemma joined_counted ws : forallb joined ws = true → sum_list_with n_counted ws = 0.
Proof. induction ws as [|[] ws IH]; simpl; try done. Qed.
Lemma replicate_hand n : in_hand (replicate n WTop) = [].
Proof. unfold in_hand. by induction n. Qed.

Lemma inv_caller s j k s' : inv s → caller_step s j k = Some s' → inv s'.
Proof.
  intros I H. unfold caller_step in H. destruct (p_callers s !! j) as [x|] eqn:Hx; [|done].
  assert (Hlock : cholds x = true → p_lock s = Some (TC j)) by (intros; by eapply i_clock).
  pose proof (λ y, sum_insert n_notify (p_callers s) j x y Hx) as Hnot.
  assert (Hfr : free s = true → p_lock s = None) by (by intros ?%bool_decide_eq_true_1).
  destruct x; try done;
  repeat match type of H with
         | (if ?b then _ else _) = _ => let E := fresh "E" in destruct b eqn:E
         | match ?q with Some _ => _ | None => _ end = _ => let E := fresh "E" in destruct q as [[]|] eqn:E
         end; try done; injection H as <-.
  all: try (specialize (Hlock eq_refl)); try (specialize (Hfr eq_refl)).
  all: split; unfold set_worker, set_workers, set_caller, set_lock, push, crash, set_cont;
    cbn [p_queue p_cont p_lock p_busy p_num p_workers p_callers p_crashed p_accepted p_taken p_called].
  all: try (by apply (i_wlock _ I)); try (by apply (i_clock _ I)); try (by apply (i_queue _ I)); try (by apply (i_taken _ I));
       try (by apply (i_busy _ I)); try (by apply (i_block _ I)); try (by apply (i_after _ I)); try (by apply (i_take _ I));
       try (by apply (i_wake _ I)).
  all: try match goal with a : after_stop |- _ => destruct a; cbn [stop_next] end.
  all: try match goal with |- context [if ?b then _ else _] => destruct b eqn:Eb end.
  (* the mutex *)
  all: try (intros i' w' Hw Hh; pose proof (i_wlock _ I i' w' Hw Hh); congruence).
  all: try (intros j' c' Hc Hh; lk Hc;
            [first [done|discriminate Hh]|first [by eapply (i_clock _ I)|pose proof (i_clock _ I _ _ Hc Hh); congruence]]).
  all: try (intros Hc Hs;
            match goal with |- context [sum_list_with n_notify (<[_ := ?y]> _)] => specialize (Hnot y) end;
            cbn [n_notify] in Hnot; pose proof (i_wake _ I Hc Hs) as Hwk; lia).
  all: try (by intros Hc; discriminate Hc).
  all: try (intros i' Hw; by right).
  all: try match goal with
           | Hk : p_workers _ !! _ = Some ?x |- context [<[_ := ?y]> (p_workers _)] =>
               pose proof (in_hand_insert _ _ _ y Hk) as Hhand;
               pose proof (sum_insert n_counted _ _ _ y Hk) as Hcnt;
               pose proof (sum_insert n_asleep _ _ _ y Hk) as Hasl;
               pose proof (sum_insert n_free _ _ _ y Hk) as Hfree;
               cbn [hand n_counted n_asleep n_free] in Hhand, Hcnt, Hasl, Hfree;
               rewrite ?app_nil_r in Hhand
           end.
  all: try (intros i' w' Hw Hh; lk Hw; [by discriminate Hh|by eapply (i_wlock _ I)]).
  all: try (rewrite (i_taken _ I); by rewrite Hhand).
  all: try (rewrite (i_busy _ I); lia).
  all: try (intros i' Hw; apply list_lookup_insert_Some in Hw; destruct Hw as [(-> & Ew & _)|(Hne & Hw)];
            [ by discriminate Ew
            | first [ by eapply (i_block _ I) | by eapply (i_after _ I) | by eapply (i_take _ I) ] ]).
  all: try (intros Hc Hs;
            match goal with |- context [sum_list_with n_notify (<[_ := ?y]> _)] => specialize (Hnot y) end;
            cbn [n_notify] in Hnot; pose proof (i_wake _ I Hc) as Hwk; lia).
  (* a push *)
  all: try (by rewrite (i_queue _ I), app_assoc).
  all: try (intros i' Hw; exfalso; pose proof (i_wlock _ I _ _ Hw eq_refl); congruence).
  all: try (intros Hc Hs; specialize (Hnot CAddNotify); cbn [n_notify] in Hnot; rewrite app_length; cbn [length];
            pose proof (i_wake _ I Hc Hs) as Hwk; lia).
  all: try (intros Hc Hs; rewrite no_sleeper in Hs by done; lia).
  (* everybody is woken *)
  all: try (intros i' w' (w & Hw & ->)%map_wake_lookup Hh; eapply (i_wlock _ I); [done|by destruct w]).
  all: try (rewrite wake_hand; by apply (i_taken _ I)).
  all: try (rewrite wake_counted; by apply (i_busy _ I)).
  all: try (intros i' (w & Hw & Ew)%map_wake_lookup; destruct w; try discriminate Ew;
            first [ by eapply (i_block _ I) | by eapply (i_after _ I) | by eapply (i_take _ I) ]).
  all: try (intros Hc Hs; rewrite wake_sleep in Hs; lia).
  (* new workers *)
  all: try (intros i' w' [-> _]%lookup_replicate Hh; discriminate Hh).
  all: try (intros i' [Ew _]%lookup_replicate; discriminate Ew).
  all: try (rewrite (i_taken _ I), joined_hand, replicate_hand by done; done).
  all: try (rewrite (i_busy _ I), joined_counted, sum_replicate by done; simpl; lia).
  all: try (intros Hc Hs; rewrite sum_replicate in Hs; simpl in Hs; lia).
Qed.

(** * A second set of invariants *)
Definition past_set (c : cpc) : bool := match c with CStopNotify _ | CStopJoin _ _ => true | _ => false end.
Definition over (w : wpc) : bool := match w with WDone | WJoined => true | _ => false end.
Definition adding (c : cpc) : bool := match c with CAddLock _ | CAddPush _ => true | _ => false end.

Record inv2 (s : pool) : Prop := Inv2 {
  i_wowner : ∀ i, p_lock s = Some (TW i) → ∃ w, p_workers s !! i = Some w ∧ holds w = true;
  i_cowner : ∀ j, p_lock s = Some (TC j) → ∃ c, p_callers s !! j = Some c ∧ cholds c = true;
  i_set : ∀ j c, p_callers s !! j = Some c → past_set c = true → p_cont s = false;
  i_over : ∀ i w, p_workers s !! i = Some w → over w = true → p_cont s = false;
  i_num : p_num s = length (p_workers s);
  i_some : p_cont s = true → p_workers s = [] →
           p_queue s = [] ∧ ∀ j c, p_callers s !! j = Some c → adding c = false }.

Lemma inv2_new : inv2 pool_new.
Proof. split; simpl; done. Qed.

Lemma owner_insert {A} (f : A → bool) (l : list A) i i' x y :
  l !! i = Some x → (i = i' → f x = true → f y = true) →
  (∃ w, l !! i' = Some w ∧ f w = true) → ∃ w, <[i := y]> l !! i' = Some w ∧ f w = true.
Proof.
  intros Hx Hf (w & Hw & Hfw). destruct (decide (i = i')) as [<-|Hne].
  - exists y. rewrite list_lookup_insert by (by eapply lookup_lt_Some). split; [done|]. apply Hf; [done|]. by simplify_eq.
  - exists w. by rewrite list_lookup_insert_ne.
Qed.

Lemma insert_nil_inv {A} (l : list A) i x : <[i := x]> l = [] → l = [].
Proof. by destruct l as [|a l], i as [|i]. Qed.

Lemma inv2_worker s i s' : inv s → inv2 s → worker_step s i = Some s' → inv2 s'.
Proof.
  intros I J H. unfold worker_step in H. destruct (p_workers s !! i) as [x|] eqn:Hx; [|done].
  assert (Hlock : holds x = true → p_lock s = Some (TW i)) by (intros; by eapply i_wlock).
  assert (Hfr : free s = true → p_lock s = None) by (by intros ?%bool_decide_eq_true_1).
  assert (Hlt : i < length (p_workers s)) by (by eapply lookup_lt_Some).
  destruct x; try done;
  repeat match type of H with
         | (if ?b then _ else _) = _ => let E := fresh "E" in destruct b eqn:E
         | match ?q with [] => _ | _ :: _ => _ end = _ => let E := fresh "E" in destruct q eqn:E
         end; try done; injection H as <-.
  all: try (specialize (Hlock eq_refl)); try (specialize (Hfr eq_refl)).
  all: split; unfold set_worker, set_lock, pop, set_busy, log_call;
    cbn [p_queue p_cont p_lock p_busy p_num p_workers p_callers p_crashed p_accepted p_taken p_called].
  all: try match goal with |- context [if ?b then _ else _] => destruct b eqn:Eb end.
  all: try match goal with |- context [match ?t with Some _ => _ | None => _ end] => destruct t end.
  all: try (by apply (i_cowner _ J)); try (by apply (i_set _ J)).
  all: try (rewrite insert_length; by apply (i_num _ J)).
  all: try (intros _ Hn%insert_nil_inv; rewrite Hn in Hlt; simpl in Hlt; lia).
  all: try (intros i' Hi; congruence).
  all: try (intros i' Hi; injection Hi as <-; eexists; split; [by apply list_lookup_insert|done]).
  all: try (intros i' Hi; eapply owner_insert; [done|intros <-; done|by apply (i_wowner _ J)]).
  all: try (intros i' w' Hw Ho; lk Hw; [first [done|discriminate Ho]|by eapply (i_over _ J)]).
Qed.

Lemma inv2_caller s j k s' : inv s → inv2 s → caller_step s j k = Some s' → inv2 s'.
Proof.
  intros I J H. unfold caller_step in H. destruct (p_callers s !! j) as [x|] eqn:Hx; [|done].
  assert (Hlock : cholds x = true → p_lock s = Some (TC j)) by (intros; by eapply i_clock).
  assert (Hfr : free s = true → p_lock s = None) by (by intros ?%bool_decide_eq_true_1).
  assert (Hlt : j < length (p_callers s)) by (by eapply lookup_lt_Some).
  assert (Hset : past_set x = true → p_cont s = false) by (intros; by eapply i_set).
  assert (Hadd : p_cont s = true → p_workers s = [] → adding x = false).
  { intros Hc Hn. by eapply (proj2 (i_some _ J Hc Hn)). }
  destruct x; try done;
  repeat match type of H with
         | (if ?b then _ else _) = _ => let E := fresh "E" in destruct b eqn:E
         | match ?q with Some _ => _ | None => _ end = _ => let E := fresh "E" in destruct q as [[]|] eqn:E
         end; try done; injection H as <-.
  all: try (specialize (Hlock eq_refl)); try (specialize (Hfr eq_refl)); try (specialize (Hset eq_refl)).
  all: split; unfold set_worker, set_workers, set_caller, set_lock, push, crash, set_cont;
    cbn [p_queue p_cont p_lock p_busy p_num p_workers p_callers p_crashed p_accepted p_taken p_called].
  all: try (by apply (i_wowner _ J)); try (by apply (i_cowner _ J)); try (by apply (i_set _ J)); try (by apply (i_over _ J));
       try (by apply (i_num _ J)); try (by apply (i_some _ J)).
  all: try match goal with a : after_stop |- _ => destruct a; cbn [stop_next] end.
  all: try match goal with |- context [if ?b then _ else _] => destruct b eqn:Eb end.
  all: try (intros i' Hi; congruence).
  all: try (intros i' Hi; injection Hi as <-; eexists; split; [by apply list_lookup_insert|done]).
  all: try (intros i' Hi; eapply owner_insert; [done|intros <-; done|by apply (i_cowner _ J)]).
  all: try (intros i' Hi; eapply owner_insert; [done|intros <-; done|by apply (i_wowner _ J)]).
  all: try (intros j' c' Hc Ho; lk Hc; [first [done|discriminate Ho]|first [done|by eapply (i_set _ J)]]).
  all: try (rewrite ?insert_length, ?map_length, ?replicate_length; first [done|by apply (i_num _ J)]).
  all: try (intros Hc; congruence).
  all: try (intros i' w' Hw Ho; lk Hw; [first [done|discriminate Ho]|by eapply (i_over _ J)]).
  all: try (intros i' w' (w & Hw & ->)%map_wake_lookup Hh; eapply (i_over _ J); [done|by destruct w]).
  all: try (by intros i' w' [-> _]%lookup_replicate Hh; discriminate Hh).
  all: try (intros Hc Hn; try apply insert_nil_inv in Hn; destruct (i_some _ J Hc Hn) as [Hq Hr]; split; [done|]; intros j' c' Hj;
            apply list_lookup_insert_Some in Hj as [(-> & <- & _)|(Hne & Hj)]; [done|by eapply Hr]).
  - intros Hc Hn. rewrite (i_num _ J), Hn, Hc in Eb. done.
  - intros Hc Hn. specialize (Hadd Hc Hn). done.
  - intros Hc Hn. specialize (Hadd Hc Hn). done.
  - intros i Hi. destruct (i_wowner _ J i Hi) as (w & Hw & Hh). exists (wake w).
    change (map wake (p_workers s)) with (wake <$> p_workers s). rewrite list_lookup_fmap, Hw. by destruct w.
  - intros i Hi. destruct (i_wowner _ J i Hi) as (w & Hw & Hh). exists (wake w).
    change (map wake (p_workers s)) with (wake <$> p_workers s). rewrite list_lookup_fmap, Hw. by destruct w.
  - intros i Hi. destruct (i_wowner _ J i Hi) as (w & Hw & Hh). exists (wake w).
    change (map wake (p_workers s)) with (wake <$> p_workers s). rewrite list_lookup_fmap, Hw. by destruct w.
  - intros i Hi. destruct (i_wowner _ J i Hi) as (w & Hw & Hh). by rewrite (all_joined _ _ _ E Hw) in Hh.
  - intros Hc _. destruct (p_workers s) as [|w ws] eqn:Ew.
    + destruct (i_some _ J Hc Ew) as [Hq Hr]. split; [done|]. intros j' c' Hj.
      apply list_lookup_insert_Some in Hj as [(-> & <- & _)|(Hne & Hj)]; [done|by eapply Hr].
    + assert (H0 : p_workers s !! 0 = Some w) by (by rewrite Ew). simpl in E. apply andb_true_iff in E as [E _].
      assert (p_cont s = false) by (eapply (i_over _ J); [done|by destruct w]). congruence.
Qed.

Lemma lookup_app_one {A} (l : list A) x j y : (l ++ [x]) !! j = Some y → l !! j = Some y ∨ y = x.
Proof.
  intros H. apply lookup_app_Some in H as [H|[_ H]]; [by left|right].
  apply list_lookup_singleton_Some in H as [_ ->]. done.
Qed.

Lemma inv_step s l s' : inv s ∧ inv2 s → step s l = Some s' → inv s' ∧ inv2 s'.
Proof.
  intros [I J] H. unfold step in H. destruct (p_crashed s); [done|]. destruct l as [i|j k|o|i].
  - split; [by eapply inv_worker|by eapply inv2_worker].
  - split; [by eapply inv_caller|by eapply inv2_caller].
  - injection H as <-.
    assert (Hs : cholds (start o) = false ∧ past_set (start o) = false ∧ adding (start o) = false ∧ n_notify (start o) = 0)
      by (by destruct o).
    destruct Hs as (Hs1 & Hs2 & Hs3 & Hs4). split.
    + destruct I; split; cbn; try done.
      * intros j c [H| ->]%lookup_app_one Hc; [by eapply i_clock0|congruence].
      * intros Hc Ha. rewrite sum_list_with_app. specialize (i_wake0 Hc Ha). lia.
    + destruct J; split; cbn; try done.
      * intros j Hj. destruct (i_cowner0 j Hj) as (c & Hc & Hh). exists c. split; [by apply lookup_app_l_Some|done].
      * intros j c [H| ->]%lookup_app_one Hc; [by eapply i_set0|congruence].
      * intros Hc Hn. destruct (i_some0 Hc Hn) as [Hq Hr]. split; [done|].
        intros j c [H| ->]%lookup_app_one; [by eapply Hr|done].
  - destruct (p_workers s !! i) as [[]|] eqn:Hx; try done. injection H as <-.
    pose proof (in_hand_insert _ _ _ WWoken Hx) as Hhand.
    pose proof (sum_insert n_counted _ _ _ WWoken Hx) as Hcnt.
    pose proof (sum_insert n_asleep _ _ _ WWoken Hx) as Hasl.
    pose proof (sum_insert n_free _ _ _ WWoken Hx) as Hfree.
    cbn [hand n_counted n_asleep n_free] in Hhand, Hcnt, Hasl, Hfree. rewrite ?app_nil_r in Hhand. split.
    + split; unfold set_worker;
        cbn [p_queue p_cont p_lock p_busy p_num p_workers p_callers p_crashed p_accepted p_taken p_called].
      * intros i' w' Hw Hh. lk Hw; [done|by eapply (i_wlock _ I)].
      * apply (i_clock _ I).
      * apply (i_queue _ I).
      * rewrite Hhand. apply (i_taken _ I).
      * rewrite (i_busy _ I). lia.
      * intros i' Hw. apply list_lookup_insert_Some in Hw as [(_ & Ew & _)|(_ & Hw)]; [done|by eapply (i_block _ I)].
      * intros i' Hw. apply list_lookup_insert_Some in Hw as [(_ & Ew & _)|(_ & Hw)]; [done|by eapply (i_after _ I)].
      * intros i' Hw. apply list_lookup_insert_Some in Hw as [(_ & Ew & _)|(_ & Hw)]; [done|by eapply (i_take _ I)].
      * intros Hc Hs. pose proof (i_wake _ I Hc). lia.
    + split; unfold set_worker;
        cbn [p_queue p_cont p_lock p_busy p_num p_workers p_callers p_crashed p_accepted p_taken p_called].
      * intros i' Hi. eapply owner_insert; [done|done|by apply (i_wowner _ J)].
      * apply (i_cowner _ J).
      * apply (i_set _ J).
      * intros i' w' Hw Hh. lk Hw; [done|by eapply (i_over _ J)].
      * rewrite insert_length. apply (i_num _ J).
      * intros Hc Hn%insert_nil_inv. by apply (i_some _ J).
Qed.

(** * Induction over runs *)
Lemma run_app s ls1 ls2 : run s (ls1 ++ ls2) = match run s ls1 with Some s' => run s' ls2 | None => None end.
Proof. revert s; induction ls1 as [|l ls1 IH]; intros s; simpl; [done|]. destruct (step s l); [apply IH|done]. Qed.
Lemma run_inv (P : pool → Prop) (Q : label → Prop) :
  (∀ s l s', P s → Q l → step s l = Some s' → P s') →
  ∀ ls s s', P s → Forall Q ls → run s ls = Some s' → P s'.
Proof.
  intros Hstep. induction ls as [|l ls IH]; intros s s' HP HQ H; simpl in H.
  - by injection H as <-.
  - apply Forall_cons in HQ as [Hl HQ]. destruct (step s l) as [s1|] eqn:E; [|done]. eauto.
Qed.
Lemma reachable_new : reachable pool_new.
Proof. by exists []. Qed.
Lemma reachable_run s ls s' : reachable s → run s ls = Some s' → reachable s'.
Proof. intros [ls0 H0] H. exists (ls0 ++ ls). by rewrite run_app, H0. Qed.
Lemma reachable_step s l s' : reachable s → step s l = Some s' → reachable s'.
Proof. intros Hr H. apply (reachable_run s [l]); [done|]. simpl. by rewrite H. Qed.
Lemma reachable_inv s : reachable s → inv s ∧ inv2 s.
Proof.
  intros [ls H]. eapply (run_inv (λ s, inv s ∧ inv2 s) (λ _, True)); [|split; [apply inv_new|apply inv2_new]| |done].
  - intros s0 l s1 HI _ Hs. by eapply inv_step.
  - by apply Forall_true.
Qed.

(** * Every step of a thread brings the pool closer to rest *)
Definition w_weight (w : wpc) : nat :=
  match w with
  | WTop => 7 | WTest => 6 | WPred => 5 | WBlock => 4 | WAsleep => 0 | WWoken => 6 | WAfter => 3 | WTake => 2
  | WGot _ => 11 | WCounted _ => 10 | WIn _ => 9 | WOut => 8 | WDone => 1 | WJoined => 0
  end.
Definition c_weight (n : nat) (c : cpc) : nat :=
  match c with
  | CAdd _ => 34 | CAddLock _ => 33 | CAddPush _ => 32 | CAddNotify => 8 | CAddUnlock => 1
  | CStop _ => 7 * n + 6 | CStopSet _ => 7 * n + 5 | CStopNotify _ => 7 * n + 4 | CStopJoin i _ => (n - i) + 3
  | CDestroy => 2 | CNum => 3 | CNumRead => 2 | CResize _ | CClear _ _ | CRet _ => 0
  end.
Definition weight (s : pool) : nat :=
  20 * length (p_queue s) + sum_list_with w_weight (p_workers s)
  + sum_list_with (c_weight (length (p_workers s))) (p_callers s) + (if p_crashed s then 0 else 1).

(** A call that starts threads. *)
Definition spawning (c : cpc) : bool :=
  match c with
  | CResize _ | CClear _ _ | CStop (KResize _) | CStopSet (KResize _) | CStopNotify (KResize _) | CStopJoin _ (KResize _) => true
  | _ => false
  end.
Definition no_spawn (s : pool) : Prop := ∀ j c, p_callers s !! j = Some c → spawning c = false.

Lemma wake_weight ws : sum_list_with w_weight (map wake ws) ≤ sum_list_with w_weight ws + 6 * length ws.
Proof. induction ws as [|[] ws IH]; simpl in *; lia. Qed.

Lemma weight_worker s i s' : inv s → worker_step s i = Some s' → weight s' < weight s ∧ p_callers s' = p_callers s.
Proof.
  intros I H. unfold worker_step in H. destruct (p_workers s !! i) as [x|] eqn:Hx; [|done].
  pose proof (λ y, sum_insert w_weight (p_workers s) i x y Hx) as Hw.
  destruct x; try done;
  repeat match type of H with
         | (if ?b then _ else _) = _ => let E := fresh "E" in destruct b eqn:E
         | match ?q with [] => _ | _ :: _ => _ end = _ => let E := fresh "E" in destruct q eqn:E
         end; try done; injection H as <-; (split; [|done]).
  all: unfold weight, set_worker, set_lock, pop, set_busy, log_call;
    cbn [p_queue p_cont p_lock p_busy p_num p_workers p_callers p_crashed p_accepted p_taken p_called]; rewrite ?insert_length.
  all: try match goal with |- context [if ?b then WPred else _] => destruct b eqn:Eb end.
  all: try match goal with |- context [if ?b then WAfter else _] => destruct b eqn:Eb end.
  all: try match goal with |- context [match ?t with Some _ => _ | None => _ end] => destruct t end.
  all: try (by destruct (i_take _ I i Hx)).
  all: match goal with |- context [sum_list_with w_weight (<[_ := ?y]> _)] => specialize (Hw y) end; cbn [w_weight] in Hw.
  all: try rewrite E; cbn [length]; lia.
Qed.

Lemma weight_caller s j k s' :
  no_spawn s → p_crashed s = false → caller_step s j k = Some s' → weight s' < weight s ∧ no_spawn s'.
Proof.
  intros Hns Hcr H. unfold caller_step in H. destruct (p_callers s !! j) as [x|] eqn:Hx; [|done].
  pose proof (λ y, sum_insert (c_weight (length (p_workers s))) (p_callers s) j x y Hx) as Hc.
  pose proof (Hns _ _ Hx) as Hsp.
  assert (Hmv : ∀ y s1, p_callers s1 = <[j := y]> (p_callers s) → spawning y = false → no_spawn s1).
  { intros y s1 E Hy j' c Hj. rewrite E in Hj. lk Hj; [done|by eapply Hns]. }
  destruct x; try done;
  repeat match type of H with
         | (if ?b then _ else _) = _ => let E := fresh "E" in destruct b eqn:E
         | match ?q with Some _ => _ | None => _ end = _ => let E := fresh "E" in destruct q as [[]|] eqn:E
         end; try done; injection H as <-.
  all: (split; [|first [done|eapply Hmv; [done|];
    try match goal with a : after_stop |- _ => destruct a end; cbn [stop_next] in *; repeat case_match; done]]).
  all: unfold weight, set_worker, set_workers, set_caller, set_lock, push, crash, set_cont;
    cbn [p_queue p_cont p_lock p_busy p_num p_workers p_callers p_crashed p_accepted p_taken p_called];
    rewrite ?insert_length, ?map_length, ?app_length, ?Hcr; cbn [length].
  all: try match goal with
           | Hk : p_workers _ !! _ = Some _ |- context [sum_list_with w_weight (<[_ := ?y]> _)] =>
               pose proof (sum_insert w_weight _ _ _ y Hk) as Hw; cbn [w_weight] in Hw
           end.
  all: try match goal with |- context [sum_list_with (c_weight _) (<[_ := ?y]> _)] => specialize (Hc y) end.
  all: try match goal with |- context [if ?b then _ else _] => destruct b eqn:Eb end.
  all: try match goal with a : after_stop |- _ => destruct a; cbn [stop_next] in * end.
  all: cbn [c_weight] in Hc; try lia.
  all: try (pose proof (wake_weight (p_workers s)); lia).
  all: try (apply lookup_lt_Some in E; lia).
Qed.

Lemma internal_bound ls s s' :
  inv s ∧ inv2 s → no_spawn s → Forall internal ls → run s ls = Some s' →
  length ls + weight s' ≤ weight s ∧ no_spawn s'.
Proof.
  revert s; induction ls as [|l ls IH]; intros s HI Hns HQ H; simpl in H.
  - injection H as <-. simpl. split; [lia|done].
  - apply Forall_cons in HQ as [Hl HQ]. destruct (step s l) as [s1|] eqn:E; [|done].
    assert (Hw : weight s1 < weight s ∧ no_spawn s1).
    { unfold step in E. destruct (p_crashed s) eqn:Ecr; [done|]. destruct l as [i|j k|o|i]; try done.
      - destruct (weight_worker s i s1 (proj1 HI) E) as [Hw Hc]. split; [done|]. unfold no_spawn. by rewrite Hc.
      - by eapply weight_caller. }
    destruct Hw as [Hw Hns1]. destruct (IH s1 (inv_step _ _ _ HI E) Hns1 HQ H) as [Hb Hn]. split; [|done].
    cbn [length]. lia.
Qed.

Lemma sleeper_exists ws : existsb asleep ws = true → ∃ i, ws !! i = Some WAsleep.
Proof.
  induction ws as [|w ws IH]; simpl; [done|]. intros [H|H]%orb_true_iff.
  - exists 0. by destruct w.
  - destruct (IH H) as [i Hi]. by exists (S i).
Qed.

(** Where everybody is when nothing can move. *)
Lemma quiet_shape s :
  inv s ∧ inv2 s → p_crashed s = false → quiet s →
  p_lock s = None ∧
  (∀ i w, p_workers s !! i = Some w → w = WAsleep ∨ over w = true) ∧
  (∀ j c, p_callers s !! j = Some c →
     (∃ r, c = CRet r) ∨ ∃ i k, c = CStopJoin i k ∧ p_workers s !! i = Some WAsleep).
Proof.
  intros [I J] Hcr Hq.
  assert (HqW : ∀ i, worker_step s i = None).
  { intros i. specialize (Hq (LWorker i)). simpl in Hq. unfold step in Hq. by rewrite Hcr in Hq. }
  assert (HqC : ∀ j k, caller_step s j k = None).
  { intros j k. specialize (Hq (LCaller j k)). simpl in Hq. unfold step in Hq. by rewrite Hcr in Hq. }
  assert (Hl : p_lock s = None).
  { destruct (p_lock s) as [[i|j]|] eqn:El; [| |done]; exfalso.
    - destruct (i_wowner _ J i El) as (w & Hw & Hh). specialize (HqW i). unfold worker_step in HqW. rewrite Hw in HqW.
      destruct w; try done; [by destruct (p_cont s)|by destruct (p_queue s)].
    - destruct (i_cowner _ J j El) as (c & Hc & Hh).
      destruct c; try done; try (specialize (HqC j 0); unfold caller_step in HqC; by rewrite Hc in HqC).
      destruct (existsb asleep (p_workers s)) eqn:Ea.
      + destruct (sleeper_exists _ Ea) as [k Hk]. specialize (HqC j k). unfold caller_step in HqC.
        by rewrite Hc, Ea, Hk in HqC.
      + specialize (HqC j 0). unfold caller_step in HqC. by rewrite Hc, Ea in HqC. }
  assert (Hf : free s = true) by (unfold free; by apply bool_decide_eq_true_2).
  assert (HW : ∀ i w, p_workers s !! i = Some w → w = WAsleep ∨ over w = true).
  { intros i w Hw. specialize (HqW i). unfold worker_step in HqW. rewrite Hw, Hf in HqW.
    destruct w; try done; try (by left); try (by right).
    - by destruct (p_cont s).
    - by destruct (p_queue s). }
  split; [done|]. split; [done|]. intros j c Hc. pose proof (HqC j 0) as H0. unfold caller_step in H0. rewrite Hc, Hf in H0.
  destruct c; try done; try (by left; eexists).
  - assert (p_lock s = Some (TC j)) by (by eapply (i_clock _ I)). congruence.
  - destruct (p_workers s !! i) as [w|] eqn:Hw; [|done]. destruct (HW _ _ Hw) as [->|Ho].
    + right. by exists i, k.
    + by destruct w.
  - by destruct (forallb joined (p_workers s)).
  - by destruct (forallb joined (p_workers s)).
Qed.

(** At rest and not stopped, nothing is left in the queue. *)
Lemma quiet_empty s :
  inv s ∧ inv2 s → p_crashed s = false → quiet s → p_cont s = true →
  p_queue s = [] ∧ p_called s ≡ₚ p_accepted s ∧ ∀ j c, p_callers s !! j = Some c → ∃ r, c = CRet r.
Proof.
  intros [I J] Hcr Hq Hc. destruct (quiet_shape s (conj I J) Hcr Hq) as (Hl & HW & HC).
  assert (HC' : ∀ j c, p_callers s !! j = Some c → ∃ r, c = CRet r).
  { intros j c Hj. destruct (HC j c Hj) as [?|(i & k & -> & _)]; [done|].
    assert (p_cont s = false) by (by eapply (i_set _ J)). congruence. }
  assert (HW' : ∀ i w, p_workers s !! i = Some w → w = WAsleep).
  { intros i w Hw. destruct (HW i w Hw) as [?|Ho]; [done|]. assert (p_cont s = false) by (by eapply (i_over _ J)). congruence. }
  assert (Hqe : p_queue s = []).
  { destruct (p_workers s) as [|w ws] eqn:Ew; [by apply (i_some _ J)|].
    assert (Hs : 0 < sum_list_with n_asleep (p_workers s)).
    { pose proof (sum_pos n_asleep (p_workers s) 0 w) as Hp. rewrite Ew in *. specialize (Hp eq_refl).
      rewrite (HW' 0 w eq_refl) in Hp at 1. cbn [n_asleep] in Hp. lia. }
    pose proof (i_wake _ I Hc Hs) as Hlen.
    rewrite (sum_zero n_free), (sum_zero n_notify) in Hlen.
    - by destruct (p_queue s); simpl in Hlen; [|lia].
    - intros j c Hj. by destruct (HC' j c Hj) as [r ->].
    - intros i x Hx. rewrite Ew in Hx. by rewrite (HW' i x Hx). }
  split; [done|]. split; [|done]. rewrite (i_queue _ I), Hqe, app_nil_r, (i_taken _ I).
  assert (Hh : in_hand (p_workers s) = []).
  { assert (Hn : ∀ ws : list wpc, (∀ i w, ws !! i = Some w → w = WAsleep) → in_hand ws = []).
    { unfold in_hand. induction ws as [|w ws IH]; intros H; simpl; [done|].
      rewrite (H 0 w eq_refl). simpl. apply IH. intros i x Hx. by apply (H (S i)). }
    by apply Hn. }
  by rewrite Hh, app_nil_r.
Qed.

(** * Stop *)
(** Without a Stop the flag stays up. *)
Lemma cont_step s l s' :
  plain l → step s l = Some s' →
  (∀ j c, p_callers s !! j = Some c → stopper c = false) →
  p_cont s' = p_cont s ∧ p_crashed s' = false ∧ ∀ j c, p_callers s' !! j = Some c → stopper c = false.
Proof.
  intros Hp H Hns. unfold step in H. destruct (p_crashed s) eqn:Ecr; [done|]. destruct l as [i|j k|o|i].
  - unfold worker_step in H. repeat case_match; simplify_eq; done.
  - unfold caller_step in H. destruct (p_callers s !! j) as [x|] eqn:Hx; [|done]. specialize (Hns _ _ Hx) as Hx0.
    assert (Hmv : ∀ y s1, p_callers s1 = <[j := y]> (p_callers s) → stopper y = false →
              ∀ j c, p_callers s1 !! j = Some c → stopper c = false).
    { intros y s1 E Hy j' c Hj. rewrite E in Hj. lk Hj; [done|by eapply Hns]. }
    destruct x; try done; repeat case_match; simplify_eq; (split; [done|]; split; [done|]);
      (eapply Hmv; [done|]); try done; by repeat case_match.
  - injection H as <-. simpl. split; [done|]. split; [done|]. intros j c [H| ->]%lookup_app_one; [by eapply Hns|].
    by destruct o.
  - destruct (p_workers s !! i) as [[]|]; try done. by injection H as <-.
Qed.

(** Stopped, and nobody is or will be asleep. *)
Definition awake (s : pool) : Prop :=
  p_cont s = false ∧ ∀ i w, p_workers s !! i = Some w → w ≠ WAsleep ∧ w ≠ WBlock.

Lemma awake_step s l s' : awake s → step s l = Some s' → awake s'.
Proof.
  intros [Hc Hw] H. unfold step in H. destruct (p_crashed s); [done|]. destruct l as [i|j k|o|i].
  - unfold worker_step in H. rewrite Hc in H. destruct (p_workers s !! i) as [x|] eqn:Hx; [|done].
    rewrite andb_false_l, orb_true_r in H. cbn [negb] in H.
    destruct x; try done; repeat case_match; simplify_eq; (split; [done|]); cbn [p_workers set_worker set_lock pop set_busy log_call];
      intros i' w' Hl; lk Hl; try done; try (by eapply Hw).
    by destruct (Hw _ _ Hx) as [_ ?].
  - unfold caller_step in H. destruct (p_callers s !! j) as [x|] eqn:Hx; [|done].
    destruct x; try done; repeat case_match; simplify_eq; (split; [done|]);
      cbn [p_workers set_worker set_workers set_caller set_lock push crash set_cont];
      intros i' w' Hl; try (by eapply Hw); try (lk Hl; [done|by eapply Hw]).
    + apply map_wake_lookup in Hl as (w & Hl & ->). destruct (Hw _ _ Hl). by destruct w.
    + by apply lookup_replicate in Hl as [-> _].
  - by injection H as <-.
  - destruct (p_workers s !! i) as [[]|] eqn:Hx; try done. by destruct (Hw _ _ Hx).
Qed.

(** Call [j] is the only one near Stop, and is joining or has returned. *)
Definition joining (j : nat) (s : pool) : Prop :=
  awake s ∧ p_crashed s = false ∧
  (∀ j' c, p_callers s !! j' = Some c → j' ≠ j → stopper c = false) ∧
  ((∃ i, p_callers s !! j = Some (CStopJoin i KReturn) ∧ ∀ i', i ≤ i' → p_workers s !! i' ≠ Some WJoined)
   ∨ p_callers s !! j = Some (CRet (RStop true))).

Lemma joining_step j s l s' : plain l → joining j s → step s l = Some s' → joining j s'.
Proof.
  intros Hp (Ha & Hcr & Hso & Hj) H. split; [by eapply awake_step|].
  unfold step in H. rewrite Hcr in H. destruct l as [i|j' k|o|i].
  - assert (E : p_crashed s' = p_crashed s ∧ p_callers s' = p_callers s ∧
               ∀ i', p_workers s' !! i' = Some WJoined → p_workers s !! i' = Some WJoined).
    { unfold worker_step in H. destruct (p_workers s !! i) as [x|] eqn:Hx; [|done].
      destruct x; try done; repeat case_match; simplify_eq; (split; [done|]; split; [done|]);
        cbn [p_workers set_worker set_lock pop set_busy log_call]; intros i' Hi;
        apply list_lookup_insert_Some in Hi as [(_ & ? & _)|(_ & ?)]; try done. }
    destruct E as (-> & -> & Ej). split; [done|]. split; [done|]. destruct Hj as [(i0 & H1 & H2)|?]; [left|by right].
    exists i0. split; [done|]. intros i' Hi' Hw. by apply (H2 i' Hi'), Ej.
  - destruct (decide (j' = j)) as [->|Hne].
    + destruct Hj as [(i0 & H1 & H2)|H1]; unfold caller_step in H; rewrite H1 in H; [|done].
      assert (Hlt : j < length (p_callers s)) by (by eapply lookup_lt_Some).
      destruct (p_workers s !! i0) as [w|] eqn:Hw.
      * destruct w; try done; injection H as <-; [|by destruct (H2 i0 (le_n _))].
        split; [done|]. split.
        { intros j' c Hj Hne. cbn in Hj. rewrite list_lookup_insert_ne in Hj by done. by eapply Hso. }
        left. exists (S i0). cbn. rewrite list_lookup_insert by done. split; [done|]. intros i' Hi'.
        rewrite list_lookup_insert_ne by lia. apply H2. lia.
      * injection H as <-. split; [done|]. split.
        { intros j' c Hj Hne. cbn in Hj. rewrite list_lookup_insert_ne in Hj by done. by eapply Hso. }
        right. cbn. by rewrite list_lookup_insert.
    + unfold caller_step in H. destruct (p_callers s !! j') as [x|] eqn:Hx; [|done].
      pose proof (Hso _ _ Hx Hne) as Hst.
      assert (E : p_crashed s' = p_crashed s ∧ (∃ y, p_callers s' = <[j' := y]> (p_callers s) ∧ stopper y = false) ∧
                 ∀ i', p_workers s' !! i' = Some WJoined → p_workers s !! i' = Some WJoined).
      { destruct x; try done; repeat case_match; simplify_eq; (split; [done|]; split; [eexists; split; [done|by repeat case_match]|]);
          cbn [p_workers set_worker set_caller set_lock push]; try done.
        intros i' Hi. apply list_lookup_insert_Some in Hi as [(_ & ? & _)|(_ & ?)]; done. }
      destruct E as (-> & (y & Ey & Hy) & Ej). split; [done|]. split.
      { intros j1 c Hj1 Hne1. rewrite Ey in Hj1. lk Hj1; [done|by eapply Hso]. }
      rewrite Ey, list_lookup_insert_ne by done. destruct Hj as [(i0 & H1 & H2)|?]; [left|by right].
      exists i0. split; [done|]. intros i' Hi' Hw. by apply (H2 i' Hi'), Ej.
  - injection H as <-. cbn. split; [done|]. split.
    { intros j' c [Hc| ->]%lookup_app_one Hne; [by eapply Hso|]. by destruct o. }
    destruct Hj as [(i0 & H1 & H2)|H1]; [left; exists i0; split; [by apply lookup_app_l_Some|done]|right; by apply lookup_app_l_Some].
  - destruct (p_workers s !! i) as [[]|] eqn:Hx; try done. destruct Ha as [_ Ha]. by destruct (Ha _ _ Hx).
Qed.

Lemma joining_no_spawn j s : joining j s → no_spawn s.
Proof.
  intros (_ & _ & Hso & Hj) j' c Hc. destruct (decide (j' = j)) as [->|Hne].
  - destruct Hj as [(i & H1 & _)|H1]; rewrite H1 in Hc; by injection Hc as <-.
  - specialize (Hso _ _ Hc Hne). by destruct c.
Qed.

Lemma joining_quiet j s : inv s ∧ inv2 s → joining j s → quiet s → p_callers s !! j = Some (CRet (RStop true)).
Proof.
  intros HI (Ha & Hcr & Hso & Hj) Hq. destruct (quiet_shape s HI Hcr Hq) as (Hl & HW & HC).
  destruct Hj as [(i & H1 & H2)|?]; [|done]. exfalso.
  destruct (HC _ _ H1) as [[r ?]|(i' & k & E & Hs)]; [done|]. destruct Ha as [_ Ha]. by destruct (Ha _ _ Hs).
Qed.

(** * After Stop *)
Definition active (w : wpc) : bool :=
  match w with WTake | WGot _ | WCounted _ | WIn _ | WOut => true | _ => false end.
Definition idle (s : pool) : Prop :=
  p_cont s = false ∧ ∀ i w, p_workers s !! i = Some w → active w = false.

Lemma idle_step s l s' : idle s → step s l = Some s' → idle s' ∧ p_called s' = p_called s ∧ p_taken s' = p_taken s.
Proof.
  intros [Hc Hw] H. unfold step in H. destruct (p_crashed s); [done|]. destruct l as [i|j k|o|i].
  - unfold worker_step in H. rewrite Hc in H. destruct (p_workers s !! i) as [x|] eqn:Hx; [|done].
    specialize (Hw _ _ Hx) as Hx0.
    rewrite andb_false_l, orb_true_r in H. cbn [negb] in H.
    destruct x; try done; repeat case_match; simplify_eq; (split; [split; [done|]|done]);
      cbn [p_workers set_worker set_lock pop set_busy log_call];
      intros i' w' Hl; lk Hl; try done; by eapply Hw.
  - unfold caller_step in H. destruct (p_callers s !! j) as [x|] eqn:Hx; [|done].
    destruct x; try done; repeat case_match; simplify_eq; (split; [split; [done|]|done]);
      cbn [p_workers set_worker set_workers set_caller set_lock push crash set_cont];
      intros i' w' Hl; try (by eapply Hw); try (lk Hl; [done|by eapply Hw]).
    + apply map_wake_lookup in Hl as (w & Hl & ->). specialize (Hw _ _ Hl). by destruct w.
    + by apply lookup_replicate in Hl as [-> _].
  - by injection H as <-.
  - destruct (p_workers s !! i) as [[]|] eqn:Hx; try done. injection H as <-. split; [split; [done|]|done].
    intros i' w' Hl. cbn in Hl. lk Hl; [done|by eapply Hw].
Qed.

Record inv3 (s : pool) : Prop := Inv3 {
  i_joining : ∀ j i k, p_callers s !! j = Some (CStopJoin i k) →
              idle s ∨ ∀ i', i' < i → p_workers s !! i' = Some WJoined;
  i_returned : ∀ j, p_callers s !! j = Some (CRet (RStop true)) → idle s;
  i_clear : ∀ j n r, p_callers s !! j = Some (CClear n r) → r = RInit ∨ r = RResize }.

Lemma inv3_step s l s' : inv s ∧ inv2 s → inv3 s → step s l = Some s' → inv3 s'.
Proof.
  intros [I J] K H. pose proof H as Hstep. unfold step in H. destruct (p_crashed s) eqn:Ecr; [done|]. destruct l as [i|j k|o|i].
  - assert (E : p_callers s' = p_callers s ∧
               ∀ i', p_workers s !! i' = Some WJoined → p_workers s' !! i' = Some WJoined).
    { unfold worker_step in H. destruct (p_workers s !! i) as [x|] eqn:Hx; [|done].
      destruct x; try done; repeat case_match; simplify_eq; (split; [done|]);
        cbn [p_workers set_worker set_lock pop set_busy log_call]; intros i' Hi;
        destruct (decide (i = i')) as [<-|Hne]; [congruence|by rewrite list_lookup_insert_ne| .. ].
      all: try congruence; by rewrite list_lookup_insert_ne. }
    destruct E as [Ec Ew]. split; rewrite Ec.
    + intros j i0 k Hj. destruct (i_joining _ K _ _ _ Hj) as [Hi|Hi]; [left; by eapply idle_step|right].
      intros i' Hlt. by apply Ew, Hi.
    + intros j Hj. pose proof (i_returned _ K _ Hj). by eapply idle_step.
    + apply (i_clear _ K).
  - unfold caller_step in H. destruct (p_callers s !! j) as [x|] eqn:Hx; [|done].
    (* the other calls *)
    assert (Hold : idle s → idle s') by (intros; by eapply idle_step).
    assert (Hgen : ∀ y, p_callers s' = <[j := y]> (p_callers s) →
             (∀ i k', y = CStopJoin i k' → idle s' ∨ ∀ i', i' < i → p_workers s' !! i' = Some WJoined) →
             (y = CRet (RStop true) → idle s') →
             (∀ n r, y = CClear n r → r = RInit ∨ r = RResize) →
             ((∀ i', p_workers s !! i' = Some WJoined → p_workers s' !! i' = Some WJoined)
              ∨ (∀ j i k, p_callers s !! j = Some (CStopJoin i k) → idle s')) → inv3 s').
    { intros y Ey H1 H2 H3 H4. split; rewrite Ey.
      - intros j' i0 k' Hj. apply list_lookup_insert_Some in Hj as [(-> & -> & _)|(_ & Hj)]; [by eapply H1|].
        destruct (i_joining _ K _ _ _ Hj) as [?|Hi]; [left; by apply Hold|].
        destruct H4 as [H4|H4]; [right; intros i' Hlt; by apply H4, Hi|left; by eapply H4].
      - intros j' Hj. apply list_lookup_insert_Some in Hj as [(-> & -> & _)|(_ & Hj)]; [by apply H2|].
        by eapply Hold, i_returned.
      - intros j' n r Hj. apply list_lookup_insert_Some in Hj as [(-> & -> & _)|(_ & Hj)]; [by eapply H3|by eapply (i_clear _ K)]. }
    destruct x; try done; repeat case_match; simplify_eq.
    all: try (eapply Hgen; [done|by intros|by intros|by intros|by left]).
    + eapply Hgen; [done|by intros|by intros|by intros|]. left. cbn. intros i' Hi.
      rewrite list_lookup_insert_ne; [done|]. intros ->. congruence.
    + eapply Hgen; [done| | | |by left].
      * intros i k' E. by destruct k0.
      * intros E. by destruct k0.
      * intros n r E. destruct k0; try done. injection E as _ <-. by right.
    + eapply Hgen; [done| |by intros|by intros|].
      * intros i k' E. injection E as <- _. right. intros i' Hi. lia.
      * left. cbn. intros i' Hi. change (map wake (p_workers s)) with (wake <$> p_workers s). by rewrite list_lookup_fmap, Hi.
    + eapply Hgen; [done| |by intros|by intros|].
      * intros i' k' E. injection E as <- _. destruct (i_joining _ K _ _ _ Hx) as [Hi|Hi]; [left; by apply Hold|right].
        intros i' Hi'. cbn. destruct (decide (i = i')) as [<-|Hne].
        -- apply list_lookup_insert. by eapply lookup_lt_Some.
        -- rewrite list_lookup_insert_ne by done. apply Hi. lia.
      * left. cbn. intros i' Hi. rewrite list_lookup_insert_ne; [done|]. intros ->. congruence.
    + destruct K; split; done.
    + assert (Hid : idle s).
      { destruct (i_joining _ K _ _ _ Hx) as [Hi|Hi]; [done|]. split; [by eapply (i_set _ J)|].
        intros i' w Hw. apply lookup_ge_None in H0. rewrite (Hi i') in Hw; [by injection Hw as <-|].
        apply lookup_lt_Some in Hw. lia. }
      eapply Hgen; [done| |by intros; apply Hold| |by left].
      * intros i' k' E. by destruct k0.
      * intros n r E. destruct k0; try done. injection E as _ <-. by right.
    + eapply Hgen; [done|by intros| |by intros|].
      * intros [= ->]. by destruct (i_clear _ K _ _ _ Hx).
      * right. intros j' i' k' Hj. split; [by eapply (i_set _ J _ _ Hj)|]. cbn. intros i0 w [-> _]%lookup_replicate. done.
    + destruct K; split; done.
    + destruct K; split; done.
  - injection H as <-. split; cbn.
    + intros j i k [Hj|Hj]%lookup_app_one; [|by destruct o]. by apply (i_joining _ K _ _ _ Hj).
    + intros j [Hj|Hj]%lookup_app_one; [|by destruct o]. by apply (i_returned _ K _ Hj).
    + intros j n r [Hj|Hj]%lookup_app_one; [by apply (i_clear _ K _ _ _ Hj)|]. destruct o; try done. injection Hj as _ ->. by left.
  - destruct (p_workers s !! i) as [[]|] eqn:Hx; try done. injection H as <-. split; cbn.
    + intros j i0 k Hj. destruct (i_joining _ K _ _ _ Hj) as [Hi|Hi]; [left; by eapply idle_step|right].
      intros i' Hlt. cbn. rewrite list_lookup_insert_ne; [by apply Hi|]. intros ->. rewrite (Hi _ Hlt) in Hx. done.
    + intros j Hj. pose proof (i_returned _ K _ Hj). by eapply idle_step.
    + apply (i_clear _ K).
Qed.

Lemma reachable_inv3 s : reachable s → inv3 s.
Proof.
  intros [ls H].
  assert (H' : (inv s ∧ inv2 s) ∧ inv3 s); [|by destruct H'].
  eapply (run_inv (λ s, (inv s ∧ inv2 s) ∧ inv3 s) (λ _, True)); [| | |done].
  - intros s0 l s1 [HI HK] _ Hs. split; [by eapply inv_step|by eapply inv3_step].
  - split; [split; [apply inv_new|apply inv2_new]|]. split; done.
  - by apply Forall_true.
Qed.

(** * One worker *)
Definition small_pc (c : cpc) : Prop :=
  match c with
  | CResize n | CClear n _ | CStop (KResize n) | CStopSet (KResize n) | CStopNotify (KResize n)
  | CStopJoin _ (KResize n) => n ≤ 1
  | _ => True
  end.
Record single (s : pool) : Prop := Single {
  s_len : length (p_workers s) ≤ 1;
  s_calls : ∀ j c, p_callers s !! j = Some c → small_pc c;
  s_order : p_taken s = p_called s ++ in_hand (p_workers s) }.

Lemma single_step s l s' : small_label l → single s → step s l = Some s' → single s'.
Proof.
  intros Hl [Hlen Hc Ho] H. unfold step in H. destruct (p_crashed s); [done|]. destruct l as [i|j k|o|i].
  - unfold worker_step in H. destruct (p_workers s !! i) as [x|] eqn:Hx; [|done].
    destruct (p_workers s) as [|w [|? ?]] eqn:Ew; [done| |simpl in Hlen; lia].
    destruct i as [|i]; [|done]. injection Hx as ->.
    unfold in_hand in Ho. simpl in Ho. rewrite app_nil_r in Ho.
    destruct x; try done; repeat case_match; simplify_eq; split; cbn; rewrite ?Ew; cbn; try done; try lia;
      rewrite ?app_nil_r in *; try done; try (by rewrite Ho, <- ?app_assoc); try congruence.
  - unfold caller_step in H. destruct (p_callers s !! j) as [x|] eqn:Hx; [|done]. specialize (Hc _ _ Hx) as Hx0.
    assert (Hmv : ∀ y s1, p_callers s1 = <[j := y]> (p_callers s) → small_pc y →
              ∀ j c, p_callers s1 !! j = Some c → small_pc c).
    { intros y s1 E Hy j' c Hj. rewrite E in Hj. lk Hj; [done|by eapply Hc]. }
    destruct x; try done; repeat case_match; simplify_eq; split;
      try (eapply Hmv; [done|]; by repeat case_match; simplify_eq);
      try (eapply Hmv; [done|]; try match goal with a : after_stop |- _ => destruct a end; done);
      cbn [p_workers p_taken p_called p_callers set_worker set_workers set_caller set_lock push crash set_cont]; try done;
      rewrite ?insert_length, ?map_length, ?replicate_length, ?wake_hand, ?replicate_hand; try done.
    + by rewrite (in_hand_same _ _ _ _ H1).
    + by rewrite (in_hand_same _ _ _ _ H0).
    + by rewrite joined_hand in Ho.
  - injection H as <-. split; cbn; try done. intros j c [H| ->]%lookup_app_one; [by eapply Hc|]. by destruct o.
  - destruct (p_workers s !! i) as [[]|] eqn:Hx; try done. injection H as <-. split; cbn [p_workers p_taken p_called p_callers set_worker]; try done.
    + by rewrite insert_length.
    + by rewrite (in_hand_same _ _ _ _ Hx).
Qed.

(** * Rest is reached *)
Lemma worker_step_lt s i s' : worker_step s i = Some s' → i < length (p_workers s).
Proof. unfold worker_step. destruct (p_workers s !! i) eqn:E; [|done]. intros _. by eapply lookup_lt_Some. Qed.
Lemma caller_step_lt s j k s' : caller_step s j k = Some s' → j < length (p_callers s).
Proof. unfold caller_step. destruct (p_callers s !! j) eqn:E; [|done]. intros _. by eapply lookup_lt_Some. Qed.
Lemma caller_step_pick s j k s' :
  caller_step s j k = Some s' → k < length (p_workers s) ∨ caller_step s j 0 = Some s'.
Proof.
  destruct (decide (k < length (p_workers s))); [by left|]. intros H. right. rewrite <- H. unfold caller_step in *.
  destruct (p_callers s !! j) as [[]|]; try done. destruct (existsb asleep (p_workers s)); [|done].
  rewrite (lookup_ge_None_2 _ k) in H by lia. done.
Qed.

Lemma quiet_or_step s : quiet s ∨ ∃ l s', internal l ∧ step s l = Some s'.
Proof.
  destruct (p_crashed s) eqn:Hcr.
  { left. intros l. unfold step. rewrite Hcr. by destruct l. }
  destruct (decide (Exists (λ i, is_Some (worker_step s i)) (seq 0 (length (p_workers s))))) as [H|Hw].
  { right. apply Exists_exists in H as (i & _ & s' & H). exists (LWorker i), s'. split; [done|]. unfold step. by rewrite Hcr. }
  destruct (decide (Exists (λ j, Exists (λ k, is_Some (caller_step s j k)) (seq 0 (S (length (p_workers s)))))
                           (seq 0 (length (p_callers s))))) as [H|Hc].
  { right. apply Exists_exists in H as (j & _ & H). apply Exists_exists in H as (k & _ & s' & H).
    exists (LCaller j k), s'. split; [done|]. unfold step. by rewrite Hcr. }
  left. intros [i|j k|o|i]; try done; unfold step; rewrite Hcr.
  - destruct (worker_step s i) eqn:E; [|done]. destruct Hw. apply Exists_exists. exists i. split; [|by eexists].
    apply elem_of_seq. apply worker_step_lt in E. lia.
  - destruct (caller_step s j k) eqn:E; [|done]. destruct Hc. apply Exists_exists. exists j. split.
    + apply elem_of_seq. apply caller_step_lt in E. lia.
    + apply Exists_exists. destruct (caller_step_pick _ _ _ _ E) as [Hk|H0].
      * exists k. split; [|by eexists]. apply elem_of_seq. lia.
      * exists 0. split; [|by eexists]. apply elem_of_seq. lia.
Qed.

Lemma reach_quiet s :
  inv s ∧ inv2 s → no_spawn s → ∃ ls s', Forall internal ls ∧ run s ls = Some s' ∧ quiet s'.
Proof.
  remember (weight s) as n eqn:En. revert s En. induction (lt_wf n) as [n _ IH]. intros s -> HI Hns.
  destruct (quiet_or_step s) as [Hq|(l & s1 & Hl & Hs)]; [by exists [], s|].
  assert (H1 : run s [l] = Some s1) by (simpl; by rewrite Hs).
  destruct (internal_bound [l] s s1 HI Hns) as [Hw Hns1]; [by constructor|done|]. cbn [length] in Hw.
  destruct (IH (weight s1) ltac:(lia) s1 eq_refl (inv_step _ _ _ HI Hs) Hns1) as (ls & s2 & Hi & Hr & Hq).
  exists (l :: ls), s2. split; [by constructor|]. split; [|done]. simpl. by rewrite Hs.
Qed.

(** * Calls of AddTask after the flag is down *)
Definition late (c : cpc) : bool :=
  match c with CAddLock _ | CAddPush _ | CAddNotify | CAddUnlock | CRet (RAdd 0) | CClear _ (RAdd _) => true | _ => false end.
Definition no_late (n : nat) (s : pool) : Prop :=
  p_cont s = false ∧ n ≤ length (p_callers s) ∧ ∀ j c, n ≤ j → p_callers s !! j = Some c → late c = false.
Lemma no_late_step n s l s' : no_late n s → step s l = Some s' → no_late n s'.
Proof.
  intros (Hc & Hn & Hl) H. unfold step in H. destruct (p_crashed s); [done|]. destruct l as [i|j k|o|i].
  - unfold worker_step in H. rewrite Hc in H. repeat case_match; simplify_eq; done.
  - unfold caller_step in H. destruct (p_callers s !! j) as [x|] eqn:Hx; [|done].
    assert (Hmv : ∀ y s1, p_cont s1 = false → p_callers s1 = <[j := y]> (p_callers s) → (n ≤ j → late y = false) → no_late n s1).
    { intros y s1 E1 E2 Hy. split; [done|]. rewrite E2, insert_length. split; [done|]. intros j' c Hj' Hj.
      lk Hj; [by apply Hy|by eapply Hl]. }
    assert (Hx0 : n ≤ j → late x = false) by (intros; by eapply Hl).
    destruct x; try done; rewrite ?Hc in H; cbn [negb orb] in H; repeat case_match; simplify_eq;
      try (by split); (eapply Hmv; [done|done|]); intros Hj; try done; try (by specialize (Hx0 Hj));
      try (by destruct k0); try (by specialize (Hx0 Hj); destruct r); by repeat case_match; simplify_eq.
  - injection H as <-. split; [done|]. cbn. split; [rewrite app_length; lia|].
    intros j c Hj [H| ->]%lookup_app_one; [by eapply Hl|by destruct o].
  - destruct (p_workers s !! i) as [[]|]; try done. by injection H as <-.
Qed.

(** Flags never go up again. *)
Lemma down_step s l s' : p_cont s = false → step s l = Some s' → p_cont s' = false.
Proof.
  intros Hc H. unfold step in H. destruct (p_crashed s); [done|]. destruct l as [i|j k|o|i].
  - unfold worker_step in H. repeat case_match; simplify_eq; done.
  - unfold caller_step in H. repeat case_match; simplify_eq; done.
  - by injection H as <-.
  - repeat case_match; simplify_eq; done.
Qed.
Lemma resize_down s : reachable s → ∀ j c, p_callers s !! j = Some c →
  match c with CClear _ RResize | CStopNotify _ | CStopJoin _ _ => True | _ => False end → p_cont s = false.
Proof.
  intros [ls H].
  assert (H' : ∀ j c, p_callers s !! j = Some c → c = CDestroy ∨
    match c with CClear _ RResize | CStopNotify _ | CStopJoin _ _ => True | _ => False end → p_cont s = false);
    [|intros j c Hj Hc; eapply H'; [done|by right]].
  revert H. apply (run_inv (λ s, ∀ j c, p_callers s !! j = Some c → c = CDestroy ∨
    match c with CClear _ RResize | CStopNotify _ | CStopJoin _ _ => True | _ => False end → p_cont s = false) (λ _, True));
    [|done|by apply Forall_true].
  clear. intros s l s' IH _ H. pose proof (λ H0, down_step s l s' H0 H) as Hd. unfold step in H.
  destruct (p_crashed s); [done|]. destruct l as [i|j k|o|i].
  - assert (E : p_callers s' = p_callers s) by (unfold worker_step in H; repeat case_match; simplify_eq; done).
    rewrite E. intros j c Hj Hc. eapply Hd, IH; done.
  - unfold caller_step in H. destruct (p_callers s !! j) as [x|] eqn:Hx; [|done]. specialize (IH _ _ Hx) as Hx0.
    assert (Hmv : ∀ y, p_callers s' = <[j := y]> (p_callers s) →
        (y = CDestroy ∨ match y with CClear _ RResize | CStopNotify _ | CStopJoin _ _ => True | _ => False end → p_cont s' = false) →
        ∀ j c, p_callers s' !! j = Some c → c = CDestroy ∨
          match c with CClear _ RResize | CStopNotify _ | CStopJoin _ _ => True | _ => False end → p_cont s' = false).
    { intros y Ey Hy j' c Hj Hc. rewrite Ey in Hj. lk Hj; [by apply Hy|]. eapply Hd, IH; done. }
    destruct x; try done; repeat case_match; simplify_eq; try (by apply IH); (eapply Hmv; [done|]); intros [?|Hy]; try done;
      try (apply Hd, Hx0; by right); try (by repeat case_match); try (by destruct (p_cont s)); try (by destruct k0);
      apply Hd; by destruct (p_cont s).
  - injection H as <-. cbn. intros j c [H| ->]%lookup_app_one Hc; [by eapply IH|]. destruct o; by destruct Hc.
  - repeat case_match; simplify_eq. cbn. intros j c Hj Hc. by eapply IH.
Qed.

(** * Following one AddTask *)
Definition added (j : nat) (t : task) (s : pool) : Prop :=
  match p_callers s !! j with
  | Some (CAdd t') | Some (CAddLock t') | Some (CAddPush t') => t' = t
  | Some CAddNotify | Some CAddUnlock => t ∈ p_accepted s
  | Some (CRet (RAdd rc)) => rc = kSuccess ∧ t ∈ p_accepted s
  | _ => False
  end.
Definition serving (n j : nat) (t : task) (s : pool) : Prop :=
  0 < n ∧ p_cont s = true ∧ p_crashed s = false ∧ p_num s = n ∧
  (∀ j c, p_callers s !! j = Some c → stopper c = false) ∧ added j t s.
Lemma serving_step n j t s l s' : plain l → serving n j t s → step s l = Some s' → serving n j t s'.
Proof.
  intros Hp (Hn & Hc & Hcr & Hnum & Hns & Ha) H. destruct (cont_step s l s' Hp H Hns) as (Hc' & Hcr' & Hns').
  split; [done|]. split; [by rewrite Hc'|]. split; [done|].
  enough (p_num s' = n ∧ added j t s') as [? ?] by done.
  unfold step in H. rewrite Hcr in H. destruct l as [i|j' k|o|i].
  - assert (E : p_callers s' = p_callers s ∧ p_accepted s' = p_accepted s ∧ p_num s' = p_num s)
      by (unfold worker_step in H; repeat case_match; simplify_eq; done).
    destruct E as (E1 & E2 & E3). unfold added. by rewrite E1, E2, E3.
  - unfold caller_step in H. destruct (p_callers s !! j') as [x|] eqn:Hx; [|done]. pose proof (Hns _ _ Hx) as Hx0.
    assert (Hlt : j' < length (p_callers s)) by (by eapply lookup_lt_Some).
    assert (E : p_num s' = p_num s ∧ (∃ y, p_callers s' = <[j' := y]> (p_callers s) ) ∧ ∃ z, p_accepted s' = p_accepted s ++ z).
    { destruct x; try done; repeat case_match; simplify_eq; (split; [done|]; split; [by eexists|]);
        first [by exists []; rewrite app_nil_r|by eexists]. }
    destruct E as (E1 & (y & E2) & (z & E3)). split; [congruence|].
    destruct (decide (j' = j)) as [->|Hne].
    + unfold added in *. rewrite Hx in Ha. clear E2 E3 y z.
      destruct x; try done; rewrite ?Hc in H; cbn [negb orb] in H;
        repeat match type of H with context [match ?b with _ => _ end] => let E := fresh "E" in destruct b eqn:E end;
        simplify_eq; cbn; rewrite list_lookup_insert by (by rewrite ?insert_length); simplify_eq; try done.
      { apply Nat.eqb_eq in E. lia. }
      all: try (rewrite elem_of_app, elem_of_list_singleton; by right).
    + unfold added in *. rewrite E2, list_lookup_insert_ne, E3 by done.
      destruct (p_callers s !! j) as [[]|]; try done; repeat case_match; try done; rewrite ?elem_of_app; naive_solver.
  - injection H as <-. split; [done|]. unfold added in *. cbn.
    destruct (p_callers s !! j) as [c|] eqn:E; [|done]. by rewrite (lookup_app_l_Some _ _ _ _ E).
  - repeat case_match; simplify_eq. split; done.
Qed.

(** * One Stop or one destructor at a time *)
Definition lone (k : after_stop) (j : nat) (s : pool) : Prop :=
  p_crashed s = false ∧
  (∀ j' c, p_callers s !! j' = Some c → j' ≠ j → stopper c = false) ∧
  match p_callers s !! j with
  | Some (CStop k') => k' = k ∧ p_cont s = true ∧ ∀ i, p_workers s !! i ≠ Some WJoined
  | Some (CStopSet k') | Some (CStopNotify k') =>
      k' = k ∧ ∀ i, p_workers s !! i ≠ Some WJoined
  | Some (CStopJoin i k') => k' = k ∧ ∀ i', p_workers s !! i' = Some WJoined ↔ i' < i ∧ i' < length (p_workers s)
  | Some CDestroy => k = KDestroy ∧ ∀ i' w, p_workers s !! i' = Some w → w = WJoined
  | Some (CRet _) => True
  | _ => False
  end.

Lemma lone_step k j s l s' : (∀ n, k ≠ KResize n) → plain l → lone k j s → step s l = Some s' → lone k j s'.
Proof.
  intros Hk Hp (Hcr & Hso & Hj) H. unfold step in H. rewrite Hcr in H. destruct l as [i|j' q|o|i].
  - assert (E : p_crashed s' = p_crashed s ∧ p_callers s' = p_callers s ∧ length (p_workers s') = length (p_workers s) ∧
               p_cont s' = p_cont s ∧ ∀ i', p_workers s' !! i' = Some WJoined ↔ p_workers s !! i' = Some WJoined).
    { unfold worker_step in H. destruct (p_workers s !! i) as [x|] eqn:Hx; [|done].
      destruct x; try done;
        repeat match type of H with context [match ?b with _ => _ end] => let E := fresh "E" in destruct b eqn:E end;
        simplify_eq; (split; [done|]; split; [done|]);
        cbn [p_workers set_worker set_lock pop set_busy log_call]; (split; [by rewrite insert_length|]); (split; [done|]); intros i';
        rewrite list_lookup_insert_Some; destruct (decide (i = i')) as [<-|?]; rewrite ?Hx; naive_solver. }
    destruct E as (Ecr & Ec & El & Eco & Ew). split; [by rewrite Ecr|]. rewrite Ec. split; [done|].
    destruct (p_callers s !! j) as [[]|]; try done.
    + destruct Hj as (-> & Hc & Hj). split; [done|]. split; [by rewrite Eco|]. intros i'. rewrite Ew. apply Hj.
    + destruct Hj as [-> Hj]. split; [done|]. intros i'. rewrite Ew. apply Hj.
    + destruct Hj as [-> Hj]. split; [done|]. intros i'. rewrite Ew. apply Hj.
    + destruct Hj as [-> Hj]. split; [done|]. intros i'. rewrite Ew, El. apply Hj.
    + destruct Hj as [-> Hj]. split; [done|]. intros i' w Hw. destruct (p_workers s !! i') as [w0|] eqn:E0.
      * pose proof (Hj _ _ E0) as ->. apply Ew in E0. congruence.
      * apply lookup_lt_Some in Hw. apply lookup_ge_None in E0. lia.
  - unfold caller_step in H. destruct (p_callers s !! j') as [x|] eqn:Hx; [|done].
    assert (Hlt : j' < length (p_callers s)) by (by eapply lookup_lt_Some).
    destruct (decide (j' = j)) as [->|Hne].
    + rewrite Hx in Hj.
      assert (Hmv : ∀ y s1, p_callers s1 = <[j := y]> (p_callers s) → ∀ j' c, p_callers s1 !! j' = Some c → j' ≠ j → stopper c = false).
      { intros y s1 Ey j' c Hj' Hne. rewrite Ey, list_lookup_insert_ne in Hj' by done. by eapply Hso. }
      destruct x; try done.
      * destruct Hj as (-> & Hc & Hj). rewrite Hc in H. injection H as <-. split; [done|]. split; [by eapply Hmv|]. cbn.
        by rewrite list_lookup_insert.
      * destruct Hj as [-> Hj]. injection H as <-. split; [done|]. split; [by eapply Hmv|]. cbn. by rewrite list_lookup_insert.
      * destruct Hj as [-> Hj]. injection H as <-. split; [done|]. split; [by eapply Hmv|]. cbn.
        rewrite list_lookup_insert by done. split; [done|]. intros i'. split; [|lia].
        intros (w & Hw & Ew)%map_wake_lookup. destruct w; try done. by destruct (Hj i').
      * destruct Hj as [-> Hj]. destruct (p_workers s !! i) as [w|] eqn:Hw.
        -- assert (Hil : i < length (p_workers s)) by (by eapply lookup_lt_Some).
           destruct w; try done; injection H as <-.
           ++ split; [done|]. split; [by eapply Hmv|]. cbn [p_workers p_callers set_caller set_worker].
              rewrite list_lookup_insert by done. split; [done|]. intros i'.
              rewrite insert_length, list_lookup_insert_Some, Hj. destruct (decide (i = i')) as [<-|?]; [naive_solver lia|].
              split; [naive_solver lia|]. intros [? ?]. right. split; [done|lia].
           ++ exfalso. apply Hj in Hw. lia.
        -- apply lookup_ge_None in Hw. injection H as <-. split; [done|]. split; [by eapply Hmv|].
           cbn [p_workers p_callers set_caller]. rewrite list_lookup_insert by done.
           destruct k as [|n|]; [done|by destruct (Hk n)|]. simpl. split; [done|]. intros i' w Hi'.
           assert (i' < length (p_workers s)) by (by eapply lookup_lt_Some).
           assert (p_workers s !! i' = Some WJoined) by (apply Hj; lia). congruence.
      * destruct Hj as [-> Hj].
        assert (Eall : forallb joined (p_workers s) = true).
        { apply forallb_forall. intros w Hw. apply elem_of_list_In, elem_of_list_lookup in Hw as [i' Hw]. by rewrite (Hj _ _ Hw). }
        rewrite Eall in H. injection H as <-. split; [done|]. split; [by eapply Hmv|]. cbn. by rewrite list_lookup_insert.
    + pose proof (Hso _ _ Hx Hne) as Hst.
      assert (E : p_crashed s' = p_crashed s ∧ (∃ y, p_callers s' = <[j' := y]> (p_callers s) ∧ stopper y = false) ∧
                 length (p_workers s') = length (p_workers s) ∧
                 p_cont s' = p_cont s ∧ ∀ i', p_workers s' !! i' = Some WJoined ↔ p_workers s !! i' = Some WJoined).
      { destruct x; try done;
          repeat match type of H with context [match ?b with _ => _ end] => let E := fresh "E" in destruct b eqn:E end;
          simplify_eq; (split; [done|]; split; [by eexists|]);
          cbn [p_workers set_worker set_caller set_lock push]; rewrite ?insert_length; (split; [done|]); (split; [done|]); intros i'; try done.
        rewrite list_lookup_insert_Some. destruct (decide (q = i')) as [<-|?]; naive_solver. }
      destruct E as (Ecr & (y & Ec & Hy) & El & Eco & Ew). split; [by rewrite Ecr|]. rewrite Ec. split.
      { intros j1 c Hj1 Hne1. lk Hj1; [done|by eapply Hso]. }
      rewrite list_lookup_insert_ne by done.
      destruct (p_callers s !! j) as [[]|]; try done.
      * destruct Hj as (-> & Hc & Hj). split; [done|]. split; [by rewrite Eco|]. intros i'. rewrite Ew. apply Hj.
      * destruct Hj as [-> Hj]. split; [done|]. intros i'. rewrite Ew. apply Hj.
      * destruct Hj as [-> Hj]. split; [done|]. intros i'. rewrite Ew. apply Hj.
      * destruct Hj as [-> Hj]. split; [done|]. intros i'. rewrite Ew, El. apply Hj.
      * destruct Hj as [-> Hj]. split; [done|]. intros i' w Hw. destruct (p_workers s !! i') as [w0|] eqn:E0.
        -- pose proof (Hj _ _ E0) as ->. apply Ew in E0. congruence.
        -- apply lookup_lt_Some in Hw. apply lookup_ge_None in E0. lia.
  - injection H as <-. split; [done|]. cbn. split.
    { intros j' c [Hc| ->]%lookup_app_one Hne; [by eapply Hso|]. by destruct o. }
    destruct (p_callers s !! j) as [c|] eqn:E; [|done]. by rewrite (lookup_app_l_Some _ _ _ _ E).
  - destruct (p_workers s !! i) as [[]|] eqn:Hx; try done. injection H as <-. split; [done|]. split; [done|].
    cbn [p_workers p_callers set_worker p_cont].
    assert (Ew : ∀ i', <[i := WWoken]> (p_workers s) !! i' = Some WJoined ↔ p_workers s !! i' = Some WJoined).
    { intros i'. rewrite list_lookup_insert_Some. destruct (decide (i = i')) as [<-|?]; naive_solver. }
    rewrite insert_length. destruct (p_callers s !! j) as [[]|]; try done.
    + destruct Hj as (-> & Hc & Hj). split; [done|]. split; [done|]. intros i'. rewrite Ew. apply Hj.
    + destruct Hj as [-> Hj]. split; [done|]. intros i'. rewrite Ew. apply Hj.
    + destruct Hj as [-> Hj]. split; [done|]. intros i'. rewrite Ew. apply Hj.
    + destruct Hj as [-> Hj]. split; [done|]. intros i'. rewrite Ew. apply Hj.
    + destruct Hj as [-> Hj]. by pose proof (Hj _ _ Hx).
Qed.
