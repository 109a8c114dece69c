(** Facts about the C++ string functions of [CxxString]. *)
From Verif.Lib Require Export CxxString.

(** [x] occurs in [s] as a contiguous block. *)
Definition contains (x s : bytes) : Prop := exists a b, s = a ++ x ++ b.

Lemma ascii_eqb_true (a b : ascii) : Ascii.eqb a b = true <-> a = b.
Proof. destruct (Ascii.eqb_spec a b); split; congruence. Qed.

Lemma starts_with_prefix p s : starts_with p s = true <-> p `prefix_of` s.
Proof.
  revert s. induction p as [|a p IH]; intros s; simpl.
  - split; [intros _; apply prefix_nil|done].
  - destruct s as [|b s]; simpl.
    + split; [done|]. intros H%prefix_nil_inv. done.
    + rewrite andb_true_iff, ascii_eqb_true, IH. split.
      * intros [-> H]. by apply prefix_cons.
      * intros H. split; [by apply prefix_cons_inv_1 in H | by apply prefix_cons_inv_2 in H].
Qed.

Lemma starts_with_app p s : starts_with p (p ++ s) = true.
Proof. apply starts_with_prefix. by exists s. Qed.

(** First occurrence: at index [i], and not before. *)
Lemma find_idx_Some n h i :
  find_idx n h = Some i ->
  (exists r, drop i h = n ++ r) /\ i + length n <= length h /\
  forall j, j < i -> ~ n `prefix_of` drop j h.
Proof.
  revert i. induction h as [|c h IH]; intros i; simpl.
  - destruct (starts_with n []) eqn:E; [|done]. intros [= <-].
    apply starts_with_prefix, prefix_nil_inv in E as ->.
    split; [by exists []|]. split; [simpl; lia|]. lia.
  - destruct (starts_with n (c :: h)) eqn:E.
    + intros [= <-]. apply starts_with_prefix in E as [r Hr].
      split; [exists r; done|]. split; [|lia].
      apply (f_equal length) in Hr. rewrite app_length in Hr. simpl in *. lia.
    + destruct (find_idx n h) as [k|] eqn:Ek; [|done]. simpl. intros [= <-].
      destruct (IH k eq_refl) as ([r Hr] & Hl & Hn).
      split; [by exists r|]. split; [simpl; lia|].
      intros [|j] Hj.
      * simpl. intros Hp. apply starts_with_prefix in Hp. congruence.
      * simpl. apply Hn. lia.
Qed.

Lemma find_idx_None n h :
  find_idx n h = None <-> forall j, ~ n `prefix_of` drop j h.
Proof.
  induction h as [|c h IH]; simpl.
  - destruct (starts_with n []) eqn:E.
    + split; [done|]. intros H. exfalso. apply (H 0). by apply starts_with_prefix.
    + split; [|done]. intros _ j Hj. rewrite drop_nil in Hj.
      apply starts_with_prefix in Hj. congruence.
  - destruct (starts_with n (c :: h)) eqn:E.
    + split; [done|]. intros H. exfalso. apply (H 0). by apply starts_with_prefix.
    + split.
      * destruct (find_idx n h); [done|]. intros _ [|j] Hj; simpl in Hj.
        -- apply starts_with_prefix in Hj. congruence.
        -- by apply (proj1 IH eq_refl j).
      * intros H. rewrite (proj2 IH); [done|]. intros j. apply (H (S j)).
Qed.

Lemma find_idx_unique n h i :
  n `prefix_of` drop i h -> (forall j, j < i -> ~ n `prefix_of` drop j h) ->
  find_idx n h = Some i.
Proof.
  intros Hp Hn. destruct (find_idx n h) as [k|] eqn:E.
  - destruct (find_idx_Some _ _ _ E) as ([r Hr] & _ & Hk).
    destruct (lt_eq_lt_dec i k) as [[H|H]|H].
    + by destruct (Hk i H).
    + by subst.
    + destruct (Hn k H). by exists r.
  - exfalso. by apply (proj1 (find_idx_None n h) E i).
Qed.

Lemma find_idx_app n a b :
  (forall j, j < length a -> ~ n `prefix_of` drop j (a ++ n ++ b)) ->
  find_idx n (a ++ n ++ b) = Some (length a).
Proof.
  intros H. apply find_idx_unique; [|done].
  rewrite drop_app. by exists b.
Qed.

Lemma find_idx_contains n h : contains n h <-> find_idx n h <> None.
Proof.
  split.
  - intros (a & b & ->) H. apply (proj1 (find_idx_None _ _) H (length a)).
    rewrite drop_app. by exists b.
  - destruct (find_idx n h) as [i|] eqn:E; [|done]. intros _.
    destruct (find_idx_Some _ _ _ E) as ([r Hr] & _ & _).
    exists (take i h), r. rewrite <- Hr. by rewrite take_drop.
Qed.

Lemma find_idx_split n h i :
  find_idx n h = Some i -> h = take i h ++ n ++ drop (i + length n) h.
Proof.
  intros H. destruct (find_idx_Some _ _ _ H) as ([r Hr] & _ & _).
  rewrite <- (take_drop i h) at 1. f_equal. rewrite Hr. f_equal.
  rewrite <- drop_drop, Hr. by rewrite drop_app.
Qed.

Lemma find_idx_bound n h i : find_idx n h = Some i -> i + length n <= length h.
Proof. intros H. by destruct (find_idx_Some _ _ _ H) as (_ & ? & _). Qed.

(** The text before the first occurrence does not contain the needle
    (for a non-empty needle). *)
Lemma contains_drop x n s : contains x (drop n s) -> contains x s.
Proof.
  intros (a & b & H). exists (take n s ++ a), b.
  rewrite <- (take_drop n s) at 1. rewrite H. by rewrite <- !app_assoc.
Qed.
Lemma contains_take x n s : contains x (take n s) -> contains x s.
Proof.
  intros (a & b & H). exists a, (b ++ drop n s).
  rewrite <- (take_drop n s) at 1. rewrite H. by rewrite <- !app_assoc.
Qed.

Lemma find_idx_before n h i :
  n <> [] -> find_idx n h = Some i -> ~ contains n (take i h).
Proof.
  intros Hne H (a & b & Hab).
  destruct (find_idx_Some _ _ _ H) as (_ & Hl & Hn).
  assert (length a < i) as Hlt.
  { apply (f_equal length) in Hab. rewrite take_length, !app_length in Hab.
    destruct n; [done|]. simpl in *. lia. }
  apply (Hn (length a) Hlt).
  rewrite <- (take_drop i h), Hab, <- !app_assoc, drop_app. by eexists.
Qed.

Lemma find_idx_None_contains n h : find_idx n h = None <-> ~ contains n h.
Proof.
  rewrite find_idx_contains. destruct (find_idx n h); split; try done.
  intros H. exfalso. apply H. done.
  intros _ H. by apply H.
Qed.

(** One-byte needles. *)
Lemma find_idx_single c a b :
  c ∉ a -> find_idx [c] (a ++ c :: b) = Some (length a).
Proof.
  intros Hc. apply (find_idx_app [c] a b). intros j Hj [r Hr].
  assert (Hj' : (a ++ [c] ++ b) !! j = Some c).
  { change (a ++ c :: b) with (a ++ [c] ++ b) in Hr.
    rewrite <- (Nat.add_0_r j). rewrite <- lookup_drop, Hr. done. }
  rewrite lookup_app_l in Hj' by done. by apply elem_of_list_lookup_2 in Hj'.
Qed.

Lemma contains_single c s : contains [c] s <-> c ∈ s.
Proof.
  split.
  - intros (a & b & ->). set_solver.
  - intros (a & b & ->)%elem_of_list_split. by exists a, b.
Qed.

Lemma find_idx_single_None c s : find_idx [c] s = None <-> c ∉ s.
Proof. by rewrite find_idx_None_contains, contains_single. Qed.

(** Two-byte needles with distinct bytes: no overlap at the boundary. *)
Lemma find_idx_pair x y a b :
  x <> y -> ~ contains [x; y] a ->
  find_idx [x; y] (a ++ x :: y :: b) = Some (length a).
Proof.
  intros Hxy Ha. apply (find_idx_app [x; y] a b). intros j Hj [r Hr].
  set (s := a ++ [x; y] ++ b) in *.
  assert (H0 : s !! j = Some x).
  { rewrite <- (Nat.add_0_r j), <- lookup_drop, Hr. done. }
  assert (H1 : s !! (j + 1) = Some y).
  { rewrite <- lookup_drop, Hr. done. }
  unfold s in H0, H1.
  rewrite lookup_app_l in H0 by done.
  destruct (decide (j + 1 < length a)) as [Hlt|Hge].
  - rewrite lookup_app_l in H1 by done. apply Ha.
    exists (take j a), (drop (j + 2) a).
    rewrite <- (take_drop_middle a j x) at 1 by done. f_equal. simpl. f_equal.
    rewrite <- (take_drop_middle (drop (S j) a) 0 y).
    + simpl. f_equal. rewrite drop_drop. f_equal. lia.
    + rewrite lookup_drop. rewrite <- H1. f_equal. lia.
  - rewrite lookup_app_r in H1 by lia.
    replace (j + 1 - length a) with 0 in H1 by lia. simpl in H1. congruence.
Qed.

(** ** Bridging to [str_find] and [substr] *)
Lemma str_find_at s n p :
  p <= length s ->
  str_find s n (N.of_nat p) =
    match find_idx n (drop p s) with
    | Some i => (N.of_nat (p + i))
    | None => npos
    end.
Proof.
  intros Hp. unfold str_find, size.
  replace (N.of_nat (length s) <? N.of_nat p)%N with false by lia.
  rewrite Nat2N.id. destruct (find_idx n (drop p s)); [lia|done].
Qed.

Lemma str_find_0 s n : str_find s n 0 = opt_pos (find_idx n s).
Proof.
  change 0%N with (N.of_nat 0). rewrite (str_find_at s n 0) by lia. rewrite drop_0. simpl. destruct (find_idx n s); reflexivity.
Qed.

Lemma npos_val : npos = 18446744073709551615%N.
Proof. reflexivity. Qed.

Lemma lt_npos s i : fits s -> i <= length s -> N.of_nat i <> npos.
Proof. unfold fits. intros H Hi. rewrite npos_val. lia. Qed.

Lemma fits_drop s n : fits s -> fits (drop n s).
Proof. unfold fits. rewrite drop_length. lia. Qed.
Lemma fits_take s n : fits s -> fits (take n s).
Proof. unfold fits. rewrite take_length. lia. Qed.
Lemma fits_app_l a b : fits (a ++ b) -> fits a.
Proof. unfold fits. rewrite app_length. lia. Qed.
Lemma fits_app_r a b : fits (a ++ b) -> fits b.
Proof. unfold fits. rewrite app_length. lia. Qed.
Lemma fits_cons_r a b : fits (a :: b) -> fits b.
Proof. unfold fits. simpl. lia. Qed.

Lemma substr_ok s p c :
  p <= length s ->
  substr s (N.of_nat p) c = Ok (take (N.to_nat (N.min c (size s - N.of_nat p))) (drop p s)).
Proof.
  intros Hp. unfold substr, size.
  replace (N.of_nat (length s) <? N.of_nat p)%N with false by lia.
  by rewrite Nat2N.id.
Qed.

Lemma substr_nat s p c :
  p <= length s -> substr s (N.of_nat p) (N.of_nat c) = Ok (take c (drop p s)).
Proof.
  intros Hp. rewrite substr_ok by done. f_equal. unfold size.
  destruct (decide (c <= length s - p)).
  - replace (N.to_nat _) with c by lia. done.
  - rewrite !take_ge; [done| |]; rewrite drop_length; lia.
Qed.

Lemma substr_from_nat s p :
  fits s -> p <= length s -> substr_from s (N.of_nat p) = Ok (drop p s).
Proof.
  unfold fits, substr_from. intros Hf Hp. rewrite substr_ok by done. f_equal.
  apply take_ge. rewrite drop_length. rewrite npos_val. unfold size. lia.
Qed.

Lemma substr_throw s p c :
  (size s < p)%N -> substr s p c = Throw OutOfRange.
Proof. intros H. unfold substr. apply N.ltb_lt in H. by rewrite H. Qed.

Lemma szadd_nat a b :
  (N.of_nat a + N.of_nat b < 2^64)%N -> szadd (N.of_nat a) (N.of_nat b) = N.of_nat (a + b).
Proof.
  intros H. unfold szadd, size_mod. rewrite N.mod_small by done. lia.
Qed.
Lemma szsub_nat a b :
  b <= a -> (N.of_nat a < 2^64)%N -> szsub (N.of_nat a) (N.of_nat b) = N.of_nat (a - b).
Proof.
  intros H Ha. unfold szsub, size_mod.
  replace (N.of_nat a + 2 ^ 64 - N.of_nat b)%N with (N.of_nat (a - b) + 1 * 2 ^ 64)%N by lia.
  rewrite N.mod_add by lia. rewrite N.mod_small by lia. done.
Qed.

(** ** [index_of] *)
Lemma index_of_Some f s i :
  index_of f s = Some i <->
  exists c, s !! i = Some c /\ f c = true /\ Forall (fun x => f x = false) (take i s).
Proof.
  revert i. induction s as [|c s IH]; intros i; simpl.
  - split; [done|]. intros (c & H & _). by rewrite lookup_nil in H.
  - destruct (f c) eqn:E.
    + split.
      * intros [= <-]. exists c. simpl. auto.
      * intros (d & H & Hd & HF). destruct i as [|i]; [done|]. simpl in HF.
        apply Forall_cons in HF as [HF _]. congruence.
    + destruct (index_of f s) as [k|] eqn:Ek; simpl.
      * split.
        -- intros [= <-]. destruct (proj1 (IH k) eq_refl) as (d & H & Hd & HF).
           exists d. simpl. auto using Forall_cons_2.
        -- intros (d & H & Hd & HF). destruct i as [|i]; simpl in *; [congruence|].
           apply Forall_cons in HF as [_ HF]. f_equal.
           assert (Hki : Some k = Some i); [|congruence]. apply IH. eauto.
      * split; [done|]. intros (d & H & Hd & HF). destruct i as [|i]; simpl in *; [congruence|].
        apply Forall_cons in HF as [_ HF].
        assert (Hki : (None : option nat) = Some i); [|congruence]. apply IH. eauto.
Qed.

Lemma index_of_None f s : index_of f s = None <-> Forall (fun x => f x = false) s.
Proof.
  induction s as [|c s IH]; simpl.
  - split; auto.
  - rewrite Forall_cons. destruct (f c) eqn:E.
    + split; [done|]. by intros [? _].
    + rewrite <- IH. destruct (index_of f s); simpl; naive_solver.
Qed.

Lemma last_index_of_None f s : last_index_of f s = None <-> Forall (fun x => f x = false) s.
Proof.
  induction s as [|c s IH]; simpl.
  - split; auto.
  - rewrite Forall_cons. destruct (last_index_of f s) as [k|].
    + split; [done|]. intros [_ H]. by apply IH in H.
    + destruct (f c) eqn:E; naive_solver.
Qed.

Lemma last_index_of_Some f s i :
  last_index_of f s = Some i <->
  exists c, s !! i = Some c /\ f c = true /\ Forall (fun x => f x = false) (drop (S i) s).
Proof.
  revert i. induction s as [|c s IH]; intros i; simpl.
  - split; [done|]. intros (c & H & _). by rewrite lookup_nil in H.
  - destruct (last_index_of f s) as [k|] eqn:Ek.
    + destruct (proj1 (IH k) eq_refl) as (d & H & Hd & HF).
      split.
      * intros [= <-]. eauto.
      * intros (e & He & Hfe & HFe). destruct i as [|i]; simpl in *.
        -- rewrite drop_0 in HFe. rewrite Forall_lookup in HFe.
           specialize (HFe k d H). simpl in *. congruence.
        -- f_equal. assert (Hki : Some k = Some i); [|congruence]. apply IH. eauto.
    + assert (HN : Forall (fun x => f x = false) s) by by apply last_index_of_None.
      destruct (f c) eqn:E.
      * split.
        -- intros [= <-]. exists c. rewrite drop_0. auto.
        -- intros (e & He & Hfe & HFe). destruct i as [|i]; [done|]. simpl in *.
           rewrite Forall_lookup in HN. specialize (HN _ _ He). simpl in *; congruence.
      * split; [done|]. intros (e & He & Hfe & HFe). destruct i as [|i]; simpl in *; [congruence|].
        rewrite Forall_lookup in HN. specialize (HN _ _ He). simpl in *; congruence.
Qed.

