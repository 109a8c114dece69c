(** Proofs about the string utilities. *)
From Verif.Lib Require Export CxxStringFacts.
From Verif.Model Require Export StringUtil.
From Verif.Spec Require Export StringSpec.

(** ** Split *)

(** With keep_delimiter every piece but the last keeps its delimiter. *)
Fixpoint keep_delims (d : bytes) (l : list bytes) : list bytes :=
  match l with
  | [] => []
  | [x] => [x]
  | x :: l' => (x ++ d) :: keep_delims d l'
  end.

Lemma pieces_nonempty d s l : pieces d s l -> l <> [].
Proof. by destruct 1. Qed.

Lemma pieces_join d s l : pieces d s l -> join d l = s.
Proof.
  induction 1 as [|a rest l Ha Hp IH]; [done|].
  destruct l as [|y l]; [by apply pieces_nonempty in Hp|].
  change (a ++ d ++ join d (y :: l) = a ++ d ++ rest). by rewrite IH.
Qed.

Lemma pieces_no_delim d s l : d <> [] -> pieces d s l -> Forall (fun x => ~ contains d x) l.
Proof.
  intros Hd. induction 1 as [s Hs|a rest l Ha Hp IH]; [by constructor|].
  constructor; [|done]. intros (u & v & Huv).
  apply (Ha (length u)).
  - rewrite Huv, !app_length. destruct d; [done|]. simpl. lia.
  - rewrite Huv, <- !app_assoc, drop_app. by eexists.
Qed.

Lemma keep_delims_concat d l : concat (keep_delims d l) = join d l.
Proof.
  induction l as [|x l IH]; [done|]. destruct l as [|y l].
  - simpl. by rewrite app_nil_r.
  - change (keep_delims d (x :: y :: l)) with ((x ++ d) :: keep_delims d (y :: l)).
    change (join d (x :: y :: l)) with (x ++ d ++ join d (y :: l)).
    rewrite concat_cons, IH. by rewrite <- app_assoc.
Qed.

Lemma pieces_det d s l1 l2 : d <> [] -> pieces d s l1 -> pieces d s l2 -> l1 = l2.
Proof.
  intros Hd H1. revert l2. induction H1 as [s Hs|a rest l Ha Hp IH]; intros l2 H2.
  - inversion H2; subst; [done|]. exfalso. apply Hs. by eexists _, _.
  - inversion H2 as [s' Hs'|a' rest' l' Ha' Hp' Heq].
    + subst. exfalso. apply Hs'. by eexists _, _.
    + subst.
      assert (H : find_idx d (a ++ d ++ rest) = Some (length a)) by by apply find_idx_app.
      assert (H' : find_idx d (a' ++ d ++ rest') = Some (length a')) by by apply find_idx_app.
      rewrite Heq in H'. rewrite H in H'. injection H' as Hlen.
      apply app_inj_1 in Heq as [-> Heq]; [|done].
      apply app_inv_head in Heq as ->. f_equal. by apply IH.
Qed.

Lemma keep_delims_cons d x l :
  l <> [] -> keep_delims d (x :: l) = (x ++ d) :: keep_delims d l.
Proof. by destruct l. Qed.

Lemma split_loop_ok s d keep fuel arr p :
  fits s -> d <> [] -> p <= length s -> length s - p < fuel ->
  exists l, pieces d (drop p s) l /\
    split_loop fuel s d keep arr (N.of_nat p) =
      Ok (arr ++ (if keep then keep_delims d l else l)).
Proof.
  intros Hf Hd. revert arr p.
  induction fuel as [|fuel IH]; intros arr p Hp Hfuel; [lia|]. simpl.
  rewrite str_find_at by done.
  destruct (find_idx d (drop p s)) as [i|] eqn:E.
  - pose proof (find_idx_bound _ _ _ E) as Hb. rewrite drop_length in Hb.
    assert (Hdl : 0 < length d) by (destruct d; [done|simpl; lia]).
    assert (Hne : (N.of_nat (p + i) =? npos)%N = false).
    { apply N.eqb_neq. apply (lt_npos s); [done|lia]. }
    rewrite Hne. unfold size. unfold fits in Hf.
    rewrite szsub_nat by lia.
    replace (p + i - p) with i by lia.
    rewrite (szadd_nat (p + i)) by lia.
    rewrite (szadd_nat i) by lia.
    replace (if keep then N.of_nat (i + length d) else N.of_nat i) with
      (N.of_nat (if keep then i + length d else i)) by by destruct keep.
    rewrite substr_nat by done. simpl.
    destruct (IH (arr ++ [take (if keep then i + length d else i) (drop p s)]) (p + i + length d))
      as (l & Hl & Heq); [lia..|].
    exists (take i (drop p s) :: l). split.
    + rewrite (find_idx_split _ _ _ E) at 1.
      rewrite drop_drop.
      rewrite Nat.add_assoc.
      constructor; [|done].
      intros j Hj. rewrite take_length in Hj.
      destruct (find_idx_Some _ _ _ E) as (_ & _ & Hn).
      rewrite <- Nat.add_assoc, <- drop_drop, <- (find_idx_split _ _ _ E). apply Hn. lia.
    + unfold mbind, outcome_bind. rewrite Heq. f_equal. rewrite <- app_assoc. f_equal.
      destruct keep; [|done].
      rewrite keep_delims_cons by (by eapply pieces_nonempty). simpl. f_equal.
      rewrite <- take_take_drop. f_equal.
      rewrite (find_idx_split _ _ _ E) at 1.
      rewrite drop_app_alt by (rewrite take_length, drop_length; lia).
      by rewrite take_app.
  - replace (npos =? npos)%N with true by done.
    rewrite substr_from_nat by done. simpl.
    exists [drop p s]. split.
    + constructor. by apply find_idx_None_contains.
    + by destruct keep.
Qed.

Lemma split_spec s d arr keep :
  fits s -> d <> [] ->
  exists l, pieces d s l /\
    str_split s d arr keep = Ok (arr ++ (if keep then keep_delims d l else l)).
Proof.
  intros Hf Hd. unfold str_split.
  destruct (split_loop_ok s d keep (S (length s)) arr 0) as (l & Hl & Heq); [done|done|lia|lia|].
  rewrite drop_0 in Hl. eauto.
Qed.

Lemma keep_delims_snoc d init x :
  keep_delims d (init ++ [x]) = map (fun y => y ++ d) init ++ [x].
Proof.
  induction init as [|y init IH]; [done|].
  change ((y :: init) ++ [x]) with (y :: (init ++ [x])).
  rewrite keep_delims_cons by (by destruct init). by rewrite IH.
Qed.

Lemma split_keep_spec s d arr :
  fits s -> d <> [] ->
  exists init x, pieces d s (init ++ [x]) /\
    str_split s d arr true = Ok (arr ++ map (fun y => y ++ d) init ++ [x]) /\
    concat (map (fun y => y ++ d) init ++ [x]) = s.
Proof.
  intros Hf Hd. destruct (split_spec s d arr true Hf Hd) as (l & Hl & Heq).
  pose proof (pieces_nonempty _ _ _ Hl).
  destruct l as [|x init _] using rev_ind; [done|].
  rewrite keep_delims_snoc in Heq.
  exists init, x. split; [done|]. split; [done|].
  rewrite <- keep_delims_snoc, keep_delims_concat. by apply pieces_join.
Qed.

Lemma split_pieces s d arr l :
  fits s -> d <> [] -> pieces d s l -> str_split s d arr false = Ok (arr ++ l).
Proof.
  intros Hf Hd Hp. destruct (split_spec s d arr false Hf Hd) as (l' & Hl' & ->).
  by rewrite (pieces_det _ _ _ _ Hd Hp Hl').
Qed.

(** More fuel does not change the result (so the bound is no restriction). *)
Lemma split_any_fuel s d keep arr fuel :
  fits s -> d <> [] -> length s < fuel ->
  split_loop fuel s d keep arr 0 = str_split s d arr keep.
Proof.
  intros Hf Hd Hfuel. unfold str_split.
  destruct (split_loop_ok s d keep fuel arr 0) as (l & Hl & Heq); [done|done|lia|lia|].
  destruct (split_loop_ok s d keep (S (length s)) arr 0) as (l' & Hl' & Heq'); [done|done|lia|lia|].
  change 0%N with (N.of_nat 0). rewrite Heq, Heq'. by rewrite (pieces_det _ _ _ _ Hd Hl Hl').
Qed.

Lemma split_empty_delim_diverges s keep arr fuel p :
  fits s -> p <= length s ->
  split_loop fuel s [] keep arr (N.of_nat p) = Diverge.
Proof.
  intros Hf Hp. revert arr. induction fuel as [|fuel IH]; intros arr; [done|]. simpl.
  rewrite str_find_at by done.
  assert (find_idx [] (drop p s) = Some 0) as -> by (by destruct (drop p s)).
  rewrite Nat.add_0_r.
  replace (N.of_nat p =? npos)%N with false
    by (symmetry; apply N.eqb_neq; by apply (lt_npos s)).
  unfold fits in Hf.
  replace (szsub (N.of_nat p) (N.of_nat p)) with 0%N
    by (rewrite szsub_nat by lia; f_equal; lia).
  replace (szadd (N.of_nat p) (size [])) with (N.of_nat p)
    by (change (size []) with (N.of_nat 0); rewrite szadd_nat by (simpl; lia); f_equal; lia).
  rewrite substr_ok by done.
  unfold mbind, outcome_bind. apply IH.
Qed.

(** ** UrlEncode / UrlDecode *)
Lemma url_decode_loop_acc acc s t :
  form_decodes s t -> url_decode_loop acc s = acc ++ t.
Proof.
  intros H. revert acc. induction H as [|s t H IH|h l hv lv s t Hh Hl H IH|c s t H1 H2 H IH]; intros acc.
  - simpl. by rewrite app_nil_r.
  - simpl. rewrite IH. by rewrite <- app_assoc.
  - change (url_decode_loop (acc ++ [hex_byte h l]) s
            = acc ++ [ascii_of_N (16 * hv + lv)] ++ t).
    rewrite IH, <- app_assoc. do 3 f_equal.
    assert (Hx : forall c v, (c, v) ∈ hex_digits -> from_hex c = v).
    { intros c v Hc. unfold hex_digits in Hc. simpl in Hc.
      repeat (apply elem_of_cons in Hc as [Hc|Hc]; [by simplify_eq|]).
      by apply elem_of_nil in Hc. }
    assert (Hb : forall c v, (c, v) ∈ hex_digits -> (v < 16)%N).
    { intros c v Hc. unfold hex_digits in Hc. simpl in Hc.
      repeat (apply elem_of_cons in Hc as [Hc|Hc]; [by simplify_eq|]).
      by apply elem_of_nil in Hc. }
    unfold hex_byte. rewrite (Hx _ _ Hh), (Hx _ _ Hl).
    specialize (Hb _ _ Hh) as Hb1. specialize (Hb _ _ Hl).
    rewrite N.mod_small by lia. f_equal. lia.
  - simpl. destruct (Ascii.eqb_spec c "+"); [done|].
    destruct (Ascii.eqb_spec c "%"); [done|]. rewrite IH. by rewrite <- app_assoc.
Qed.

Lemma url_decode_form s t : form_decodes s t -> url_decode s = t.
Proof. intros H. unfold url_decode. by rewrite (url_decode_loop_acc _ _ _ H). Qed.

Lemma lt16_cases (n : N) : (n < 16)%N ->
  n ∈ [0;1;2;3;4;5;6;7;8;9;10;11;12;13;14;15]%N.
Proof.
  intros H. rewrite !elem_of_cons.
  assert (Hc : (n = 0 \/ n = 1 \/ n = 2 \/ n = 3 \/ n = 4 \/ n = 5 \/ n = 6 \/ n = 7 \/ n = 8
    \/ n = 9 \/ n = 10 \/ n = 11 \/ n = 12 \/ n = 13 \/ n = 14 \/ n = 15)%N) by lia.
  tauto.
Qed.

Lemma form_decodes_encode_byte c s t :
  form_decodes s t -> form_decodes (url_encode_byte c ++ s) (c :: t).
Proof.
  intros H.
  assert (Hhex : forall n, (n < 16)%N -> (to_hex n, n) ∈ hex_digits).
  { intros n Hn. pose proof (lt16_cases n Hn) as Hn'.
    repeat (apply elem_of_cons in Hn' as [->|Hn'];
      [vm_compute; repeat (apply elem_of_cons; (left; reflexivity) || right)|]).
    by apply elem_of_nil in Hn'. }
  unfold url_encode_byte. destruct (url_plain c) eqn:E.
  - constructor; [| |done]; intros ->; discriminate.
  - destruct (Ascii.eqb_spec c " ") as [->|Hsp]; [by constructor|].
    simpl. replace c with (ascii_of_N (16 * N.shiftr (byteN c) 4 + byteN c mod 16)) at 3.
    + constructor; [apply Hhex..|done].
      * rewrite N.shiftr_div_pow2. apply N.div_lt_upper_bound; [done|].
        apply N_ascii_bounded.
      * by apply N.mod_lt.
    + rewrite N.shiftr_div_pow2. change (2 ^ 4)%N with 16%N.
      rewrite <- N.div_mod by done. apply ascii_N_embedding.
Qed.

Lemma form_decodes_encode s : form_decodes (url_encode s) s.
Proof.
  induction s as [|c s IH]; [constructor|]. simpl. by apply form_decodes_encode_byte.
Qed.

Lemma url_decode_encode s : url_decode (url_encode s) = s.
Proof. apply url_decode_form, form_decodes_encode. Qed.

Lemma url_encode_byte_safe c s : url_safe s -> url_safe (url_encode_byte c ++ s).
Proof.
  intros H.
  assert (Hhex : forall n, (n < 16)%N -> to_hex n ∈ upper_hex).
  { intros n Hn. pose proof (lt16_cases n Hn) as Hn'.
    repeat (apply elem_of_cons in Hn' as [->|Hn'];
      [vm_compute; repeat (apply elem_of_cons; (left; reflexivity) || right)|]).
    by apply elem_of_nil in Hn'. }
  unfold url_encode_byte. destruct (url_plain c) eqn:E.
  - apply us_char; [|done].
    apply (bool_decide_unpack (c ∈ unreserved)).
    destruct c as [[] [] [] [] [] [] [] []]; vm_compute in E |- *; first [exact I|discriminate E].
  - destruct (Ascii.eqb_spec c " ") as [->|Hsp].
    + apply us_char; [|done]. by apply (bool_decide_unpack ("+"%char ∈ unreserved)).
    + apply us_escape; [apply Hhex..|done].
      * rewrite N.shiftr_div_pow2. apply N.div_lt_upper_bound; [done|].
        apply N_ascii_bounded.
      * by apply N.mod_lt.
Qed.

Lemma url_encode_safe s : url_safe (url_encode s).
Proof. induction s; [constructor|]. simpl. by apply url_encode_byte_safe. Qed.

Lemma url_decode_loop_app acc s t r :
  form_decodes s t -> url_decode_loop acc (s ++ r) = url_decode_loop (acc ++ t) r.
Proof.
  intros H. revert acc. induction H as [|s t H IH|h l hv lv s t Hh Hl H IH|c s t H1 H2 H IH]; intros acc.
  - by rewrite app_nil_r.
  - simpl. rewrite IH. by rewrite <- app_assoc.
  - pose proof (url_decode_loop_acc [] _ _ (fd_hex h l hv lv [] [] Hh Hl fd_nil)) as Hb.
    cbn [url_decode_loop app Ascii.eqb Bool.eqb] in Hb.
    change (url_decode_loop (acc ++ [hex_byte h l]) (s ++ r)
            = url_decode_loop (acc ++ [ascii_of_N (16 * hv + lv)] ++ t) r).
    injection Hb as Hb. rewrite Hb, IH. by rewrite <- app_assoc.
  - simpl. destruct (Ascii.eqb_spec c "+"); [done|].
    destruct (Ascii.eqb_spec c "%"); [done|]. rewrite IH. by rewrite <- app_assoc.
Qed.

Lemma url_decode_lone_percent s t :
  form_decodes s t -> url_decode (s ++ ["%"%char]) = [].
Proof. intros H. unfold url_decode. by rewrite (url_decode_loop_app _ _ _ _ H). Qed.

Lemma url_decode_one_digit s t h hv :
  form_decodes s t -> (h, hv) ∈ hex_digits ->
  url_decode (s ++ ["%"%char; h]) = t ++ [ascii_of_N (16 * hv)].
Proof.
  intros H Hh. unfold url_decode. rewrite (url_decode_loop_app _ _ _ _ H). simpl app.
  cbn [url_decode_loop Ascii.eqb Bool.eqb]. do 2 f_equal.
  unfold hex_digits in Hh. simpl in Hh.
  repeat (apply elem_of_cons in Hh as [Hh|Hh]; [by simplify_eq|]).
  by apply elem_of_nil in Hh.
Qed.

(** ** WildCardMatch *)
Lemma glob_app p q s :
  glob (p ++ q) s <-> exists s1 s2, s = s1 ++ s2 /\ glob p s1 /\ glob q s2.
Proof.
  split.
  - revert s. induction p as [|c p IH]; intros s H; simpl in H.
    + exists [], s. split; [done|]. split; [constructor|done].
    + inversion H as [|p' blk s' H'|p' d s' H'|p' d s' Hne H']; subst.
      * apply IH in H' as (s1 & s2 & -> & H1 & H2).
        exists (blk ++ s1), s2. split; [by rewrite app_assoc|]. split; [by constructor|done].
      * apply IH in H' as (s1 & s2 & -> & H1 & H2).
        exists (d :: s1), s2. split; [done|]. split; [by constructor|done].
      * apply IH in H' as (s1 & s2 & -> & H1 & H2).
        exists (c :: s1), s2. split; [done|]. split; [by constructor|done].
  - intros (s1 & s2 & -> & H1 & H2). induction H1; simpl.
    + done.
    + rewrite <- app_assoc. by constructor.
    + by constructor.
    + by constructor.
Qed.

Lemma glob_nil_inv s : glob [] s <-> s = [].
Proof. split; [by inversion 1|]. intros ->. constructor. Qed.

Lemma glob_star1 s : glob ["*"%char] s.
Proof. rewrite <- (app_nil_r s). repeat constructor. Qed.

Lemma glob_snoc_star p s :
  glob (p ++ ["*"%char]) s <-> exists s1 s2, s = s1 ++ s2 /\ glob p s1.
Proof.
  rewrite glob_app. split.
  - intros (s1 & s2 & ? & ? & _). eauto.
  - intros (s1 & s2 & ? & ?). exists s1, s2. auto using glob_star1.
Qed.

Lemma glob_snoc_star_nil p : glob (p ++ ["*"%char]) [] <-> glob p [].
Proof.
  rewrite glob_snoc_star. split.
  - intros (s1 & s2 & H & ?). symmetry in H. by apply app_eq_nil in H as [-> ->].
  - intros H. by exists [], [].
Qed.

Lemma glob_snoc_star_snoc p s c :
  glob (p ++ ["*"%char]) (s ++ [c]) <-> glob p (s ++ [c]) \/ glob (p ++ ["*"%char]) s.
Proof.
  rewrite !glob_snoc_star. split.
  - intros (s1 & s2 & H & Hg). destruct s2 as [|x s2 _] using rev_ind.
    + left. rewrite app_nil_r in H. by rewrite H.
    + right. rewrite app_assoc in H. apply app_inj_tail in H as [-> _]. eauto.
  - intros [H|(s1 & s2 & -> & H)].
    + exists (s ++ [c]), []. by rewrite app_nil_r.
    + exists s1, (s2 ++ [c]). by rewrite app_assoc.
Qed.

Lemma glob_one pc s : pc <> "*"%char -> glob [pc] s <-> exists c, s = [c] /\ (pc = "?"%char \/ c = pc).
Proof.
  intros Hne. split.
  - inversion 1 as [|p' blk s' H'|p' d s' H'|p' d s' Hne' H']; subst; [done|..];
      inversion H'; subst; eauto.
  - intros (c & -> & [->| ->]); repeat constructor; done.
Qed.

Lemma glob_snoc_other p pc s :
  pc <> "*"%char ->
  glob (p ++ [pc]) s <-> exists s' c, s = s' ++ [c] /\ glob p s' /\ (pc = "?"%char \/ c = pc).
Proof.
  intros Hne. rewrite glob_app. split.
  - intros (s1 & s2 & -> & H1 & H2). apply glob_one in H2 as (c & -> & ?); [|done]. eauto.
  - intros (s' & c & -> & H1 & H2). exists s', [c]. split; [done|]. split; [done|].
    apply glob_one; eauto.
Qed.

(** Meaning of a row: cell j says whether the first j pattern bytes match. *)
Definition row_ok (p s : bytes) (row : list bool) : Prop :=
  length row = S (length p) /\
  forall j, j <= length p -> row !! j = Some true <-> glob (take j p) s.

Lemma wild_row0_tail_length p : length (wild_row0_tail p) = length p.
Proof.
  induction p as [|c p IH]; [done|]. simpl.
  destruct (Ascii.eqb c "*"); simpl; [by rewrite IH|]. by rewrite replicate_length.
Qed.

Lemma glob_nil_head c p : c <> "*"%char -> ~ glob (c :: p) [].
Proof. intros Hc H. inversion H; subst. done. Qed.

Lemma wild_row0_ok p : row_ok p [] (wild_row0 p).
Proof.
  split; [simpl; by rewrite wild_row0_tail_length|].
  intros j Hj. unfold wild_row0. revert p Hj.
  induction j as [|j IH]; intros p Hj.
  - simpl. rewrite glob_nil_inv. done.
  - destruct p as [|c p]; [simpl in *; lia|]. simpl in Hj. simpl take.
    simpl lookup. simpl wild_row0_tail.
    destruct (Ascii.eqb_spec c "*") as [->|Hc].
    + rewrite (IH p) by lia. split.
      * intros H. apply (glob_star _ [] [] H).
      * inversion 1 as [|p' blk s' H' Hp Hb| |]; subst.
        by apply app_eq_nil in Hb as [-> ->].
    + split.
      * intros H. change (replicate (S (length p)) false !! j = Some true) in H.
        apply lookup_replicate in H as [? _]. done.
      * intros H. by apply glob_nil_head in H.
Qed.

Lemma wild_row_from_ok p c s pre rest left prev :
  p = pre ++ rest ->
  (forall j, j <= length rest -> prev !! j = Some true <-> glob (take (length pre + j) p) s) ->
  length prev = S (length rest) ->
  (left = true <-> glob pre (s ++ [c])) ->
  length (wild_row_from rest c left prev) = length rest /\
  forall j, j < length rest ->
    wild_row_from rest c left prev !! j = Some true <->
    glob (take (length pre + S j) p) (s ++ [c]).
Proof.
  revert pre left prev. induction rest as [|pc rest IH]; intros pre left prev Hp Hprev Hlen Hleft.
  - destruct prev; simpl; (split; [done|]); intros j Hj; simpl in Hj; lia.
  - destruct prev as [|diag [|up prev]]; [simpl in *; lia..|].
    simpl wild_row_from.
    set (cell := if Ascii.eqb pc "*" then left || up
        else if Ascii.eqb pc "?" || Ascii.eqb c pc then diag else false).
    assert (Hdiag : diag = true <-> glob pre s).
    { specialize (Hprev 0 ltac:(simpl; lia)). simpl in Hprev.
      rewrite Nat.add_0_r, Hp, take_app in Hprev. rewrite <- Hprev. split; congruence. }
    assert (Htk : take (length pre + 1) p = pre ++ [pc]).
    { rewrite Hp. rewrite take_app_ge by lia. f_equal. by replace (length pre + 1 - length pre) with 1 by lia. }
    assert (Hup : up = true <-> glob (pre ++ [pc]) s).
    { specialize (Hprev 1 ltac:(simpl; lia)). simpl in Hprev.
      rewrite Htk in Hprev. rewrite <- Hprev. split; congruence. }
    assert (Hcell : cell = true <-> glob (pre ++ [pc]) (s ++ [c])).
    { unfold cell. destruct (Ascii.eqb_spec pc "*") as [->|Hpc].
      - rewrite orb_true_iff, Hleft, Hup, glob_snoc_star_snoc. done.
      - rewrite glob_snoc_other by done.
        destruct (Ascii.eqb_spec pc "?") as [->|Hq]; simpl.
        + rewrite Hdiag. split; [by eauto 6|].
          intros (s' & c' & [-> _]%app_inj_tail & ? & _). done.
        + destruct (Ascii.eqb_spec c pc) as [->|Hcp].
          * rewrite Hdiag. split; [by eauto 6|].
            intros (s' & c' & [-> _]%app_inj_tail & ? & _). done.
          * split; [done|]. intros (s' & c' & [-> ->]%app_inj_tail & _ & [?|?]); done. }
    destruct (IH (pre ++ [pc]) cell (up :: prev)) as [Hl Hr].
    + by rewrite <- app_assoc.
    + intros j Hj. rewrite app_length. simpl.
      specialize (Hprev (S j) ltac:(simpl; lia)). simpl in Hprev.
      replace (length pre + 1 + j) with (length pre + S j) by lia. done.
    + simpl in *. lia.
    + done.
    + split; [simpl; by rewrite Hl|].
      intros [|j] Hj; simpl.
      * rewrite Htk, <- Hcell. split; congruence.
      * simpl in Hj. rewrite Hr by lia. rewrite app_length. simpl.
        replace (length pre + 1 + S j) with (length pre + S (S j)) by lia. done.
Qed.

Lemma wild_row_ok p c s row : row_ok p s row -> row_ok p (s ++ [c]) (wild_row p c row).
Proof.
  intros [Hlen Hrow]. unfold wild_row.
  destruct (wild_row_from_ok p c s [] p false row) as [Hl Hr]; [done| |done| |].
  - intros j Hj. by apply Hrow.
  - split; [done|]. intros H%glob_nil_inv. by apply app_eq_nil in H as [_ ?].
  - split; [simpl; by rewrite Hl|].
    intros [|j] Hj; simpl.
    + rewrite glob_nil_inv. split; [done|]. intros H. by apply app_eq_nil in H as [_ ?].
    + by apply Hr.
Qed.

Lemma wild_table_ok p s : row_ok p s (wild_table p s).
Proof.
  unfold wild_table. induction s as [|c s IH] using rev_ind; [apply wild_row0_ok|].
  rewrite fold_left_app. simpl. by apply wild_row_ok.
Qed.

Lemma wildcard_match_glob p s : wildcard_match p s = true <-> glob p s.
Proof.
  unfold wildcard_match. destruct (wild_table_ok p s) as [Hlen Hrow].
  specialize (Hrow (length p) ltac:(lia)). rewrite firstn_all in Hrow. rewrite <- Hrow.
  set (row := wild_table p s) in *.
  destruct row as [|x row _] using rev_ind; [done|].
  rewrite last_last. rewrite app_length in Hlen. simpl in Hlen.
  rewrite lookup_app_r by lia. replace (length p - length row) with 0 by lia. simpl.
  split; congruence.
Qed.
