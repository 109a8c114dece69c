(** Decimal printing and [stoi] are inverse to each other. *)
From Verif.Lib Require Export CxxStringFacts.

Lemma dec_value_snoc s c : dec_value (s ++ [c]) = (dec_value s * 10 + digit_val c)%Z.
Proof. unfold dec_value. by rewrite fold_left_app. Qed.

Lemma digit_char_byteN n : (n < 10)%N -> byteN (digit_char n) = (48 + n)%N.
Proof. intros H. unfold byteN, digit_char. apply N_ascii_embedding. lia. Qed.

Lemma digit_char_val n : (n < 10)%N -> digit_val (digit_char n) = Z.of_N n.
Proof. intros H. unfold digit_val. rewrite digit_char_byteN by done. lia. Qed.

Lemma digit_char_digit n : (n < 10)%N -> is_digit (digit_char n) = true.
Proof. intros H. unfold is_digit. rewrite digit_char_byteN by done. lia. Qed.

Lemma dec_digits_ok fuel n :
  (n < 2 ^ N.of_nat fuel)%N ->
  dec_value (dec_digits fuel n) = Z.of_N n /\
  Forall (fun c => is_digit c = true) (dec_digits fuel n) /\
  (fuel <> 0 -> dec_digits fuel n <> []).
Proof.
  revert n. induction fuel as [|f IH]; intros n Hn.
  - simpl in *. assert (n = 0)%N as -> by lia. repeat split; auto. 
  - simpl. destruct (N.ltb_spec n 10) as [H|H].
    + split; [|split; [|done]].
      * unfold dec_value. simpl. rewrite digit_char_val by done. lia.
      * repeat constructor. by apply digit_char_digit.
    + assert (Hm : (n mod 10 < 10)%N) by (apply N.mod_upper_bound; lia).
      assert (Hd : (n / 10 < 2 ^ N.of_nat f)%N).
      { apply N.div_lt_upper_bound; [lia|].
        replace (N.of_nat (S f)) with (N.succ (N.of_nat f)) in Hn by lia.
        rewrite N.pow_succ_r' in Hn. lia. }
      destruct (IH _ Hd) as (Hv & HF & _).
      split; [|split].
      * rewrite dec_value_snoc, Hv, digit_char_val by done.
        rewrite (N.div_mod n 10) at 3 by lia. lia.
      * apply Forall_app. split; [done|]. repeat constructor. by apply digit_char_digit.
      * intros _ Hc. by apply app_eq_nil in Hc as [_ ?].
Qed.

Lemma dec_of_N_ok n :
  dec_value (dec_of_N n) = Z.of_N n /\
  Forall (fun c => is_digit c = true) (dec_of_N n) /\ dec_of_N n <> [].
Proof.
  unfold dec_of_N. destruct (dec_digits_ok (S (N.to_nat (N.log2 n))) n) as (H1 & H2 & H3).
  - replace (N.of_nat (S (N.to_nat (N.log2 n)))) with (N.succ (N.log2 n)) by lia.
    destruct (decide (n = 0)%N) as [->|Hn]; [simpl; lia|].
    apply N.log2_spec. lia.
  - auto.
Qed.

Lemma digits_prefix_all s :
  Forall (fun c => is_digit c = true) s -> digits_prefix s = s.
Proof. induction 1 as [|c s Hc _ IH]; simpl; [done|]. by rewrite Hc, IH. Qed.

Lemma digits_prefix_app s t :
  Forall (fun c => is_digit c = true) s ->
  digits_prefix (s ++ t) = s ++ digits_prefix t.
Proof. induction 1 as [|c s Hc _ IH]; simpl; [done|]. by rewrite Hc, IH. Qed.

Lemma digit_not_space c : is_digit c = true -> is_space c = false.
Proof. unfold is_digit, is_space. lia. Qed.

Lemma digit_not_sign c : is_digit c = true -> Ascii.eqb c "-" = false /\ Ascii.eqb c "+" = false.
Proof. destruct c as [[] [] [] [] [] [] [] []]; vm_compute; auto; discriminate. Qed.

Lemma drop_space_digit s :
  Forall (fun c => is_digit c = true) s -> drop_space s = s.
Proof. destruct 1 as [|c s Hc _]; simpl; [done|]. by rewrite digit_not_space. Qed.

Lemma stoi_digits s :
  Forall (fun c => is_digit c = true) s -> s <> [] -> stoi s = stoi_range (dec_value s).
Proof.
  intros HF Hne. unfold stoi. rewrite drop_space_digit by done.
  destruct s as [|c s]; [done|].
  pose proof HF as HF'. apply Forall_cons in HF' as [Hc _].
  destruct (digit_not_sign _ Hc) as [-> ->].
  by rewrite digits_prefix_all.
Qed.

Lemma stoi_neg_digits s :
  Forall (fun c => is_digit c = true) s -> s <> [] ->
  stoi ("-"%char :: s) = stoi_range (- dec_value s).
Proof.
  intros HF Hne. unfold stoi. simpl.
  rewrite digits_prefix_all by done. by destruct s.
Qed.

Lemma stoi_int_to_string z :
  (int_min <= z <= int_max)%Z -> stoi (int_to_string z) = Ok z.
Proof.
  intros Hz. unfold int_to_string.
  destruct (Z.ltb_spec z 0).
  - destruct (dec_of_N_ok (Z.to_N (- z))) as (Hv & HF & Hne).
    rewrite stoi_neg_digits, Hv by done. unfold stoi_range.
    replace (- Z.of_N (Z.to_N (- z)))%Z with z by lia.
    destruct (int_min <=? z)%Z eqn:?, (z <=? int_max)%Z eqn:?; simpl; try done; lia.
  - destruct (dec_of_N_ok (Z.to_N z)) as (Hv & HF & Hne).
    rewrite stoi_digits, Hv by done. unfold stoi_range.
    replace (Z.of_N (Z.to_N z))%Z with z by lia.
    destruct (int_min <=? z)%Z eqn:?, (z <=? int_max)%Z eqn:?; simpl; try done; lia.
Qed.

Lemma int_to_string_nonempty z : int_to_string z <> [].
Proof.
  unfold int_to_string. destruct (z <? 0)%Z; [done|].
  by destruct (dec_of_N_ok (Z.to_N z)) as (_ & _ & ?).
Qed.

Lemma int_to_string_chars z c :
  c ∈ int_to_string z -> is_digit c = true \/ c = "-"%char.
Proof.
  unfold int_to_string. destruct (z <? 0)%Z.
  - destruct (dec_of_N_ok (Z.to_N (- z))) as (_ & HF & _).
    intros [->|H]%elem_of_cons; [auto|]. left. rewrite Forall_forall in HF. auto.
  - destruct (dec_of_N_ok (Z.to_N z)) as (_ & HF & _).
    intros H. left. rewrite Forall_forall in HF. auto.
Qed.

Lemma to_int32_small z : (int_min <= z <= int_max)%Z -> to_int32 z = z.
Proof.
  unfold to_int32, int_min, int_max. intros H. rewrite Z.mod_small by lia. lia.
Qed.
