(** C01-C06: string utilities (src/cppnet/utils/string.cpp). *)
From Verif.Proof Require Import StringProof.

(** ** C01 *)
Theorem url_encode_decode_round_trip : forall s : bytes, url_decode (url_encode s) = s.
Proof. exact url_decode_encode. Qed.
Print Assumptions url_encode_decode_round_trip.

Example url_round_trip_ex :
  url_encode (B "a b%" ++ [NUL; ascii_of_nat 200]) = B "a+b%25%00%C8" /\
  url_decode (B "a+b%25%00%C8") = B "a b%" ++ [NUL; ascii_of_nat 200].
Proof. by vm_compute. Qed.

(** ** C02 *)
Theorem url_encode_output_is_safe : forall s : bytes, url_safe (url_encode s).
Proof. exact url_encode_safe. Qed.
Print Assumptions url_encode_output_is_safe.

(** What each byte becomes: itself, '+', or an escape. *)
Definition kept : bytes :=
  B "ABCDEFGHIJKLMNOPQRSTUVWXYZabcdefghijklmnopqrstuvwxyz0123456789-_.~/=?&".
Inductive form_encodes : bytes -> bytes -> Prop :=
| fe_nil : form_encodes [] []
| fe_kept c s t : c ∈ kept -> form_encodes s t -> form_encodes (c :: s) (c :: t)
| fe_space s t : form_encodes s t -> form_encodes (SP :: s) ("+"%char :: t)
| fe_escape c h l s t :
    c ∉ kept -> c <> SP ->
    upper_hex !! (nat_of_ascii c / 16) = Some h -> upper_hex !! (nat_of_ascii c mod 16) = Some l ->
    form_encodes s t -> form_encodes (c :: s) ("%"%char :: h :: l :: t).

(** Exactly what each byte becomes. *)
Theorem url_encode_follows_form : forall s : bytes, form_encodes s (url_encode s).
Proof.
  induction s as [|c s IH]; [constructor|]. change (url_encode (c :: s)) with (url_encode_byte c ++ url_encode s).
  assert (H : (bool_decide (c ∈ kept) = true /\ url_encode_byte c = [c]) \/ (c = SP /\ url_encode_byte c = ["+"%char]) \/
    (bool_decide (c ∈ kept) = false /\ bool_decide (c = SP) = false /\
     exists h l, upper_hex !! (nat_of_ascii c / 16) = Some h /\ upper_hex !! (nat_of_ascii c mod 16) = Some l /\
       url_encode_byte c = ["%"%char; h; l])).
  { destruct c as [[] [] [] [] [] [] [] []];
      first [left; split; vm_compute; reflexivity | right; left; split; vm_compute; reflexivity
            | right; right; split; [vm_compute; reflexivity|]; split; [vm_compute; reflexivity|];
              eexists _, _; split; [vm_compute; reflexivity|]; split; [vm_compute; reflexivity|]; vm_compute; reflexivity]. }
  destruct H as [[Hk ->]|[[-> ->]|(Hk & Hs & h & l & Hh & Hl & ->)]]; cbn [app].
  - apply fe_kept; [by apply bool_decide_eq_true in Hk|exact IH].
  - by apply fe_space.
  - apply fe_escape; [by apply bool_decide_eq_false in Hk|by apply bool_decide_eq_false in Hs|exact Hh|exact Hl|exact IH].
Qed.
Print Assumptions url_encode_follows_form.
Example form_encodes_ex : form_encodes (B "9 z;") (B "9+z%3B").
Proof. exact (url_encode_follows_form (B "9 z;")). Qed.

Example url_safe_rejects : ~ url_safe (B "a b") /\ ~ url_safe (B "%4").
Proof.
  split; intros H.
  - inversion H as [|c s Hc Hs|]; subst. inversion Hs as [|c' s' Hc' Hs'|]; subst.
    assert (SP ∉ unreserved) by by_compute. done.
  - inversion H as [|c s Hc Hs|]; subst.
    assert ("%"%char ∉ unreserved) by by_compute. done.
Qed.

(** ** C03 *)
Theorem url_decode_follows_form_standard : forall s t : bytes,
  form_decodes s t -> url_decode s = t.
Proof. exact url_decode_form. Qed.
Print Assumptions url_decode_follows_form_standard.

(** Input that ends in the middle of an escape, after a well-formed part. *)
Definition truncated (s : bytes) : Prop :=
  exists a t, form_decodes a t /\ (s = a ++ B "%" \/ exists h, s = a ++ ["%"%char; h]).

Definition url_decode_rejects_truncated_full : Prop :=
  forall s : bytes, truncated s -> url_decode s = [].

(** A '%' with a single digit at the end is decoded instead of rejected. *)
Theorem url_decode_rejects_truncated_refuted :
  exists s : bytes, truncated s /\ url_decode s <> [].
Proof.
  exists (B "%4"). split.
  - exists [], []. split; [constructor|]. right. by exists "4"%char.
  - by vm_compute.
Qed.
Print Assumptions url_decode_rejects_truncated_refuted.

(** What holds: a lone '%' at the end is rejected; missing: '%' plus one digit. *)
Theorem url_decode_rejects_truncated_partial : forall a t : bytes,
  form_decodes a t -> url_decode (a ++ B "%") = [].
Proof. exact url_decode_lone_percent. Qed.
Print Assumptions url_decode_rejects_truncated_partial.

(** The exact result in the missing case: the digit counts as the high digit. *)
Theorem url_decode_one_digit_escape : forall (a t : bytes) (h : ascii) (hv : N),
  form_decodes a t -> (h, hv) ∈ hex_digits ->
  url_decode (a ++ ["%"%char; h]) = t ++ [ascii_of_N (16 * hv)].
Proof. exact url_decode_one_digit. Qed.
Print Assumptions url_decode_one_digit_escape.

Example form_decodes_ex : form_decodes (B "a+%4a%4A") (B "a JJ").
Proof.
  apply fd_other; [done|done|]. apply fd_plus.
  apply (fd_hex "4" "a" 4 10);
    [by_compute|by_compute|].
  apply (fd_hex "4" "A" 4 10);
    [by_compute|by_compute|].
  constructor.
Qed.

(** ** C04 *)
Theorem split_inverts_join : forall (s d : bytes) (arr : list bytes),
  fits s -> d <> [] ->
  exists l, str_split s d arr false = Ok (arr ++ l) /\
    pieces d s l /\ join d l = s /\ Forall (fun x => ~ contains d x) l.
Proof.
  intros s d arr Hf Hd. destruct (split_spec s d arr false Hf Hd) as (l & Hl & Heq).
  exists l. split; [done|]. split; [done|]. split; [by apply pieces_join|].
  by apply (pieces_no_delim d s).
Qed.
Print Assumptions split_inverts_join.

Theorem split_keeping_delimiters : forall (s d : bytes) (arr : list bytes),
  fits s -> d <> [] ->
  exists init x, pieces d s (init ++ [x]) /\
    str_split s d arr true = Ok (arr ++ map (fun y => y ++ d) init ++ [x]) /\
    concat (map (fun y => y ++ d) init ++ [x]) = s.
Proof. exact split_keep_spec. Qed.
Print Assumptions split_keeping_delimiters.

(** The cut is unique: [pieces] is a function of the string. *)
Theorem split_pieces_unique : forall (d s : bytes) (l1 l2 : list bytes),
  d <> [] -> pieces d s l1 -> pieces d s l2 -> l1 = l2.
Proof. exact pieces_det. Qed.
Print Assumptions split_pieces_unique.

Example split_ex :
  str_split (B "aaXaaaXX") (B "aa") [B "old"] false = Ok [B "old"; []; B "X"; B "aXX"] /\
  str_split (B "a,b,") (B ",") [] true = Ok [B "a,"; B "b,"; []].
Proof. by vm_compute. Qed.

(** ** C05 *)
Definition split_terminates_full : Prop := forall (s d : bytes) (arr : list bytes) (keep : bool),
  fits s -> exists fuel r, split_loop fuel s d keep arr 0 = Ok r.

Theorem split_terminates_refuted : ~ split_terminates_full.
Proof.
  intros H. destruct (H (B "abc") [] [] false) as (fuel & r & Hr); [by vm_compute|].
  change 0%N with (N.of_nat 0) in Hr.
  rewrite (split_empty_delim_diverges (B "abc") false [] fuel 0) in Hr; [done|by vm_compute|lia].
Qed.
Print Assumptions split_terminates_refuted.

(** With the empty delimiter it never ends, whatever the string. *)
Theorem split_empty_delimiter_never_ends :
  forall (s : bytes) (arr : list bytes) (keep : bool) (fuel : nat),
  fits s -> split_loop fuel s [] keep arr 0 = Diverge.
Proof.
  intros s arr keep fuel Hf.
  apply (split_empty_delim_diverges s keep arr fuel 0 Hf (Nat.le_0_l _)).
Qed.
Print Assumptions split_empty_delimiter_never_ends.

(** Missing: the empty delimiter. *)
Theorem split_terminates_partial : forall (s d : bytes) (arr : list bytes) (keep : bool) (fuel : nat),
  fits s -> d <> [] -> length s < fuel ->
  split_loop fuel s d keep arr 0 = str_split s d arr keep /\ is_ok (str_split s d arr keep).
Proof.
  intros s d arr keep fuel Hf Hd Hfuel. split; [by apply split_any_fuel|].
  destruct (split_spec s d arr keep Hf Hd) as (l & _ & ->). by eexists.
Qed.
Print Assumptions split_terminates_partial.

(** ** C06 *)
Theorem wildcard_match_is_glob : forall pattern source : bytes,
  wildcard_match pattern source = true <-> glob pattern source.
Proof. exact wildcard_match_glob. Qed.
Print Assumptions wildcard_match_is_glob.

Example wildcard_ex :
  wildcard_match (B "*.ex?mple.*") (B "www.example.com") = true /\
  wildcard_match (B "*.ex?mple.*") (B "example.com") = false /\
  wildcard_match (B "**") [] = true /\ wildcard_match [] (B "x") = false.
Proof. by vm_compute. Qed.
