(** C209: what UrlDecode does with every text, also a malformed one (utils/string.cpp). *)
From Verif.Proof Require Import StringProof.
From Verif.Props Require Import StringProps.

(** ** Statements *)

(** A text that does not follow the standard is not decoded. *)
Definition malformed_not_decoded_full : Prop := forall s, (forall t, ~ form_decodes s t) -> url_decode s = [].

(** How far a byte counts as a digit: letters go on after F up to Z; all other bytes are 0. *)
Definition worth (c : ascii) : N :=
  let n := N_of_ascii c in
  if decide (65 <= n <= 90)%N then n - 55 else if decide (97 <= n <= 122)%N then n - 87 else if decide (48 <= n <= 57)%N then n - 48 else 0.
(** Any two bytes after '%' are digits; one at the end is the first of two. *)
Inductive loosely_decodes : bytes -> bytes -> Prop :=
| ld_nil : loosely_decodes [] []
| ld_plus s t : loosely_decodes s t -> loosely_decodes ("+"%char :: s) (SP :: t)
| ld_other c s t : c <> "+"%char -> c <> "%"%char -> loosely_decodes s t -> loosely_decodes (c :: s) (c :: t)
| ld_escape h l s t : loosely_decodes s t -> loosely_decodes ("%"%char :: h :: l :: s) (ascii_of_N ((16 * worth h + worth l) mod 256) :: t)
| ld_half h : loosely_decodes ["%"%char; h] [ascii_of_N ((16 * worth h) mod 256)].
(** Whole escapes and other bytes; then a '%' with nothing after it. *)
Inductive whole : bytes -> Prop :=
| wh_nil : whole []
| wh_byte c s : c <> "%"%char -> whole s -> whole (c :: s)
| wh_escape h l s : whole s -> whole ("%"%char :: h :: l :: s).
Definition ends_bare (s : bytes) : Prop := exists a, whole a /\ s = a ++ ["%"%char].

(** ** Proofs *)

Lemma worth_from_hex c : from_hex c = worth c.
Proof.
  unfold from_hex, worth, byteN.
  assert (N_of_ascii c < 256)%N by apply N_ascii_bounded.
  set (n := N_of_ascii c) in *. clearbody n.
  repeat case_decide; repeat match goal with |- context [(?a <=? ?b)%N] => destruct (N.leb_spec a b) end; cbn [andb]; try lia;
    rewrite ?N.mod_small by lia; lia.
Qed.
Lemma loop_acc acc s : (exists t, url_decode_loop acc s = acc ++ t /\ loosely_decodes s t) \/ url_decode_loop acc s = [] /\ forall t, ~ loosely_decodes s t.
Proof.
  remember (length s) as n eqn:En. revert acc s En. induction (lt_wf n) as [n _ IH]. intros acc s ->.
  destruct s as [|c s]; cbn [url_decode_loop].
  { left. exists []. rewrite app_nil_r. split; [done|constructor]. }
  destruct (Ascii.eqb_spec c "+"%char) as [->|Hp].
  { destruct (IH (length s) ltac:(cbn; lia) (acc ++ [SP]) s eq_refl) as [(t & -> & Ht)|[-> Ht]].
    - left. exists (SP :: t). rewrite <- app_assoc. split; [done|by constructor].
    - right. split; [done|]. intros t H. inversion H; subst; [|done]. by eapply Ht. }
  destruct (Ascii.eqb_spec c "%"%char) as [->|Hq].
  { destruct s as [|h [|l s]].
    - right. split; [done|]. intros t H. inversion H; subst; done.
    - left. eexists. split; [done|]. unfold hex_byte. rewrite !worth_from_hex. change (worth NUL) with 0%N. rewrite N.add_0_r, N.mul_comm. constructor.
    - destruct (IH (length s) ltac:(cbn; lia) (acc ++ [hex_byte h l]) s eq_refl) as [(t & -> & Ht)|[-> Ht]].
      + left. exists (hex_byte h l :: t). rewrite <- app_assoc. split; [done|]. unfold hex_byte. rewrite !worth_from_hex, (N.mul_comm (worth h)). by constructor.
      + right. split; [done|]. intros t H. inversion H; subst; [done|]. by eapply Ht. }
  destruct (IH (length s) ltac:(cbn; lia) (acc ++ [c]) s eq_refl) as [(t & -> & Ht)|[-> Ht]].
  - left. exists (c :: t). rewrite <- app_assoc. split; [done|by constructor].
  - right. split; [done|]. intros t H. inversion H; subst; try done. by eapply Ht.
Qed.

Lemma loosely_det s t : loosely_decodes s t -> forall t', loosely_decodes s t' -> t = t'.
Proof.
  induction 1; intros t' H'; inversion H'; subst; try done; try (by f_equal; auto).
Qed.

(** ** Theorems *)

(** What UrlDecode gives for every text. *)
Theorem decode_exact : forall s t, url_decode s = t <-> loosely_decodes s t \/ t = [] /\ forall t', ~ loosely_decodes s t'.
Proof.
  intros s t. destruct (loop_acc [] s) as [(t1 & E & Ht)|[E Ht]]; unfold url_decode; rewrite E; cbn [app]; split.
  - intros <-. by left.
  - intros [H|[_ H]]; [by apply (loosely_det s)|by destruct (H t1)].
  - intros <-. by right.
  - intros [H|[-> _]]; [by destruct (Ht t)|done].
Qed.
Lemma bare_or_decodes s : (exists t, loosely_decodes s t) \/ ends_bare s.
Proof.
  remember (length s) as n eqn:En. revert s En. induction (lt_wf n) as [n _ IH]. intros s ->.
  destruct s as [|c s]; [left; exists []; constructor|].
  destruct (decide (c = "%"%char)) as [->|Hq].
  - destruct s as [|h [|l s]].
    + right. exists []. split; [constructor|done].
    + left. eexists. apply ld_half.
    + destruct (IH (length s) ltac:(cbn; lia) s eq_refl) as [[t Ht]|(a & Ha & ->)]; [left; eexists; by apply ld_escape|].
      right. exists ("%"%char :: h :: l :: a). split; [by constructor|done].
  - destruct (IH (length s) ltac:(cbn; lia) s eq_refl) as [[t Ht]|(a & Ha & ->)].
    + left. destruct (decide (c = "+"%char)) as [->|]; eexists; [by apply ld_plus|by apply ld_other].
    + right. exists (c :: a). split; [by constructor|done].
Qed.
Lemma bare_not s : ends_bare s -> forall t, ~ loosely_decodes s t.
Proof.
  intros (a & Ha & ->). induction Ha as [|c s Hc Hs IH|h l s Hs IH]; intros t H; cbn [app] in H.
  - inversion H; subst; done.
  - inversion H; subst; try done; by eapply IH.
  - inversion H; subst; try done; by eapply IH.
Qed.
(** The texts that give nothing: the empty one, and those that end with '%' after whole
    escapes and other bytes. *)
Theorem decode_nothing : forall s, url_decode s = [] <-> s = [] \/ ends_bare s.
Proof.
  intros s. rewrite decode_exact. split.
  - intros [H|[_ H]].
    + left. by inversion H.
    + destruct (bare_or_decodes s) as [[t Ht]|Hb]; [by destruct (H t)|by right].
  - intros [->|Hb]; [left; constructor|]. right. split; [done|by apply bare_not].
Qed.
Definition is_hex (c : ascii) : bool := bool_decide (c ∈ hex_digits.*1).
Lemma not_hex_malformed h l : is_hex h = false \/ is_hex l = false -> forall t, ~ form_decodes ["%"%char; h; l] t.
Proof.
  intros Hx t Ht. inversion Ht as [| |h' l' hv lv s t' Hh Hl Hs|c s t' ? Hq]; subst; [|done].
  assert (Hd : forall c v, (c, v) ∈ hex_digits -> is_hex c = true).
  { intros c v Hc. apply bool_decide_eq_true. apply elem_of_list_fmap. by exists (c, v). }
  rewrite (Hd _ _ Hh), (Hd _ _ Hl) in Hx. by destruct Hx.
Qed.
(** A way to write byte [n]: with a letter after F. *)
Definition loose_spelling (b : ascii) : ascii * ascii :=
  let n := N_of_ascii b in
  if (n <? 16)%N then ("G"%char, ascii_of_N (if (n <? 10)%N then 48 + n else 55 + n))
  else let d := ((n - 16) / 16)%N in (ascii_of_N (if (d <? 10)%N then 48 + d else 55 + d), ascii_of_N (71 + n mod 16)).
(** So malformed escapes are decoded: every byte, also NUL, can be written so. *)
Theorem every_byte_malformed : forall b, exists h l, (forall t, ~ form_decodes ["%"%char; h; l] t) /\ url_decode ["%"%char; h; l] = [b].
Proof.
  intros b. exists (loose_spelling b).1, (loose_spelling b).2.
  assert (H : (negb (is_hex (loose_spelling b).1) || negb (is_hex (loose_spelling b).2)) && bool_decide (url_decode ["%"%char; (loose_spelling b).1; (loose_spelling b).2] = [b]) = true).
  { destruct b as [[] [] [] [] [] [] [] []]; by vm_compute. }
  apply andb_true_iff in H as [H1 H2]. apply bool_decide_eq_true in H2. split; [|done].
  apply not_hex_malformed. by apply orb_true_iff in H1 as [H1%negb_true_iff|H1%negb_true_iff]; [left|right].
Qed.
Theorem malformed_not_decoded_refuted : ~ malformed_not_decoded_full.
Proof. intros H. destruct (every_byte_malformed NUL) as (h & l & H1 & H2). specialize (H _ H1). congruence. Qed.
Print Assumptions decode_exact.
Print Assumptions decode_nothing.
Print Assumptions every_byte_malformed.
Print Assumptions malformed_not_decoded_refuted.

(** ** Examples *)
Example loose_ex : url_decode (B "a%zzb+%4") = B "aSb @" /\ loosely_decodes (B "a%zzb+%4") (B "aSb @").
Proof.
  split; [by vm_compute|]. apply ld_other; [done|done|]. apply (ld_escape "z" "z"). apply ld_other; [done|done|]. apply ld_plus. apply ld_half.
Qed.
Example bare_ex : ends_bare (B "a%41%") /\ url_decode (B "a%41%") = [] /\ url_decode (B "%%") = [NUL] /\ ~ ends_bare (B "%%").
Proof.
  assert (H : ends_bare (B "a%41%")).
  { exists (B "a%41"). split; [|done]. apply wh_byte; [done|]. apply wh_escape. constructor. }
  split; [done|]. split; [by apply decode_nothing; right|]. split; [by vm_compute|].
  intros Hb. assert (E : url_decode (B "%%") = []) by (apply decode_nothing; by right). by vm_compute in E.
Qed.
