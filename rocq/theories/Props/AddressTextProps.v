(** C235: exactly which texts Address::Init (src/cppnet/socket/address.cpp:21-26) takes for
    an address, and which address. *)
From Coq Require Import ZifyBool.
From Verif.Model Require Import Address.
From Verif.Lib Require Import DecFacts.
From Verif.Spec Require Import StringSpec.
From Verif.Props Require Import AddressProps.

Local Open Scope N_scope.

(** ** Numbers *)

Definition dec_chars : bytes := B "0123456789".
Definition oct_chars : bytes := B "01234567".
Definition hexa_chars : bytes := B "0123456789abcdefABCDEF".
(** The value of a digit. *)
Definition dval (c : ascii) : N := if byteN c <? 58 then byteN c - 48 else if byteN c <? 71 then byteN c - 55 else byteN c - 87.
Definition value (base : N) (ds : bytes) : N := foldl (λ n c, base * n + dval c) 0 ds.
(** A number in C: decimal, octal after 0, hexadecimal after 0x. *)
Inductive number : bytes → N → Prop :=
| num_dec c ds : c ≠ "0"%char → Forall (λ x, x ∈ dec_chars) (c :: ds) → number (c :: ds) (value 10 (c :: ds))
| num_oct ds : Forall (λ x, x ∈ oct_chars) ds → number ("0"%char :: ds) (value 8 ds)
| num_hex x ds : x = "x"%char ∨ x = "X"%char → ds ≠ [] → Forall (λ y, y ∈ hexa_chars) ds → number ("0"%char :: x :: ds) (value 16 ds).

(** ** Addresses *)
Definition white (c : ascii) : Prop := c ∈ [SP; "009"; "010"; "011"; "012"; "013"]%char.
Definition ends (tl : bytes) : Prop := ∀ c, head tl = Some c → white c.
(** The address as one number. *)
Definition ip_number (i : ip4) : N := let '(a, b, c, d) := i in ((a * 256 + b) * 256 + c) * 256 + d.
Definition big (ns : list N) : N := foldl (λ n a, n * 256 + a) 0 ns.
(** One to four numbers, separated by dots; the last fills the bytes that are left. White
    space ends the text. *)
Definition address_text (s : bytes) (i : ip4) : Prop := ∃ ps ns last tl,
  s = join (B ".") ps ++ tl ∧ Forall2 number ps (ns ++ [last]) ∧ (length ns ≤ 3)%nat ∧ Forall octet ns ∧ ends tl ∧
  last < 256 ^ (4 - N.of_nat (length ns)) ∧ is_ip i ∧ ip_number i = big ns * 256 ^ (4 - N.of_nat (length ns)) + last.

(** ** Proofs *)
Lemma white_is c : is_space c = true ↔ white c.
Proof. unfold white. destruct c as [[] [] [] [] [] [] [] []]; split; intros H; first [by vm_compute in H | by_compute | (exfalso; revert H; by_compute)]. Qed.

Lemma digit_in_10 c : digit_in 10 c = if decide (c ∈ dec_chars) then Some (dval c) else None.
Proof. destruct c as [[] [] [] [] [] [] [] []]; vm_compute; reflexivity. Qed.
Lemma digit_in_8 c : digit_in 8 c = if decide (c ∈ oct_chars) then Some (dval c) else None.
Proof. destruct c as [[] [] [] [] [] [] [] []]; vm_compute; reflexivity. Qed.
Lemma digit_in_16 c : digit_in 16 c = if decide (c ∈ hexa_chars) then Some (dval c) else None.
Proof. destruct c as [[] [] [] [] [] [] [] []]; vm_compute; reflexivity. Qed.

Section run.
Context (base : N) (cs : bytes) (Hd : ∀ c, digit_in base c = if decide (c ∈ cs) then Some (dval c) else None).
Lemma run_stops acc ds r : Forall (λ x, x ∈ cs) ds → (∀ c, head r = Some c → c ∉ cs) →
  num_run base acc (ds ++ r) = (foldl (λ n c, base * n + dval c) acc ds, r).
Proof.
  intros HF Hr. revert acc. induction HF as [|c ds Hc HF IH]; intros acc; cbn [app num_run foldl].
  - destruct r as [|c r]; [done|]. cbn [num_run]. by rewrite Hd, decide_False by by apply Hr.
  - rewrite Hd, decide_True by done. rewrite IH. do 2 f_equal. lia.
Qed.
Lemma run_reads acc s v r : num_run base acc s = (v, r) → ∃ ds, s = ds ++ r ∧ Forall (λ x, x ∈ cs) ds ∧
  (∀ c, head r = Some c → c ∉ cs) ∧ v = foldl (λ n c, base * n + dval c) acc ds.
Proof.
  revert acc. induction s as [|c s IH]; intros acc H; cbn [num_run] in H.
  - injection H as <- <-. exists []. split; [done|]. split; [constructor|]. by split.
  - rewrite Hd in H. destruct (decide (c ∈ cs)) as [Hc|Hc].
    + destruct (IH _ H) as (ds & -> & HF & Hr & ->). exists (c :: ds). split; [done|]. split; [by constructor|]. split; [done|].
      cbn [foldl]. f_equal. lia.
    + injection H as <- <-. exists []. split; [done|]. split; [constructor|]. split; [|done]. by intros x [= <-].
Qed.
End run.

(** What may follow a number. *)
Definition follows (r : bytes) : Prop := r = [] ∨ ∃ c r', r = c :: r' ∧ (c = "."%char ∨ white c).
Lemma follows_no r c : follows r → head r = Some c → c ∉ hexa_chars ∧ c ∉ dec_chars ∧ c ∉ oct_chars ∧ is_x c = false.
Proof.
  intros [->|(x & r' & -> & H)] E; [done|]. injection E as <-. destruct H as [->|H]; [by_compute|].
  unfold white in H. repeat (apply elem_of_cons in H as [->|H]; [by_compute|]). by apply elem_of_nil in H.
Qed.

Lemma strtoul0_number p v r : number p v → follows r → strtoul0 (p ++ r) = (v, r).
Proof.
  intros Hp Hr. assert (Hno : ∀ c, head r = Some c → c ∉ hexa_chars ∧ c ∉ dec_chars ∧ c ∉ oct_chars ∧ is_x c = false) by (intros c; by apply follows_no).
  destruct Hp as [c ds Hc HF|ds HF|x ds Hx Hne HF].
  - assert (E : strtoul0 ((c :: ds) ++ r) = num_run 10 0 ((c :: ds) ++ r)).
    { apply Ascii.eqb_neq in Hc. unfold strtoul0. cbn [app]. rewrite Hc. by destruct (ds ++ r) as [|? [|? ?]]. }
    rewrite E. apply (run_stops 10 dec_chars digit_in_10); [done|]. intros x Hx. by apply Hno.
  - assert (E : strtoul0 (("0"%char :: ds) ++ r) = num_run 8 0 ((["0"%char] ++ ds) ++ r)).
    { unfold strtoul0. cbn [app]. change (Ascii.eqb "0" "0") with true. cbv iota.
      destruct (ds ++ r) as [|x [|h t]] eqn:Et; [done|done|].
      assert (is_x x = false) as ->; [|done].
      destruct ds as [|d ds]; cbn [app] in Et.
      - apply (Hno x). by rewrite Et.
      - injection Et as -> _. apply Forall_cons in HF as [Hd _]. unfold oct_chars in Hd. clear -Hd.
        change (B "01234567") with ["0";"1";"2";"3";"4";"5";"6";"7"]%char in Hd.
        repeat (apply elem_of_cons in Hd as [->|Hd]; [done|]). by apply elem_of_nil in Hd. }
    rewrite E. rewrite (run_stops 8 oct_chars digit_in_8).
    + done.
    + constructor; [by_compute|done].
    + intros x Hx. by apply Hno.
  - destruct ds as [|h ds]; [done|]. apply Forall_cons in HF as [Hh HF]. cbn [app].
    assert (E : strtoul0 ("0"%char :: x :: h :: ds ++ r) = num_run 16 0 ((h :: ds) ++ r)).
    { unfold strtoul0. change (Ascii.eqb "0" "0") with true. cbv iota.
      assert (is_x x = true) as -> by (destruct Hx as [->| ->]; done). by rewrite digit_in_16, decide_True. }
    rewrite E. apply (run_stops 16 hexa_chars digit_in_16); [by constructor|]. intros y Hy. by apply Hno.
Qed.

Lemma strtoul0_reads c s v r : is_digit c = true → strtoul0 (c :: s) = (v, r) → ∃ p, c :: s = p ++ r ∧ p ≠ [] ∧ number p v.
Proof.
  intros Hc H. 
  assert (Hcd : c ∈ dec_chars).
  { revert Hc. clear. destruct c as [[] [] [] [] [] [] [] []]; intros H; first [by vm_compute in H|by_compute]. }
  assert (Hcase : (c ≠ "0"%char ∧ num_run 10 0 (c :: s) = (v, r)) ∨ (c = "0"%char ∧ num_run 8 0 (c :: s) = (v, r)) ∨
    (∃ x h t, c = "0"%char ∧ s = x :: h :: t ∧ is_x x = true ∧ h ∈ hexa_chars ∧ num_run 16 0 (h :: t) = (v, r))).
  { unfold strtoul0 in H. destruct (Ascii.eqb c "0") eqn:E.
    - apply Ascii.eqb_eq in E as ->. right. destruct s as [|x [|h t]]; [by left|by left|].
      rewrite digit_in_16 in H. destruct (is_x x) eqn:Ex; cbn [andb] in H; [|by left].
      destruct (decide (h ∈ hexa_chars)); [|by left]. right. by exists x, h, t.
    - apply Ascii.eqb_neq in E. left. split; [done|]. by destruct s as [|x [|h t]]. }
  destruct Hcase as [[Hz E]|[[-> E]|(x & h & t & -> & -> & Hx & Hh & E)]].
  - apply (run_reads 10 dec_chars digit_in_10) in E as (ds & E & HF & Hr & ->).
    destruct ds as [|d ds]; [cbn [app] in E; subst r; exfalso; by apply (Hr c)|]. exists (d :: ds). split; [done|]. split; [done|].
    injection E as <- _. by constructor.
  - apply (run_reads 8 oct_chars digit_in_8) in E as (ds & E & HF & Hr & ->).
    destruct ds as [|d ds]; [cbn [app] in E; subst r; exfalso; apply (Hr "0"%char eq_refl); by_compute|]. exists (d :: ds). split; [done|]. split; [done|].
    injection E as <- _. apply Forall_cons in HF as [_ HF]. apply num_oct. done.
  - apply (run_reads 16 hexa_chars digit_in_16) in E as (ds & E & HF & Hr & ->).
    destruct ds as [|d ds]; [cbn [app] in E; subst r; exfalso; by apply (Hr h)|]. exists ("0"%char :: x :: d :: ds).
    split; [cbn [app]; do 2 f_equal; done|]. split; [done|]. apply num_hex; [|done|done].
    unfold is_x in Hx. apply orb_true_iff in Hx as [Hx|Hx]; apply Ascii.eqb_eq in Hx; [by left|by right].
Qed.

Lemma number_start p v : number p v → ∃ c p', p = c :: p' ∧ is_digit c = true.
Proof.
  destruct 1 as [c ds _ HF|ds _|x ds _ _ _].
  - exists c, ds. split; [done|]. apply Forall_cons in HF as [Hc _]. revert Hc. clear.
    destruct c as [[] [] [] [] [] [] [] []]; intros H; first [by vm_compute|exfalso; revert H; by_compute].
  - by exists "0"%char, ds.
  - by exists "0"%char, (x :: ds).
Qed.

(** The texts, with the numbers read before. *)
Definition texts (more : nat) (parts : list N) (s : bytes) (i : ip4) : Prop := ∃ ps ns last tl,
  s = join (B ".") ps ++ tl ∧ Forall2 number ps (ns ++ [last]) ∧ (length ns ≤ more)%nat ∧ Forall octet ns ∧ ends tl ∧
  last < 2 ^ 32 ∧ last_part (parts ++ ns) last = Some i.

Lemma aton_texts more parts s i : inet_aton more parts s = Some i ↔ texts more parts s i.
Proof.
  revert parts s. induction more as [more IH] using lt_wf_ind. intros parts s. split.
  - intros H. destruct s as [|c s]; [by destruct more|].
    assert (Hu : ∃ v r, is_digit c = true ∧ strtoul0 (c :: s) = (v, r) ∧ v < 2 ^ 32 ∧
      ((r = [] ∧ last_part parts v = Some i) ∨ (∃ x r', r = x :: r' ∧ white x ∧ last_part parts v = Some i) ∨
       (∃ m r', r = "."%char :: r' ∧ more = S m ∧ v < 256 ∧ inet_aton m (parts ++ [v]) r' = Some i))).
    { destruct (strtoul0 (c :: s)) as [v r] eqn:E. exists v, r. destruct more as [|m]; cbn [inet_aton] in H; rewrite E in H;
        (destruct (is_digit c); [|done]); cbn [negb] in H; (destruct (N.leb_spec (2 ^ 32) v); [done|]); (split; [done|]); (split; [done|]); (split; [done|]);
        (destruct r as [|x r']; [by left|]); destruct (Ascii.eqb x ".") eqn:Ex; try done.
      - right; left. destruct (is_space x) eqn:Es; [|done]. exists x, r'. split; [done|]. split; [by apply white_is|done].
      - right; right. apply Ascii.eqb_eq in Ex as ->. destruct (N.ltb_spec 255 v); [done|]. exists m, r'. split; [done|]. split; [done|]. split; [lia|done].
      - right; left. destruct (is_space x) eqn:Es; [|done]. exists x, r'. split; [done|]. split; [by apply white_is|done]. }
    destruct Hu as (v & r & Hc & E & Hv & Hcase). destruct (strtoul0_reads _ _ _ _ Hc E) as (p & Ep & Hne & Hp).
    destruct Hcase as [[-> HL]|[(x & r' & -> & Hx & HL)|(m & r' & -> & -> & Hv' & HI)]].
    + exists [p], [], v, []. split; [by rewrite Ep|]. split; [by repeat constructor|]. split; [cbn; lia|]. split; [constructor|]. split; [done|]. split; [done|].
      by rewrite app_nil_r.
    + exists [p], [], v, (x :: r'). split; [by rewrite Ep|]. split; [by repeat constructor|]. split; [cbn; lia|]. split; [constructor|]. split; [by intros ? [= <-]|]. split; [done|].
      by rewrite app_nil_r.
    + apply IH in HI as (ps & ns & last & tl & -> & HF & Hlen & Ho & Htl & Hl & HL); [|lia].
      exists (p :: ps), (v :: ns), last, tl. split.
      { rewrite Ep. destruct ps as [|p2 ps]; [inversion HF as [H0|]; by destruct ns|]. cbn [join]. by rewrite <- !app_assoc. }
      split; [by constructor|]. split; [cbn; lia|]. split; [by constructor|]. split; [done|]. split; [done|]. by rewrite <- app_assoc in HL.
  - intros (ps & ns & last & tl & -> & HF & Hlen & Ho & Htl & Hl & HL). destruct ns as [|v ns].
    + cbn [app] in HF. inversion HF as [|p ? ps' ? Hp HF']; subst. inversion HF'; subst. cbn [join]. rewrite app_nil_r in HL.
      assert (Hf : follows tl). { destruct tl as [|c tl]; [by left|]. right. exists c, tl. split; [done|]. right. by apply Htl. }
      pose proof (strtoul0_number _ _ _ Hp Hf) as E. destruct (number_start _ _ Hp) as (c & p' & -> & Hc). cbn [app] in *.
      assert (Hdot : ∀ x t, tl = x :: t → Ascii.eqb x "." = false ∧ is_space x = true).
      { intros x t ->. specialize (Htl x eq_refl). split; [|by apply white_is]. unfold white in Htl.
        repeat (apply elem_of_cons in Htl as [->|Htl]; [done|]). by apply elem_of_nil in Htl. }
      destruct more as [|m]; cbn [inet_aton]; rewrite E, Hc; cbn [negb]; (destruct (N.leb_spec (2 ^ 32) last); [lia|]);
        (destruct tl as [|x t]; [done|]); destruct (Hdot x t eq_refl) as [-> ->]; done.
    + cbn [app] in HF. inversion HF as [|p ? ps' ? Hp HF']; subst. destruct more as [|m]; [cbn in Hlen; lia|].
      destruct ps' as [|p2 ps]; [inversion HF' as [H0|]; by destruct ns|].
      assert (Hj : join (B ".") (p :: p2 :: ps) ++ tl = p ++ "."%char :: join (B ".") (p2 :: ps) ++ tl).
      { cbn [join]. by rewrite <- !app_assoc. }
      rewrite Hj. assert (Hf : follows ("."%char :: join (B ".") (p2 :: ps) ++ tl)) by (right; eexists _, _; split; [done|by left]).
      pose proof (strtoul0_number _ _ _ Hp Hf) as E. destruct (number_start _ _ Hp) as (c & p' & -> & Hc). cbn [app] in E |- *.
      apply Forall_cons in Ho as [Hv Ho]. unfold octet in Hv. cbn [inet_aton]. rewrite E, Hc. cbn [negb].
      destruct (N.leb_spec (2 ^ 32) v); [lia|]. change (Ascii.eqb "." ".") with true. cbv iota. destruct (N.ltb_spec 255 v); [lia|].
      apply IH; [lia|]. exists (p2 :: ps), ns, last, tl. split; [done|]. split; [done|]. split; [cbn in Hlen; lia|]. split; [done|]. split; [done|]. split; [done|].
      by rewrite <- app_assoc.
Qed.

Lemma low_byte v : v = v / 256 * 256 + v mod 256 ∧ v mod 256 < 256.
Proof. split; [rewrite (N.div_mod v 256) at 1 by lia; lia|apply N.mod_upper_bound; lia]. Qed.
Lemma shifts v : v / 2 ^ 16 = v / 256 / 256 ∧ v / 2 ^ 24 = v / 256 / 256 / 256.
Proof. rewrite !N.div_div by lia. done. Qed.
Lemma bytes_of_N v : v < 2 ^ 32 → is_ip (v / 2 ^ 24 mod 256, v / 2 ^ 16 mod 256, v / 2 ^ 8 mod 256, v mod 256) ∧
  ip_number (v / 2 ^ 24 mod 256, v / 2 ^ 16 mod 256, v / 2 ^ 8 mod 256, v mod 256) = v.
Proof.
  intros Hv. destruct (shifts v) as [-> ->]. change (2 ^ 8) with 256. change (2 ^ 32) with 4294967296 in Hv.
  destruct (low_byte v), (low_byte (v / 256)), (low_byte (v / 256 / 256)), (low_byte (v / 256 / 256 / 256)).
  assert (v / 256 / 256 / 256 / 256 = 0) as Hz by lia. unfold is_ip, octet, ip_number. split; [done|]. lia.
Qed.

Lemma ip_number_inj i j : is_ip i → is_ip j → ip_number i = ip_number j → i = j.
Proof.
  destruct i as [[[a b] c] d], j as [[[a' b'] c'] d']. unfold is_ip, octet, ip_number. intros (? & ? & ? & ?) (? & ? & ? & ?) E.
  assert (d = d') as -> by lia. assert (c = c') as -> by lia. assert (b = b') as -> by lia. assert (a = a') as -> by lia. done.
Qed.

Lemma last_part_is ns v i : (length ns ≤ 3)%nat → Forall octet ns → v < 2 ^ 32 →
  last_part ns v = Some i ↔ v < 256 ^ (4 - N.of_nat (length ns)) ∧ is_ip i ∧ ip_number i = big ns * 256 ^ (4 - N.of_nat (length ns)) + v.
Proof.
  intros Hl Ho Hv.
  assert (Hj : ∀ j n, is_ip j → ip_number j = n → (Some j = Some i ↔ is_ip i ∧ ip_number i = n)).
  { intros j n H1 H2. split; [by intros [= <-]|]. intros [H3 H4]. f_equal. apply ip_number_inj; [done|done|]. congruence. }
  destruct (shifts v) as [E16 E24]. change (2 ^ 32) with 4294967296 in Hv.
  destruct (low_byte v), (low_byte (v / 256)), (low_byte (v / 256 / 256)), (low_byte (v / 256 / 256 / 256)).
  destruct ns as [|a [|b [|c [|d ns]]]]; [..|cbn in Hl; lia]; unfold last_part; cbn [length big foldl].
  - change (256 ^ (4 - N.of_nat 0)) with 4294967296. destruct (bytes_of_N v Hv) as [H1' H2']. rewrite (Hj _ v H1' H2'). split; [intros [? ?]; split; [done|]; split; [done|]; lia|].
    intros (_ & ? & ?). split; [done|]. lia.
  - change (256 ^ (4 - N.of_nat 1)) with 16777216. change (2 ^ 24) with 16777216. rewrite E16. change (2 ^ 8) with 256.
    apply Forall_cons in Ho as [Ha _]. unfold octet in Ha. destruct (N.ltb_spec v 16777216) as [Hs|Hs]; [|split; [done|lia]].
    assert (v / 256 / 256 / 256 = 0) as Hz by lia.
    rewrite (Hj _ (a * 16777216 + v)); [|unfold is_ip, octet; lia|unfold ip_number; lia]. cbn [foldl]. split; [intros [? ?]; split; [done|]; split; [done|]; lia|].
    intros (_ & ? & ?). split; [done|]. lia.
  - change (256 ^ (4 - N.of_nat 2)) with 65536. change (2 ^ 16) with 65536. change (2 ^ 8) with 256.
    apply Forall_cons in Ho as [Ha Ho]. apply Forall_cons in Ho as [Hb _]. unfold octet in Ha, Hb. destruct (N.ltb_spec v 65536) as [Hs|Hs]; [|split; [done|lia]].
    assert (v / 256 / 256 = 0) as Hz by lia.
    rewrite (Hj _ ((a * 256 + b) * 65536 + v)); [|unfold is_ip, octet; lia|unfold ip_number; lia]. split; [intros [? ?]; split; [done|]; split; [done|]; lia|].
    intros (_ & ? & ?). split; [done|]. lia.
  - change (256 ^ (4 - N.of_nat 3)) with 256. change (2 ^ 8) with 256.
    apply Forall_cons in Ho as [Ha Ho]. apply Forall_cons in Ho as [Hb Ho]. apply Forall_cons in Ho as [Hc _]. unfold octet in Ha, Hb, Hc.
    destruct (N.ltb_spec v 256) as [Hs|Hs]; [|split; [done|lia]].
    rewrite (Hj _ (((a * 256 + b) * 256 + c) * 256 + v)); [|unfold is_ip, octet; lia|unfold ip_number; lia]. split; [intros [? ?]; split; [done|]; split; [done|]; lia|].
    intros (_ & ? & ?). split; [done|]. lia.
Qed.

Lemma aton_is s i : inet_aton 3 [] s = Some i ↔ address_text s i.
Proof.
  rewrite aton_texts. split; intros (ps & ns & last & tl & H1 & H2 & H3 & H4 & H5 & H6).
  - destruct H6 as [H6 H7]. cbn [app] in H7. apply last_part_is in H7 as (H8 & H9 & H10); [|done..]. by exists ps, ns, last, tl.
  - destruct H6 as (H6 & H7 & H8). exists ps, ns, last, tl.
    assert (Hl : last < 2 ^ 32).
    { assert (256 ^ (4 - N.of_nat (length ns)) ≤ 256 ^ 4); [|change (256 ^ 4) with (2 ^ 32) in *; lia]. apply N.pow_le_mono_r; lia. }
    split; [done|]. split; [done|]. split; [done|]. split; [done|]. split; [done|]. split; [done|]. cbn [app]. by apply last_part_is.
Qed.

(** Init never reports an error. The address is the one that the text says (the text up to
    the first NUL byte); for every other text it is 255.255.255.255. The port is the one
    given. *)
Theorem address_text_exact s port :
  (addr_init s port).1 = 0%Z ∧
  (∀ i, address_text (cstr s) i → ad_ip (addr_init s port).2 = i) ∧
  ((¬ ∃ i, address_text (cstr s) i) → ad_ip (addr_init s port).2 = (255, 255, 255, 255)) ∧
  (port < 2 ^ 16 → addr_port (addr_init s port).2 = port).
Proof.
  split; [done|]. unfold addr_init, inet_addr. cbn [snd ad_ip]. split; [|split].
  - intros i Hi. apply aton_is in Hi. by rewrite Hi.
  - intros Hn. destruct (inet_aton 3 [] (cstr s)) as [i|] eqn:E; [|done]. exfalso. apply Hn. exists i. by apply aton_is.
  - intros Hp. unfold addr_port, ntohs, htons. cbn. rewrite (N.div_mod port 256) at 3 by lia. lia.
Qed.
Print Assumptions address_text_exact.

(** A text says one address. *)
Theorem address_text_one s i j : address_text s i → address_text s j → i = j.
Proof. intros Hi Hj. apply aton_is in Hi, Hj. congruence. Qed.
Print Assumptions address_text_one.

(** 10.0x0102 is 10.0.1.2; [127.1 x] is 127.0.0.1; [08.1.1.1], [1.2.3.4x] and [1.2.65536] are none. *)
Example address_text_ex : address_text (B "10.0x0102") (10, 0, 1, 2) ∧ address_text (B "127.1 x") (127, 0, 0, 1) ∧
  address_text (B "16909060") (1, 2, 3, 4) ∧
  (¬ ∃ i, address_text (B "08.1.1.1") i) ∧ (¬ ∃ i, address_text (B "1.2.3.4x") i) ∧ (¬ ∃ i, address_text (B "1.2.65536") i).
Proof.
  repeat split; try (apply aton_is; by vm_compute); intros [i Hi]; apply aton_is in Hi; by vm_compute in Hi.
Qed.
Example address_parts_ex : address_text (B "10.0x0102") (10, 0, 1, 2).
Proof.
  exists [B "10"; B "0x0102"], [10], 258, []. split; [done|]. split.
  - constructor; [|constructor; [|constructor]].
    + apply (num_dec "1" (B "0")); [done|by_compute].
    + apply (num_hex "x" (B "0102")); [by left|done|by_compute].
  - split; [cbn; lia|]. split; [by repeat constructor|]. split; [done|]. split; [by vm_compute|]. split; [by vm_compute|]. by vm_compute.
Qed.
