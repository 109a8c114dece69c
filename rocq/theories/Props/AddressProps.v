(** C67, C92, C93: addresses. *)
From Verif.Model Require Import Address.
From Verif.Lib Require Import DecFacts.

Local Open Scope N_scope.

(** Canonical dotted-quad text. *)
Definition quad (a b c d : N) : bytes := int_to_string (Z.of_N a) ++ B "." ++ int_to_string (Z.of_N b) ++ B "." ++
  int_to_string (Z.of_N c) ++ B "." ++ int_to_string (Z.of_N d).
Definition octet (n : N) : Prop := n < 256.
Definition is_ip (i : ip4) : Prop := let '(a, b, c, d) := i in octet a ∧ octet b ∧ octet c ∧ octet d.
Definition is_addr (a : address) : Prop := octet (ad_port a).1 ∧ octet (ad_port a).2 ∧ is_ip (ad_ip a).

Lemma octet_all (P : N → Prop) : Forall P (map N.of_nat (seq 0 256)) → ∀ n, octet n → P n.
Proof.
  intros HF n Hn. rewrite Forall_forall in HF. apply HF. apply elem_of_list_In, in_map_iff. exists (N.to_nat n).
  split; [lia|]. apply in_seq. unfold octet in Hn. lia.
Qed.
Lemma octet_dec n : octet n → strtoul0 (dec_of_N n) = (n, []) ∧ (head (dec_of_N n) = Some "0"%char → length (dec_of_N n) = 1%nat).
Proof.
  revert n. apply octet_all. apply Forall_forall.
  assert (forallb (λ n, bool_decide (strtoul0 (dec_of_N n) = (n, [])) &&
    (negb (bool_decide (head (dec_of_N n) = Some "0"%char)) || (length (dec_of_N n) =? 1)%nat)) (map N.of_nat (seq 0 256)) = true) as H
    by (vm_compute; reflexivity).
  rewrite forallb_forall in H. intros n Hn. apply elem_of_list_In, H, andb_true_iff in Hn as [H1 H2].
  apply bool_decide_eq_true in H1. split; [done|]. intros Hh. rewrite bool_decide_true in H2 by done. simpl in H2.
  by apply Nat.eqb_eq in H2.
Qed.
Lemma num_run_dot l acc r : Forall (λ c, is_digit c = true) l →
  num_run 10 acc (l ++ "."%char :: r) = ((num_run 10 acc l).1, "."%char :: r).
Proof.
  revert acc. induction l as [|c l IH]; intros acc HF; [done|]. apply Forall_cons in HF as [Hc HF]. cbn [app num_run].
  assert (∃ d, digit_in 10 c = Some d) as [d ->]; [|by apply IH].
  revert Hc. clear. destruct c as [[] [] [] [] [] [] [] []]; vm_compute; intros; try done; by eexists.
Qed.
Lemma strtoul0_octet n : octet n →
  (∀ r, strtoul0 (dec_of_N n ++ "."%char :: r) = (n, "."%char :: r)) ∧ strtoul0 (dec_of_N n) = (n, []) ∧
  (∃ c t, dec_of_N n = c :: t ∧ is_digit c = true).
Proof.
  intros Hn. destruct (octet_dec n Hn) as (H1 & H2).
  destruct (dec_of_N_ok n) as (_ & HF & Hne). destruct (dec_of_N n) as [|z l]; [done|].
  apply Forall_cons in HF as [Hz HF]. split_and!; [|done|eauto].
  assert (∀ acc r, num_run 10 acc (z :: l ++ "."%char :: r) = ((num_run 10 acc (z :: l)).1, "."%char :: r)) as H10.
  { intros acc r. apply (num_run_dot (z :: l)). by constructor. }
  intros r. unfold strtoul0 in *. cbn [app]. destruct (Ascii.eqb_spec z "0") as [->|Hz0].
  - destruct l as [|? ?]; [|by specialize (H2 eq_refl)]. destruct r; vm_compute in H1 |- *; congruence.
  - destruct l as [|x [|y l]]; cbn [app] in *.
    + destruct r; rewrite (H10 0); by rewrite H1.
    + rewrite (H10 0); by rewrite H1.
    + rewrite (H10 0); by rewrite H1.
Qed.

Lemma dec_octet_text n c : octet n → c ∈ dec_of_N n → is_digit c = true.
Proof. intros _ Hc. destruct (dec_of_N_ok n) as (_ & HF & _). rewrite Forall_forall in HF. auto. Qed.
Lemma cstr_id s : (∀ c, c ∈ s → c ≠ NUL) → cstr s = s.
Proof.
  induction s as [|c s IH]; intros H; simpl; [done|]. destruct (Ascii.eqb_spec c NUL) as [->|]; [exfalso; apply (H NUL); [set_solver|done]|].
  f_equal. apply IH. set_solver.
Qed.
Lemma ntoa_text i c : is_ip i → c ∈ inet_ntoa i → is_digit c = true ∨ c = "."%char.
Proof.
  destruct i as [[[a b] x] d]. intros (Ha & Hb & Hx & Hd) Hc. unfold inet_ntoa in Hc.
  repeat setoid_rewrite elem_of_app in Hc. simpl in Hc. rewrite !elem_of_list_singleton in Hc.
  destruct Hc as [?|[?|[?|[?|[?|[?|?]]]]]]; eauto using dec_octet_text.
Qed.
Lemma aton_step more parts n r : octet n →
  inet_aton (S more) parts (dec_of_N n ++ "."%char :: r) = inet_aton more (parts ++ [n]) r.
Proof.
  intros Hn. destruct (strtoul0_octet n Hn) as (H1 & _ & (c & t & E & Hc)).
  specialize (H1 r). rewrite E in *. cbn [inet_aton app] in *. rewrite Hc. cbn [negb]. rewrite H1.
  unfold octet in Hn. destruct (N.leb_spec (2 ^ 32) n); [lia|]. simpl. destruct (N.ltb_spec 255 n); [lia|]. done.
Qed.
Lemma aton_last parts n : octet n → inet_aton 0 parts (dec_of_N n) = last_part parts n.
Proof.
  intros Hn. destruct (strtoul0_octet n Hn) as (_ & H1 & (c & t & E & Hc)).
  rewrite E in *. cbn [inet_aton]. rewrite Hc. cbn [negb]. rewrite H1.
  unfold octet in Hn. destruct (N.leb_spec (2 ^ 32) n); [lia|]. done.
Qed.
Lemma inet_round i : is_ip i → inet_addr (inet_ntoa i) = i.
Proof.
  intros Hi. unfold inet_addr. rewrite cstr_id.
  2: { intros c Hc ->. by destruct (ntoa_text _ _ Hi Hc). }
  destruct i as [[[a b] c] d]. destruct Hi as (Ha & Hb & Hc & Hd). unfold inet_ntoa.
  change (B ".") with ["."%char]. cbn [app]. rewrite !aton_step, aton_last by done.
  assert (last_part ([a; b; c]) d = Some (a, b, c, d)) as E.
  { unfold last_part. unfold octet in Hd. by rewrite (proj2 (N.ltb_lt d (2 ^ 8))) by (change (2 ^ 8) with 256; lia). }
  cbn [app]. by rewrite E.
Qed.
Lemma quad_ntoa a b c d : quad a b c d = inet_ntoa (a, b, c, d).
Proof.
  assert (∀ n, int_to_string (Z.of_N n) = dec_of_N n) as E.
  { intros n. unfold int_to_string. destruct (Z.ltb_spec (Z.of_N n) 0); [lia|]. by rewrite N2Z.id. }
  unfold quad, inet_ntoa. by rewrite !E.
Qed.

(** * C67: round trip *)
Theorem address_round_trip a b c d port :
  octet a → octet b → octet c → octet d → port < 2 ^ 16 →
  let x := (addr_init (quad a b c d) port).2 in
  addr_ip x = quad a b c d ∧ addr_port x = port ∧
  addr_to_string x = quad a b c d ++ B ":" ++ int_to_string (Z.of_N port) ∧
  ad_ip x = (a, b, c, d).
Proof.
  intros Ha Hb Hc Hd Hp. simpl.
  assert (inet_addr (quad a b c d) = (a, b, c, d)) as E by (rewrite quad_ntoa; by apply inet_round).
  assert (ntohs (htons port) = port) as Ep.
  { unfold ntohs, htons. simpl. rewrite (N.div_mod port 256) at 3 by lia. lia. }
  unfold addr_to_string, addr_ip, addr_port. simpl. rewrite E, Ep, <- quad_ntoa. done.
Qed.
Print Assumptions address_round_trip.
Example address_ex : addr_to_string (addr_init (B "192.168.0.255") 8080).2 = B "192.168.0.255:8080" ∧
  quad 192 168 0 255 = B "192.168.0.255" ∧ ad_port (addr_init (B "1.2.3.4") 258).2 = (1, 2).
Proof. by vm_compute. Qed.

(** Two addresses print the same only if they are the same. *)
Lemma split_at (x : ascii) l1 r1 l2 r2 : x ∉ l1 → x ∉ l2 → l1 ++ x :: r1 = l2 ++ x :: r2 → l1 = l2 ∧ r1 = r2.
Proof.
  revert l2. induction l1 as [|a l1 IH]; intros [|b l2] H1 H2 E; simpl in E.
  - by injection E as ->.
  - injection E as -> E. set_solver.
  - injection E as -> E. set_solver.
  - injection E as -> E. destruct (IH l2) as [-> ->]; set_solver.
Qed.
Theorem address_string_injective x y :
  is_addr x → is_addr y → addr_to_string x = addr_to_string y → x = y.
Proof.
  intros (Hx1 & Hx2 & Hx3) (Hy1 & Hy2 & Hy3) E. unfold addr_to_string in E.
  assert (∀ i, is_ip i → ":"%char ∉ inet_ntoa i) as Hcol.
  { intros i Hi Hin. by destruct (ntoa_text _ _ Hi Hin). }
  apply split_at in E as [E1 E2]; [|by apply Hcol..].
  assert (ad_ip x = ad_ip y) as Ei.
  { rewrite <- (inet_round (ad_ip x)), <- (inet_round (ad_ip y)) by done. unfold addr_ip in E1. by rewrite E1. }
  assert (addr_port x = addr_port y) as Ep.
  { destruct x as [[p q] i], y as [[p' q'] i']. unfold addr_port, ntohs, octet in *. simpl in *.
    assert (Z.of_N (p * 256 + q) = Z.of_N (p' * 256 + q'))%Z; [|lia].
    assert (Ok (Z.of_N (p * 256 + q)) = Ok (Z.of_N (p' * 256 + q'))) as [=] ; [|lia].
    rewrite <- !stoi_int_to_string by (unfold int_min, int_max; lia). by rewrite E2. }
  destruct x as [[p q] i], y as [[p' q'] i']. unfold addr_port, ntohs, octet in *. simpl in *. subst.
  assert (p = p') as -> by lia. assert (q = q') as -> by lia. done.
Qed.
Print Assumptions address_string_injective.
Example address_string_injective_ex :
  is_addr (addr_init (B "1.12.3.4") 5).2 ∧ is_addr (addr_init (B "11.2.3.4") 5).2 ∧
  addr_to_string (addr_init (B "1.12.3.4") 5).2 ≠ addr_to_string (addr_init (B "11.2.3.4") 5).2.
Proof. by vm_compute. Qed.

(** * C92: a text that is no address is reported *)
Definition bad_ip_full : Prop := ∀ s port,
  (∀ a b c d, octet a → octet b → octet c → octet d → s ≠ quad a b c d) → (addr_init s port).1 ≠ 0%Z.
Lemma not_quad s a b c d : (length (filter (λ x, x = "."%char) s) ≠ 3)%nat → octet a → octet b → octet c → octet d → s ≠ quad a b c d.
Proof.
  intros Hl Ha Hb Hc Hd ->. apply Hl. rewrite quad_ntoa. unfold inet_ntoa.
  assert (∀ n, octet n → filter (λ x, x = "."%char) (dec_of_N n) = []) as E.
  { intros n Hn. assert (Forall (λ c, c ≠ "."%char) (dec_of_N n)) as HF.
    { apply Forall_forall. intros x Hx ->. by apply dec_octet_text in Hx. }
    clear -HF. induction HF as [|x l Hx HF IH]; [done|]. rewrite filter_cons, decide_False by done. done. }
  rewrite !filter_app, !E by done. done.
Qed.
Theorem bad_ip_refuted : ¬ bad_ip_full.
Proof. intros H. apply (H (B "localhost") 80); [|done]. intros. by apply not_quad. Qed.
Print Assumptions bad_ip_refuted.

(** A text that does not begin with a digit gives the broadcast address (never
    that of some other host). *)
Theorem bad_ip_partial s port :
  match s with c :: _ => is_digit c = false | [] => True end →
  addr_ip (addr_init s port).2 = B "255.255.255.255".
Proof.
  intros H. unfold addr_init, addr_ip, inet_addr. cbn [snd ad_ip].
  assert (inet_aton 3 [] (cstr s) = None) as ->; [|done].
  destruct s as [|c s]; [done|]. simpl. destruct (Ascii.eqb c NUL); [done|]. simpl. by rewrite H.
Qed.
Print Assumptions bad_ip_partial.
(** Accepted although not dotted quads: octal, fewer parts, text after a space. *)
Example bad_ip_ex :
  addr_ip (addr_init (B "localhost") 80).2 = B "255.255.255.255" ∧
  addr_ip (addr_init (B "010.0.0.1") 80).2 = B "8.0.0.1" ∧ addr_ip (addr_init (B "0x7f.1") 80).2 = B "127.0.0.1" ∧
  addr_ip (addr_init (B "1.2.3.4 x") 80).2 = B "1.2.3.4" ∧ addr_ip (addr_init (B "1.2.3.256") 80).2 = B "255.255.255.255" ∧
  addr_ip (addr_init (B "1.2.3.4.5") 80).2 = B "255.255.255.255" ∧ addr_ip (addr_init (B "1.2.3.") 80).2 = B "255.255.255.255".
Proof. by vm_compute. Qed.

(** * C93: InitWithDomain *)
Theorem domain_ok i port a :
  is_ip i → port < 2 ^ 16 →
  let r := addr_init_domain (Some i) port a in r.1 = 0%Z ∧ ad_ip r.2 = i ∧ addr_port r.2 = port.
Proof.
  intros Hi Hp. simpl. split; [done|]. split; [by apply inet_round|]. unfold addr_port, ntohs, htons. simpl.
  rewrite (N.div_mod port 256) at 3 by lia. lia.
Qed.
Print Assumptions domain_ok.
Definition domain_fail_keeps_full : Prop := ∀ port a, (addr_init_domain None port a).1 ≠ 0%Z ∧ (addr_init_domain None port a).2 = a.
(** A failure is reported, but the port has been changed. *)
Theorem domain_fail_keeps_refuted : ¬ domain_fail_keeps_full.
Proof. intros H. destruct (H 8080 addr_new) as [_ Ha]. by vm_compute in Ha. Qed.
Print Assumptions domain_fail_keeps_refuted.
Theorem domain_fail_partial port a :
  (addr_init_domain None port a).1 ≠ 0%Z ∧ addr_ip (addr_init_domain None port a).2 = addr_ip a.
Proof. done. Qed.
Print Assumptions domain_fail_partial.
Example domain_ex : addr_to_string (addr_init_domain (Some (93, 184, 216, 34)) 80 addr_new).2 = B "93.184.216.34:80" ∧
  addr_to_string (addr_init_domain None 80 addr_new).2 = B "0.0.0.0:80".
Proof. by vm_compute. Qed.
