(** Proofs about the header model. *)
From Verif.Model Require Export Header.
From Verif.Proof Require Export TextProof.

(** ** One line *)

Lemma split_spaces (s : bytes) : exists n v, s = replicate n SP ++ v /\ head v <> Some SP.
Proof.
  induction s as [|c s IH]; [by exists 0, []|].
  destruct (decide (c = SP)) as [->|Hc].
  - destruct IH as (n & v & -> & Hv). by exists (S n), v.
  - exists 0, (c :: s). split; [done|]. simpl. congruence.
Qed.

Lemma stored_field_exists line : ":"%char ∈ line -> exists kv, stored_field line kv.
Proof.
  intros Hin. destruct (split_at_char _ _ Hin) as (n & w & -> & Hn).
  destruct (split_spaces w) as (k & v & -> & Hv). destruct v as [|c v].
  - rewrite app_nil_r. eexists. by apply sf_blank.
  - exists (n, c :: v). apply sf_value; [|done]. by exists k.
Qed.

Lemma find_first_not_of_spaces n v :
  v <> [] -> head v <> Some SP -> find_first_not_of (replicate n SP ++ v) SP = N.of_nat n.
Proof.
  intros Hne Hv. unfold find_first_not_of.
  assert (H : index_of (fun x => negb (Ascii.eqb x SP)) (replicate n SP ++ v) = Some n).
  { apply index_of_Some. destruct v as [|c v]; [done|]. exists c. split; [|split].
    - rewrite lookup_app_r by (rewrite replicate_length; lia).
      rewrite replicate_length. by rewrite Nat.sub_diag.
    - destruct (Ascii.eqb_spec c SP) as [->|]; done.
    - rewrite take_app_alt by (by rewrite replicate_length). by apply Forall_replicate. }
  by rewrite H.
Qed.

Lemma find_first_not_of_all_spaces n : find_first_not_of (replicate n SP) SP = npos.
Proof.
  unfold find_first_not_of.
  assert (H : index_of (fun x => negb (Ascii.eqb x SP)) (replicate n SP) = None).
  { apply index_of_None. by apply Forall_replicate. }
  by rewrite H.
Qed.

Lemma header_line_none line : ":"%char ∉ line -> header_line line = Ok None.
Proof.
  intros H. unfold header_line. change (B ":") with [":"%char].
  by rewrite str_find_char_none.
Qed.

Lemma header_line_ok line kv : fits line -> stored_field line kv -> header_line line = Ok (Some kv).
Proof.
  intros Hf Hs. unfold header_line. change (B ":") with [":"%char].
  destruct Hs as [line [n v] (k & Hn & Hv & ->) Hne|n k Hn]; cbn [fst snd] in *.
  - destruct (str_find_char ":" n (replicate k SP ++ v) Hf Hn) as [-> Hp].
    destruct (N.eqb_spec (N.of_nat (length n)) npos); [done|].
    rewrite substr_before. cbn [mbind outcome_bind].
    rewrite substr_after_char by done. cbn [mbind outcome_bind].
    rewrite find_first_not_of_spaces by done.
    assert (Hl : (N.of_nat (length n) + 1 + N.of_nat k < 2 ^ 63)%N).
    { unfold fits in Hf. rewrite app_length in Hf. cbn [length] in Hf.
      rewrite app_length, replicate_length in Hf. lia. }
    replace (n ++ ":"%char :: replicate k SP ++ v) with ((n ++ ":"%char :: replicate k SP) ++ v) in *
      by by rewrite <- app_assoc.
    rewrite substr_after; [done|done|].
    rewrite app_length. cbn [length]. rewrite replicate_length.
    change 1%N with (N.of_nat 1). rewrite szadd_nat by lia. rewrite szadd_nat by lia. lia.
  - destruct (str_find_char ":" n (replicate k SP) Hf Hn) as [-> Hp].
    destruct (N.eqb_spec (N.of_nat (length n)) npos); [done|].
    rewrite substr_before. cbn [mbind outcome_bind].
    rewrite substr_after_char by done. cbn [mbind outcome_bind].
    rewrite find_first_not_of_all_spaces.
    assert (Hl : (N.of_nat (length n) + 1 < 2 ^ 63)%N).
    { unfold fits in Hf. rewrite app_length in Hf. cbn [length] in Hf. lia. }
    rewrite substr_after; [done|done|].
    change 1%N with (N.of_nat 1). rewrite szadd_nat by lia. unfold szadd, npos, size_mod. lia.
Qed.

Lemma header_line_total line : fits line -> exists o, header_line line = Ok o.
Proof.
  intros Hf. destruct (decide (":"%char ∈ line)) as [Hin|Hin].
  - destruct (stored_field_exists _ Hin) as [kv Hkv]. exists (Some kv). by apply header_line_ok.
  - exists None. by apply header_line_none.
Qed.

Lemma fields_stored lines kvs :
  Forall2 header_field lines kvs -> Forall (fun kv => kv.2 <> []) kvs ->
  Forall2 stored_field lines kvs.
Proof.
  intros HF. induction HF as [|l kv lines kvs Hl HF IH]; intros Hv; [constructor|].
  apply Forall_cons in Hv as [? ?]. constructor; [by apply sf_value|auto].
Qed.

(** ** Lines *)
Lemma header_lines_app h lines kvs rest :
  Forall fits lines -> Forall2 stored_field lines kvs ->
  header_lines h (lines ++ rest) = header_lines (insert_all h kvs) rest.
Proof.
  intros Hf HF. revert h Hf. induction HF as [|l [k v] lines kvs Hl HF IH]; intros h Hf; [done|].
  apply Forall_cons in Hf as [Hp Hf]. cbn [app header_lines].
  rewrite (header_line_ok _ _ Hp Hl). cbn [mbind outcome_bind]. by rewrite IH.
Qed.

Lemma header_lines_good h lines kvs :
  Forall fits lines -> Forall2 stored_field lines kvs ->
  header_lines h lines = Ok (kSuccess, insert_all h kvs).
Proof.
  intros Hf HF. rewrite <- (app_nil_r lines). by rewrite (header_lines_app _ _ kvs).
Qed.

Lemma header_lines_bad h lines kvs bad rest :
  Forall fits lines -> Forall2 stored_field lines kvs -> ":"%char ∉ bad ->
  header_lines h (lines ++ bad :: rest) = Ok (kLogicErr, insert_all h kvs).
Proof.
  intros Hf HF Hb. rewrite (header_lines_app _ _ kvs) by done. cbn [header_lines].
  by rewrite header_line_none.
Qed.

(** Every list of lines is one of the two cases. *)
Lemma header_lines_cases (lines : list bytes) :
  (exists kvs, Forall2 stored_field lines kvs) \/
  (exists good kvs bad rest, lines = good ++ bad :: rest /\ Forall2 stored_field good kvs /\ ":"%char ∉ bad).
Proof.
  induction lines as [|l lines IH]; [left; by exists []|].
  destruct (decide (":"%char ∈ l)) as [Hin|Hin].
  - destruct (stored_field_exists _ Hin) as [kv Hkv].
    destruct IH as [(kvs & H)|(good & kvs & bad & rest & -> & H & Hb)].
    + left. exists (kv :: kvs). by constructor.
    + right. exists (l :: good), (kv :: kvs), bad, rest. split; [done|]. split; [by constructor|done].
  - right. exists [], [], l, lines. done.
Qed.

Lemma stored_field_colon line kv : stored_field line kv -> ":"%char ∈ line.
Proof. destruct 1 as [line kv (n & _ & _ & ->)|]; set_solver. Qed.

(** ** Parse *)
Lemma header_parse_pieces h s lines :
  fits s -> s <> [] -> pieces CRLF s lines -> header_parse h s = header_lines h lines.
Proof.
  intros Hf Hne Hp. unfold header_parse. destruct s as [|c s]; [done|].
  by rewrite (split_pieces _ _ [] lines).
Qed.

Lemma header_parse_total h s : fits s -> exists rc h', header_parse h s = Ok (rc, h').
Proof.
  intros Hf. destruct s as [|c s]; [simpl; eauto|].
  destruct (split_spec (c :: s) CRLF [] false Hf) as (lines & Hp & _); [done|].
  rewrite (header_parse_pieces _ _ lines) by done.
  pose proof (pieces_fits _ _ _ Hf Hp) as Hfl.
  destruct (header_lines_cases lines) as [(kvs & H)|(good & kvs & bad & rest & -> & H & Hb)].
  - rewrite (header_lines_good _ _ kvs) by done. eauto.
  - apply Forall_app in Hfl as [Hfl _]. rewrite (header_lines_bad _ _ kvs) by done. eauto.
Qed.

Lemma join_nonempty d l : l <> [] -> Forall (fun x => x <> []) l -> join d l <> [].
Proof.
  intros Hne HF. destruct HF as [|x l Hx HF]; [done|]. destruct l; [done|].
  rewrite join_cons. by destruct x.
Qed.

Lemma header_parse_fields h lines kvs :
  fits (join CRLF lines) -> lines <> [] -> Forall one_line lines ->
  Forall2 stored_field lines kvs ->
  header_parse h (join CRLF lines) = Ok (kSuccess, insert_all h kvs).
Proof.
  intros Hf Hne Hl HF. rewrite (header_parse_pieces _ _ lines).
  - apply header_lines_good; [by eapply join_fits_all|done].
  - done.
  - apply join_nonempty; [done|]. apply Forall_forall. intros x Hx ->.
    apply elem_of_list_lookup in Hx as [i Hi].
    destruct (Forall2_lookup_l _ _ _ _ _ HF Hi) as (kv & _ & Hkv).
    apply stored_field_colon in Hkv. by apply elem_of_nil in Hkv.
  - by apply pieces_join_crlf.
Qed.

(** ** Printing *)
Lemma contains_pair_app x y a c b :
  c <> x -> c <> y -> contains [x; y] (a ++ c :: b) -> contains [x; y] a \/ contains [x; y] b.
Proof.
  intros Hx Hy (p & q & H). revert a H. induction p as [|z p IH]; intros a H; simpl in H.
  - destruct a as [|a1 [|a2 a]]; simplify_eq/=. left. by exists [], a.
  - destruct a as [|a1 a]; simplify_eq/=.
    + right. by exists p, q.
    + destruct (IH a) as [(p' & q' & ->)|?]; [done|left|by right]. by eexists (_ :: p'), q'.
Qed.

Lemma contains_nil (x : bytes) : x <> [] -> ~ contains x [].
Proof. intros Hx (a & b & H). by destruct a, x. Qed.

Lemma field_one_line (n v : bytes) : one_line n -> one_line v -> one_line (n ++ B ": " ++ v).
Proof.
  intros Hn Hv Hc. change (B ": " ++ v) with (":"%char :: SP :: v) in Hc.
  apply contains_pair_app in Hc as [Hc|Hc]; [done| |done..].
  apply (contains_pair_app CR LF [] SP v) in Hc as [Hc|Hc]; [|done..].
  by apply contains_nil in Hc.
Qed.

Lemma header_text_join kvs :
  kvs <> [] -> header_text kvs = join CRLF (field_lines kvs) ++ CRLF.
Proof.
  intros Hne. induction kvs as [|kv kvs IH]; [done|]. unfold header_text in *. cbn [flat_map].
  destruct kvs as [|kv' kvs].
  - cbn [flat_map]. unfold field_lines. cbn [map join]. by rewrite app_nil_r, <- !app_assoc.
  - rewrite IH by done. unfold field_lines. cbn [map]. rewrite join_cons. by rewrite <- !app_assoc.
Qed.

(** Names and values that the line format can carry. *)
Definition carried (kv : bytes * bytes) : Prop :=
  ":"%char ∉ kv.1 /\ one_line kv.1 /\ one_line kv.2 /\ head kv.2 <> Some SP.

Lemma carried_field kv : carried kv -> header_field (kv.1 ++ B ": " ++ kv.2) kv.
Proof. intros (H1 & _ & _ & H4). exists 1. done. Qed.

Lemma field_lines_ok kvs :
  Forall (fun kv => carried kv /\ kv.2 <> []) kvs ->
  Forall one_line (field_lines kvs) /\ Forall2 stored_field (field_lines kvs) kvs.
Proof.
  intros HF. split.
  - apply Forall_map. eapply Forall_impl; [exact HF|]. intros kv [(_ & H2 & H3 & _) _]. by apply field_one_line.
  - apply Forall2_fmap_l, Forall_Forall2_diag. eapply Forall_impl; [exact HF|]. intros kv [H1 H2].
    apply sf_value; [by apply carried_field|done].
Qed.

Lemma header_print_parse (it : iter_order) (h : gmap bytes bytes) t :
  valid_order it -> h <> ∅ ->
  map_Forall (fun k v => carried (k, v) /\ v <> []) h ->
  header_to_string it h = t ++ CRLF ++ CRLF -> fits t ->
  header_parse ∅ t = Ok (kSuccess, h).
Proof.
  intros Hit Hne Hc Ht Hf. unfold header_to_string in Ht.
  pose proof (valid_order_nonempty it h Hit Hne) as Hl.
  rewrite header_text_join in Ht by done. rewrite <- app_assoc in Ht. apply app_inv_tail in Ht. subst t.
  assert (HF : Forall (fun kv => carried kv /\ kv.2 <> []) (it h)).
  { apply Forall_forall. intros [k v] Hin. apply (Hc k v). apply elem_of_map_to_list.
    by rewrite <- (Hit h). }
  destruct (field_lines_ok _ HF) as [H1 H2].
  rewrite (header_parse_fields ∅ _ (it h)); [by rewrite (insert_all_map h) by apply Hit|done| |done|done].
  unfold field_lines. intros H. by apply map_eq_nil in H.
Qed.

(** ** Cookies *)
Lemma cookie_loop_ok key pcs kvs :
  Forall fits pcs -> Forall2 cookie_piece pcs kvs ->
  cookie_loop key pcs = Ok (default [] (first_val kvs key)).
Proof.
  intros Hf HF. revert Hf. induction HF as [|p [k v] pcs kvs Hp HF IH]; intros Hf; [done|].
  apply Forall_cons in Hf as [Hf1 Hf]. cbn [cookie_loop first_val].
  destruct Hp as (n & -> & Hsp & Heq & _ & _). cbn [fst snd] in *.
  set (a := replicate n SP ++ k).
  replace (replicate n SP ++ k ++ "="%char :: v) with (a ++ "="%char :: v) in *
    by (unfold a; by rewrite <- app_assoc).
  assert (Ha : "="%char ∉ a).
  { unfold a. rewrite not_elem_of_app. split; [|done]. intros H. by apply elem_of_replicate_inv in H. }
  change (B "=") with ["="%char].
  destruct (str_find_char "=" a v Hf1 Ha) as [-> Hne].
  destruct (N.eqb_spec (N.of_nat (length a)) npos); [done|].
  assert (Hoff : find_first_not_of (a ++ "="%char :: v) SP = N.of_nat n).
  { unfold a. rewrite <- app_assoc. apply find_first_not_of_spaces; [by destruct k|].
    by destruct k. }
  rewrite Hoff.
  assert (Hla : length a = n + length k) by (unfold a; by rewrite app_length, replicate_length).
  assert (Hl : (N.of_nat (length (a ++ "="%char :: v)) < 2 ^ 63)%N) by exact Hf1.
  rewrite app_length in Hl.
  rewrite szsub_nat by lia. rewrite substr_nat by (rewrite app_length; lia).
  cbn [mbind outcome_bind]. rewrite substr_after_char by done. cbn [mbind outcome_bind].
  replace (take (length a - n) (drop n (a ++ "="%char :: v))) with k.
  2:{ unfold a. rewrite <- app_assoc, drop_app_alt by (by rewrite replicate_length).
      rewrite take_app_alt; [done|]. rewrite app_length, replicate_length. lia. }
  unfold streq. destruct (decide (k = key)) as [->|Hk].
  - by rewrite bool_decide_true.
  - rewrite bool_decide_false by done. by apply IH.
Qed.

Lemma cookie_piece_no_semi p kv : cookie_piece p kv -> ";"%char ∉ p.
Proof.
  intros (n & -> & _ & _ & H1 & H2). rewrite !not_elem_of_app, not_elem_of_cons.
  split; [intros H; by apply elem_of_replicate_inv in H|]. done.
Qed.

Lemma get_cookie_ok (h : gmap bytes bytes) pcs kvs key :
  h !! B "Cookie" = Some (join (B ";") pcs) -> fits (join (B ";") pcs) -> pcs <> [] ->
  Forall2 cookie_piece pcs kvs ->
  header_get_cookie_val h key = Ok (default [] (first_val kvs key)).
Proof.
  intros Hh Hf Hne HF. unfold header_get_cookie_val. rewrite Hh.
  rewrite (split_pieces _ _ [] pcs); [|done|done|].
  - cbn [mbind outcome_bind app]. apply cookie_loop_ok; [by eapply join_fits_all|done].
  - apply pieces_join_char; [done|]. clear Hne Hh Hf.
    induction HF as [|p kv pcs kvs Hp HF IH]; constructor; [by eapply cookie_piece_no_semi|done].
Qed.

Lemma cookie_str_shape c :
  exists rest, cookie_str c = ck_key c ++ "="%char :: ck_value c ++ rest /\
    (rest = [] \/ head rest = Some ";"%char).
Proof.
  unfold cookie_str. eexists. split; [reflexivity|].
  destruct (ck_expires c), (ck_path c), (ck_domain c), (ck_secure c), (ck_http_only c); simpl; auto.
Qed.

Lemma set_cookies_shape cs : forall (h : gmap bytes bytes) v,
  h !! B "Set-Cookie" = Some v ->
  exists rest, foldl header_set_cookie h cs !! B "Set-Cookie" = Some (v ++ rest) /\
    (rest = [] \/ head rest = Some ";"%char).
Proof.
  induction cs as [|c cs IH]; intros h v Hv; cbn [foldl].
  - exists []. rewrite app_nil_r. auto.
  - replace (header_set_cookie h c) with (<[B "Set-Cookie" := v ++ B "; " ++ cookie_str c]> h)
      by (unfold header_set_cookie; by rewrite Hv).
    destruct (IH (<[B "Set-Cookie" := v ++ B "; " ++ cookie_str c]> h) (v ++ B "; " ++ cookie_str c))
      as (rest & H & _); [by rewrite lookup_insert|].
    exists (B "; " ++ cookie_str c ++ rest). rewrite H, <- !app_assoc. auto.
Qed.

Lemma browser_cookie_det v kv1 kv2 : browser_cookie v kv1 -> browser_cookie v kv2 -> kv1 = kv2.
Proof.
  destruct kv1 as [k1 v1], kv2 as [k2 v2].
  intros (Hk1 & _ & Hv1 & a1 & E1 & Ha1) (Hk2 & _ & Hv2 & a2 & E2 & Ha2). cbn [fst snd] in *.
  rewrite E1 in E2. clear E1 v.
  assert (H : forall c (x1 x2 y1 y2 : bytes), c ∉ x1 -> c ∉ x2 -> x1 ++ c :: y1 = x2 ++ c :: y2 -> x1 = x2 /\ y1 = y2).
  { intros c x1. induction x1 as [|a x1 IH]; intros x2 y1 y2 H1 H2 E; destruct x2 as [|b x2]; simpl in E.
    - by injection E.
    - injection E as -> _. by apply not_elem_of_cons in H2 as [? _].
    - injection E as -> _. by apply not_elem_of_cons in H1 as [? _].
    - injection E as -> E. apply not_elem_of_cons in H1 as [_ H1]. apply not_elem_of_cons in H2 as [_ H2].
      destruct (IH x2 y1 y2 H1 H2 E) as [-> ->]. done. }
  destruct (H _ _ _ _ _ Hk1 Hk2 E2) as [-> E3].
  destruct Ha1 as [->|Ha1], Ha2 as [->|Ha2].
  - rewrite !app_nil_r in E3. by subst.
  - rewrite app_nil_r in E3. destruct a2 as [|c a2]; [done|]. injection Ha2 as ->. subst v1.
    rewrite not_elem_of_app, not_elem_of_cons in Hv1. naive_solver.
  - rewrite app_nil_r in E3. destruct a1 as [|c a1]; [done|]. injection Ha1 as ->. subst v2.
    rewrite not_elem_of_app, not_elem_of_cons in Hv2. naive_solver.
  - destruct a1 as [|c1 a1], a2 as [|c2 a2]; try done. injection Ha1 as ->. injection Ha2 as ->.
    by destruct (H _ _ _ _ _ Hv1 Hv2 E3) as [-> _].
Qed.
