(** Proofs about the response model. *)
From Verif.Proof Require Export ReqProof.

(** ** Status codes *)
Lemma status_of_num_num c : status_of_num (status_num c) = c.
Proof. by destruct c. Qed.

Lemma status_num_of_num n : status_of_num n <> sUNKNOWN -> status_num (status_of_num n) = n.
Proof.
  unfold status_of_num.
  repeat (case_match; [intros _; simpl; symmetry; by apply Z.eqb_eq|]). done.
Qed.

Lemma status_of_str_str c : status_of_str (status_str c) = c.
Proof. by destruct c. Qed.

Lemma status_str_of_str s : status_of_str s <> sUNKNOWN -> status_str (status_of_str s) = s.
Proof.
  unfold status_of_str. intros H.
  repeat (destruct (streq s _) eqn:E; [apply streq_true in E; by subst|clear E]). done.
Qed.

(** ** Parse *)

(** The part of [HttpResp::Parse] after the message has been cut up. *)
Definition resp_line (r : resp) (first hdr body : bytes) : outcome (Z * resp) :=
  let r1 := Resp (rs_status r) (rs_version r) (rs_header r) body in
  let sp1 := str_find first (B " ") 0 in
  if (sp1 =? npos)%N then Ok (kLogicErr, r1)
  else
  let sp2 := str_find first (B " ") (szadd sp1 1) in
  if (sp2 =? npos)%N then Ok (kLogicErr, r1)
  else
  ver ← substr first 0 sp1;
  code ← substr first (szadd sp1 1) (szsub (szsub sp2 sp1) 1);
  _reason ← substr_from first (szadd sp2 1);
  match stoi code with
  | Ok n =>
      hp ← header_parse (rs_header r) hdr;
      let '(hrc, h) := hp in
      Ok (if (hrc =? kSuccess)%Z then kSuccess else hrc, Resp (status_of_num n) (to_version ver) h body)
  | _ => Ok (kLogicErr, r1)
  end.

Lemma crlf_lines_join l ls : crlf_lines (l :: ls) = join CRLF (l :: ls) ++ CRLF.
Proof.
  revert l. induction ls as [|l' ls IH]; intros l.
  - unfold crlf_lines. cbn. by rewrite app_nil_r.
  - change (crlf_lines (l :: l' :: ls)) with ((l ++ CRLF) ++ crlf_lines (l' :: ls)).
    rewrite join_cons, IH. by rewrite <- !app_assoc.
Qed.

Definition resp_block (hdrs : list bytes) (body : bytes) : bytes :=
  match hdrs with [] => CRLF ++ body | _ => join CRLF hdrs end.

Lemma szsub_wrap a b : (a < b)%N -> (b <= 2 ^ 64)%N -> szsub a b = (2 ^ 64 + a - b)%N.
Proof.
  intros H Hb. unfold szsub, size_mod in *. rewrite (N.mod_small (_ - _)); lia.
Qed.

Lemma szsub_le a b : (b <= a)%N -> (a < 2 ^ 64)%N -> szsub a b = (a - b)%N.
Proof.
  intros H Ha. rewrite <- (N2Nat.id a), <- (N2Nat.id b). rewrite szsub_nat; lia.
Qed.

Lemma resp_parse_message r s first hdrs body :
  fits s -> message s first hdrs body ->
  resp_parse r s = resp_line r first (resp_block hdrs body) body.
Proof.
  intros Hf Hm.
  pose proof (message_find_crlf _ _ _ _ Hm) as H1.
  pose proof (message_find_crlf2 _ _ _ _ Hm) as H2.
  destruct Hm as (Hs & Hone & HF).
  assert (Hlen : length s = length first + 2 + length (crlf_lines hdrs) + 2 + length body).
  { rewrite Hs, !app_length. simpl. lia. }
  assert (Hb : (N.of_nat (length s) < 2 ^ 63)%N) by exact Hf.
  unfold resp_parse. destruct s as [|c s']; [simpl in Hlen; lia|].
  set (s := c :: s') in *. rewrite !str_find_0, H1, H2. cbn [opt_pos].
  destruct (N.eqb_spec (N.of_nat (length first)) npos) as [E|_].
  { exfalso. revert E. apply (lt_npos s); [done|lia]. }
  assert (Ht : substr s 0 (N.of_nat (length first)) = Ok first) by (rewrite Hs; apply substr_before).
  rewrite Ht. cbn [mbind outcome_bind].
  change 2%N with (N.of_nat 2). change 4%N with (N.of_nat 4). rewrite !szadd_nat by lia.
  assert (Hd : drop (length first + 2) s = crlf_lines hdrs ++ CRLF ++ body).
  { rewrite Hs, <- drop_drop, drop_app. done. }
  assert (Hblk : substr s (N.of_nat (length first + 2))
      (szsub (szsub (N.of_nat (length first + length (crlf_lines hdrs))) (N.of_nat (length first))) (N.of_nat 2))
    = Ok (resp_block hdrs body)).
  { rewrite szsub_nat by lia.
    replace (length first + length (crlf_lines hdrs) - length first) with (length (crlf_lines hdrs)) by lia.
    destruct hdrs as [|l ls].
    - cbn [crlf_lines map concat length]. rewrite szsub_wrap by lia.
      rewrite substr_ok by lia. rewrite Hd. cbn [crlf_lines map concat app resp_block].
      unfold size. rewrite N.min_r by lia. rewrite take_ge; [done|].
      change (length (crlf_lines [])) with 0 in Hlen. change (length (CRLF ++ body)) with (2 + length body). lia.
    - assert (Hl2 : length (crlf_lines (l :: ls)) = length (join CRLF (l :: ls)) + 2).
      { rewrite crlf_lines_join, app_length. done. }
      rewrite Hl2 at 1. rewrite szsub_nat by lia.
      replace (length (join CRLF (l :: ls)) + 2 - 2) with (length (join CRLF (l :: ls))) by lia.
      rewrite substr_nat by lia. rewrite Hd, crlf_lines_join, <- app_assoc, take_app. done. }
  rewrite Hblk. cbn [mbind outcome_bind].
  rewrite substr_from_nat by (done || lia). cbn [mbind outcome_bind].
  assert (Hbd : drop (length first + length (crlf_lines hdrs) + 4) s = body).
  { replace (length first + length (crlf_lines hdrs) + 4)
      with ((length first + 2) + (length (crlf_lines hdrs) + 2)) by lia.
    rewrite <- drop_drop, Hd, <- drop_drop, drop_app. done. }
  rewrite Hbd. done.
Qed.

(** No blank line: the "end of headers" position is npos, the body starts at
    byte 3 of the text. *)
Lemma resp_parse_unterminated r first rest :
  fits (first ++ CRLF ++ rest) -> one_line first -> ~ contains CRLFCRLF (first ++ CRLF ++ rest) ->
  resp_parse r (first ++ CRLF ++ rest) =
    if decide (first = [] /\ rest = []) then Throw OutOfRange
    else resp_line r first rest (drop 3 (first ++ CRLF ++ rest)).
Proof.
  intros Hf H1 H2.
  assert (HF1 : find_idx CRLF (first ++ CRLF ++ rest) = Some (length first)) by by apply find_idx_pair.
  apply find_idx_None_contains in H2.
  set (s := first ++ CRLF ++ rest) in *.
  assert (Hlen : length s = length first + 2 + length rest) by (unfold s; rewrite !app_length; simpl; lia).
  assert (Hb : (N.of_nat (length s) < 2 ^ 63)%N) by exact Hf.
  unfold resp_parse. destruct s as [|c s'] eqn:Es; [simpl in Hlen; lia|]. rewrite <- Es in *.
  rewrite !str_find_0, HF1, H2. cbn [opt_pos].
  destruct (N.eqb_spec (N.of_nat (length first)) npos) as [E|_].
  { exfalso. revert E. apply (lt_npos s); [by rewrite Es in *|lia]. }
  assert (Hs : s = first ++ CRLF ++ rest) by done.
  assert (Ht : substr s 0 (N.of_nat (length first)) = Ok first) by (apply substr_before).
  rewrite Ht. cbn [mbind outcome_bind].
  change 2%N with (N.of_nat 2). rewrite !szadd_nat by lia.
  rewrite substr_ok by lia.
  assert (Hd : drop (length first + 2) s = rest).
  { rewrite Hs, <- drop_drop, drop_app. done. }
  rewrite Hd. cbn [mbind outcome_bind].
  rewrite take_ge.
  2:{ rewrite N.min_r; [unfold size; lia|]. pose proof npos_val. unfold size.
      rewrite (szsub_le npos) by lia. rewrite szsub_le by lia. rewrite Hlen in *. lia. }
  change (szadd npos 4) with (N.of_nat 3).
  destruct (decide (first = [] /\ rest = [])) as [[-> ->]|Hne].
  - assert (length s = 2) by done. 
    assert (Hth : substr_from s (N.of_nat 3) = Throw OutOfRange).
    { unfold substr_from. apply substr_throw. unfold size. lia. }
    by rewrite Hth.
  - rewrite substr_from_nat; [done|done|].
    rewrite Hlen. clear -Hne. destruct first; [|simpl; lia]. destruct rest; [naive_solver|simpl; lia].
Qed.

Lemma resp_parse_no_line r s : ~ contains CRLF s -> resp_parse r s = Ok (kLogicErr, r).
Proof.
  intros H. unfold resp_parse. destruct s as [|c s]; [done|].
  rewrite !str_find_0. by rewrite (proj2 (find_idx_None_contains CRLF _) H).
Qed.

Lemma resp_line_ok r first hdr body ver code reason :
  fits first -> status_line first ver code reason ->
  resp_line r first hdr body =
    match stoi code with
    | Ok n => hp ← header_parse (rs_header r) hdr;
              let '(hrc, h) := hp in
              Ok (hrc, Resp (status_of_num n) (to_version ver) h body)
    | _ => Ok (kLogicErr, Resp (rs_status r) (rs_version r) (rs_header r) body)
    end.
Proof.
  intros Hf (Hs & Hv & Hc). unfold resp_line. change (B " ") with [SP].
  assert (Hb : (N.of_nat (length first) < 2 ^ 63)%N) by exact Hf.
  assert (Hlen : length first = length ver + 1 + length code + 1 + length reason).
  { rewrite Hs, !app_length. simpl. rewrite app_length. simpl. lia. }
  assert (Hf1 : str_find first [SP] 0 = N.of_nat (length ver)).
  { rewrite Hs. apply str_find_char; [by rewrite <- Hs|done]. }
  rewrite Hf1.
  destruct (N.eqb_spec (N.of_nat (length ver)) npos) as [E|_].
  { exfalso. revert E. apply (lt_npos first); [done|lia]. }
  change 1%N with (N.of_nat 1). rewrite !szadd_nat by lia.
  assert (Hd : drop (length ver + 1) first = code ++ SP :: reason).
  { rewrite Hs, <- drop_drop, drop_app. done. }
  assert (Hf2 : str_find first [SP] (N.of_nat (length ver + 1)) = N.of_nat (length ver + 1 + length code)).
  { rewrite str_find_at by lia. rewrite Hd, find_idx_single by done. lia. }
  rewrite Hf2.
  destruct (N.eqb_spec (N.of_nat (length ver + 1 + length code)) npos) as [E|_].
  { exfalso. revert E. apply (lt_npos first); [done|lia]. }
  assert (Hver : substr first 0 (N.of_nat (length ver)) = Ok ver) by (rewrite Hs; apply substr_before).
  rewrite Hver. cbn [mbind outcome_bind].
  rewrite !szsub_nat by lia. rewrite substr_nat by lia. rewrite Hd.
  replace (length ver + 1 + length code - length ver - 1) with (length code) by lia.
  rewrite take_app. cbn [mbind outcome_bind].
  rewrite szadd_nat by lia. rewrite substr_from_nat by (done || lia). cbn [mbind outcome_bind].
  destruct (stoi code) as [n| | | | |]; try done.
  destruct (header_parse (rs_header r) hdr) as [[hrc h]| | | | |]; try done.
  cbn [mbind outcome_bind]. by destruct (Z.eqb_spec hrc kSuccess) as [->|].
Qed.

Lemma resp_line_bad r first hdr body :
  fits first -> (forall ver code reason, ~ status_line first ver code reason) ->
  resp_line r first hdr body = Ok (kLogicErr, Resp (rs_status r) (rs_version r) (rs_header r) body).
Proof.
  intros Hf Hno. unfold resp_line. change (B " ") with [SP].
  destruct (decide (SP ∈ first)) as [Hin|Hin].
  2:{ by rewrite str_find_char_none. }
  destruct (split_at_char _ _ Hin) as (a & b & -> & Ha).
  destruct (str_find_char SP a b Hf Ha) as [-> Hp].
  destruct (N.eqb_spec (N.of_nat (length a)) npos); [done|].
  assert (Hb : (N.of_nat (length (a ++ SP :: b)) < 2 ^ 63)%N) by exact Hf.
  assert (Hlen : length (a ++ SP :: b) = length a + 1 + length b) by (rewrite app_length; simpl; lia).
  change 1%N with (N.of_nat 1). rewrite szadd_nat by lia.
  rewrite str_find_at by lia. rewrite <- drop_drop, drop_app. cbn [drop].
  rewrite drop_0. destruct (find_idx [SP] b) as [i|] eqn:E; [|done].
  exfalso. assert (Hb2 : SP ∈ b) by (apply contains_single, find_idx_contains; by rewrite E).
  destruct (split_at_char _ _ Hb2) as (c & d & -> & Hc). by apply (Hno a c d).
Qed.

Lemma cut_at_char_inj c (x1 x2 y1 y2 : bytes) :
  c ∉ x1 -> c ∉ x2 -> x1 ++ c :: y1 = x2 ++ c :: y2 -> x1 = x2 /\ y1 = y2.
Proof.
  revert x2. induction x1 as [|a x1 IH]; intros [|b x2] H1 H2 E; cbn [app] in E.
  - by injection E.
  - injection E as <- _. set_solver.
  - injection E as <- _. set_solver.
  - injection E as <- E. apply not_elem_of_cons in H1 as [_ H1]. apply not_elem_of_cons in H2 as [_ H2].
    destruct (IH x2 H1 H2 E) as [-> ->]. done.
Qed.

Lemma status_line_dec first :
  (exists ver code reason, status_line first ver code reason) \/
  (forall ver code reason, ~ status_line first ver code reason).
Proof.
  destruct (decide (SP ∈ first)) as [Hin|Hin].
  2:{ right. intros ver code reason (-> & _). apply Hin. set_solver. }
  destruct (split_at_char _ _ Hin) as (a & b & -> & Ha).
  destruct (decide (SP ∈ b)) as [Hin2|Hin2].
  - destruct (split_at_char _ _ Hin2) as (c & d & -> & Hc). left. by exists a, c, d.
  - right. intros ver code reason (E & Hv & _).
    assert (a = ver /\ b = code ++ SP :: reason) as [-> ->].
    { by apply (cut_at_char_inj SP). }
    apply Hin2. set_solver.
Qed.

Lemma status_line_det first v1 c1 r1 v2 c2 r2 :
  status_line first v1 c1 r1 -> status_line first v2 c2 r2 -> v1 = v2 /\ c1 = c2 /\ r1 = r2.
Proof.
  intros (E1 & Hv1 & Hc1) (E2 & Hv2 & Hc2). rewrite E1 in E2.
  apply cut_at_char_inj in E2 as [-> E2]; [|done|done]. apply cut_at_char_inj in E2 as [-> ->]; done.
Qed.

Lemma resp_line_total r first hdr body :
  fits first -> fits hdr -> is_ok (resp_line r first hdr body).
Proof.
  intros Hf Hh. destruct (status_line_dec first) as [(v & c & re & Hl)|Hno].
  - rewrite (resp_line_ok _ _ _ _ _ _ _ Hf Hl). destruct (stoi c); try by eexists.
    destruct (header_parse_total (rs_header r) hdr Hh) as (rc & h' & ->). by eexists.
  - rewrite resp_line_bad by done. by eexists.
Qed.

Lemma crlf_cut s : contains CRLF s -> exists first rest, s = first ++ CRLF ++ rest /\ one_line first.
Proof.
  intros H. destruct (find_idx CRLF s) as [i|] eqn:E.
  - exists (take i s), (drop (i + 2) s). split; [by apply (find_idx_split CRLF)|].
    by apply (find_idx_before CRLF) in E.
  - by apply find_idx_None_contains in E.
Qed.

Lemma fits_resp_block s first hdrs body :
  fits s -> message s first hdrs body -> fits first /\ fits (resp_block hdrs body).
Proof.
  intros Hf (-> & _). split; [by apply fits_app_l in Hf|].
  do 2 apply fits_app_r in Hf. destruct hdrs as [|l ls]; [done|]. rewrite crlf_lines_join in Hf.
  rewrite <- app_assoc in Hf. by apply fits_app_l in Hf.
Qed.

Lemma resp_parse_outcome r s :
  fits s -> (s = CRLF /\ resp_parse r s = Throw OutOfRange) \/ (s <> CRLF /\ is_ok (resp_parse r s)).
Proof.
  intros Hf. destruct (find_idx CRLFCRLF s) as [i|] eqn:E2.
  - assert (Hc : contains CRLFCRLF s) by (apply find_idx_contains; by rewrite E2).
    destruct (message_exists (length s) s ltac:(lia) Hc) as (first & hdrs & body & Hm).
    right. split. { intros ->. done. }
    rewrite (resp_parse_message _ _ _ _ _ Hf Hm).
    destruct (fits_resp_block _ _ _ _ Hf Hm). by apply resp_line_total.
  - apply find_idx_None_contains in E2. destruct (find_idx CRLF s) as [i|] eqn:E1.
    + destruct (crlf_cut s) as (first & rest & -> & H1); [apply find_idx_contains; by rewrite E1|].
      rewrite resp_parse_unterminated by done.
      destruct (decide (first = [] /\ rest = [])) as [[-> ->]|Hne]; [by left|].
      right. split.
      { intros E. destruct first as [|a [|b first]]; [|done|].
        - injection E as E. naive_solver.
        - apply (f_equal length) in E. simpl in E. rewrite app_length in E. simpl in E. lia. }
      apply resp_line_total; [by apply fits_app_l in Hf|by do 2 apply fits_app_r in Hf].
    + apply find_idx_None_contains in E1. right. split.
      { intros ->. apply E1. by exists [], []. }
      rewrite resp_parse_no_line by done. by eexists.
Qed.

(** ** Build *)
Definition resp_built_header (r : resp) : gmap bytes bytes :=
  <[B "Content-Length" := int_to_string (to_int32 (Z.of_N (size (rs_body r))))]> (rs_header r).

Definition resp_built_line (r : resp) : bytes :=
  version_str (rs_version r) ++ SP :: int_to_string (status_num (rs_status r)) ++ SP :: status_str (rs_status r).

Lemma resp_build_ok hit r out :
  rs_status r <> sUNKNOWN ->
  resp_build hit r out =
    (kSuccess, Resp (rs_status r) (rs_version r) (resp_built_header r) (rs_body r),
     resp_built_line r ++ CRLF ++ crlf_lines (field_lines (hit (resp_built_header r))) ++ CRLF ++ rs_body r).
Proof.
  intros Hs. unfold resp_build. rewrite decide_False by done.
  unfold resp_built_header, header_set_content_length, header_add. rewrite crlf_field_lines.
  set (h := <[B "Content-Length" := _]> _). f_equal.
  unfold header_to_string, resp_built_line. change (B " ") with [SP].
  rewrite <- !app_assoc. cbn [app]. rewrite <- !app_assoc. done.
Qed.

Lemma status_str_no_cr c : CR ∉ status_str c.
Proof. destruct c; by_compute. Qed.

Lemma resp_built_line_ok r :
  status_line (resp_built_line r) (version_str (rs_version r)) (int_to_string (status_num (rs_status r)))
    (status_str (rs_status r)) /\ one_line (resp_built_line r).
Proof.
  assert (Hn : SP ∉ int_to_string (status_num (rs_status r)) /\ CR ∉ int_to_string (status_num (rs_status r))).
  { split; intros [H|H]%int_to_string_chars; done. }
  split.
  - split; [done|]. split; [by destruct (version_str_chars (rs_version r))|]. by destruct Hn.
  - apply no_cr_one_line. unfold resp_built_line.
    rewrite !not_elem_of_app, !not_elem_of_cons, !not_elem_of_app, !not_elem_of_cons.
    pose proof (status_str_no_cr (rs_status r)). destruct (version_str_chars (rs_version r)).
    destruct Hn. done.
Qed.

(** What a response's headers may be: as for requests, without the Host default. *)
Definition resp_sendable (h : gmap bytes bytes) : Prop :=
  forall k v, h !! k = Some v -> k <> B "Content-Length" -> carried (k, v) /\ v <> [].

Lemma resp_built_carried r :
  resp_sendable (rs_header r) ->
  map_Forall (fun k v => carried (k, v) /\ v <> []) (resp_built_header r).
Proof.
  intros Hs k v Hk. unfold resp_built_header in Hk.
  destruct (decide (k = B "Content-Length")) as [->|Hne].
  - rewrite lookup_insert in Hk. injection Hk as <-. apply carried_number.
  - rewrite lookup_insert_ne in Hk by done. by apply Hs.
Qed.

Lemma resp_built_message hit r :
  valid_order hit -> resp_sendable (rs_header r) ->
  message (resp_built_line r ++ CRLF ++ crlf_lines (field_lines (hit (resp_built_header r))) ++ CRLF ++ rs_body r)
    (resp_built_line r) (field_lines (hit (resp_built_header r))) (rs_body r) /\
  Forall2 stored_field (field_lines (hit (resp_built_header r))) (hit (resp_built_header r)) /\
  Forall one_line (field_lines (hit (resp_built_header r))) /\
  field_lines (hit (resp_built_header r)) <> [].
Proof.
  intros Hit Hs. pose proof (resp_built_carried r Hs) as Hc.
  assert (HF : Forall (fun kv => carried kv /\ kv.2 <> []) (hit (resp_built_header r)))
    by (by apply order_Forall).
  split; [|split; [|split]].
  - split; [done|]. split; [apply resp_built_line_ok|]. apply field_lines_message.
    eapply Forall_impl; [exact HF|]. by intros kv [? _].
  - by destruct (field_lines_ok _ HF).
  - by destruct (field_lines_ok _ HF).
  - unfold field_lines. intros E. apply map_eq_nil in E. revert E. apply valid_order_nonempty; [done|].
    unfold resp_built_header. apply insert_non_empty.
Qed.

Lemma resp_round_trip hit r out msg r1 :
  valid_order hit ->
  resp_build hit r out = (kSuccess, r1, msg) ->
  fits msg -> resp_sendable (rs_header r) ->
  resp_parse resp_new msg =
    Ok (kSuccess, Resp (rs_status r) (rs_version r) (resp_built_header r) (rs_body r)) /\
  r1 = Resp (rs_status r) (rs_version r) (resp_built_header r) (rs_body r).
Proof.
  intros Hit Hb Hf Hsend.
  assert (Hst : rs_status r <> sUNKNOWN).
  { intros E. unfold resp_build in Hb. by rewrite E in Hb. }
  rewrite resp_build_ok in Hb by done. injection Hb as <- <-. split; [|done].
  destruct (resp_built_message hit r Hit Hsend) as (Hmsg & HF & Hone & Hne).
  rewrite (resp_parse_message _ _ _ _ _ Hf Hmsg).
  destruct (fits_resp_block _ _ _ _ Hf Hmsg) as [Hff Hfb].
  rewrite (resp_line_ok _ _ _ _ _ _ _ Hff (proj1 (resp_built_line_ok r))).
  rewrite stoi_int_to_string by (destruct (rs_status r); unfold int_min, int_max; simpl; lia).
  destruct (field_lines (hit (resp_built_header r))) as [|l ls] eqn:El; [done|].
  cbn [resp_block] in Hfb |- *.
  rewrite (header_parse_fields _ _ _ Hfb ltac:(done) Hone HF). cbn [mbind outcome_bind rs_header resp_new].
  rewrite (insert_all_map (resp_built_header r)) by (apply Hit).
  by rewrite status_of_num_num, to_version_str.
Qed.

(** ** Determinism of the specifications *)
Lemma stored_field_det line kv1 kv2 : stored_field line kv1 -> stored_field line kv2 -> kv1 = kv2.
Proof.
  intros H1 H2.
  assert (Hrep : forall n m (v w : bytes), head v <> Some SP -> head w <> Some SP ->
    replicate n SP ++ v = replicate m SP ++ w -> v = w).
  { induction n as [|n IH]; intros [|m] v w Hv Hw E; simpl in E.
    - done.
    - by subst v.
    - by subst w.
    - injection E as E. by apply (IH m). }
  destruct H1 as [line [k1 v1] (n1 & Hk1 & Hh1 & ->) Hv1|k1 n1 Hk1];
    inversion H2 as [line' [k2 v2] (n2 & Hk2 & Hh2 & E) Hv2|k2 n2 Hk2 E]; subst; cbn [fst snd] in *.
  - apply cut_at_char_inj in E as [-> E]; [|done|done]. f_equal. by eapply Hrep.
  - symmetry in E || idtac. apply cut_at_char_inj in E as [-> E]; [|done|done].
    exfalso. apply Hv1. destruct v1 as [|c v1]; [done|]. exfalso.
    assert (Hc : c ∈ replicate n2 SP) by (rewrite E || rewrite <- E; set_solver).
    apply elem_of_replicate_inv in Hc. by subst c.
  - apply cut_at_char_inj in E as [-> E]; [|done|done].
    exfalso. destruct v2 as [|c v2]; [done|].
    assert (Hc : c ∈ replicate n1 SP) by (rewrite E || rewrite <- E; set_solver).
    apply elem_of_replicate_inv in Hc. by subst c.
  - apply cut_at_char_inj in E as [-> E]; [|done|done]. by rewrite E.
Qed.

Lemma stored_fields_det lines kvs1 kvs2 :
  Forall2 stored_field lines kvs1 -> Forall2 stored_field lines kvs2 -> kvs1 = kvs2.
Proof.
  intros H. revert kvs2. induction H as [|l kv ls kvs Hl HF IH]; intros kvs2 H2; inversion H2; subst; [done|].
  f_equal; [by eapply stored_field_det|by apply IH].
Qed.

(** Parsing a target into a route that already has parameters. *)
Lemma route_parse_merge rt t :
  short t -> t <> [] ->
  exists p ps, route_parse route_new t = Ok (kSuccess, Route p (insert_all ∅ ps)) /\
    route_parse rt t = Ok (kSuccess, Route p (insert_all (rt_params rt) ps)).
Proof.
  intros Hs Hne. destruct (decide ("?"%char ∈ t)) as [Hin|Hin].
  - destruct (split_at_char _ _ Hin) as (p & q & -> & Hp).
    rewrite !route_parse_query by done.
    assert (Hf : fits q).
    { apply short_fits in Hs. apply fits_app_r in Hs. by apply fits_cons_r in Hs. }
    destruct (split_spec q (B "&") [] false Hf ltac:(done)) as (l & Hpl & ->). cbn [mbind outcome_bind app].
    pose proof (pieces_fits _ _ _ Hf Hpl) as Hfl.
    assert (Hps : exists ps, forall m, route_params m l = Ok (insert_all m ps)).
    { clear -Hfl. induction Hfl as [|x l Hx Hfl [ps IH]]; [by exists []|].
      destruct (route_param_total x Hx) as [[k v] Hkv]. exists ((k, v) :: ps). intros m.
      cbn [route_params]. rewrite Hkv. cbn [mbind outcome_bind]. by rewrite IH. }
    destruct Hps as [ps Hps]. exists p, ps. by rewrite !Hps.
  - exists t, []. by rewrite !route_parse_no_query.
Qed.
