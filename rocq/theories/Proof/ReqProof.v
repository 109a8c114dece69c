(** Proofs about the request model. *)
From Verif.Proof Require Export MessageProof.

(** ** Conversions *)
Lemma streq_true a b : streq a b = true <-> a = b.
Proof. unfold streq. apply bool_decide_eq_true. Qed.

Lemma to_method_str m : m <> mUNKNOWN -> to_method (method_str m) = m.
Proof. by destruct m. Qed.

Lemma to_method_known s : to_method s <> mUNKNOWN <-> s ∈ known_methods.
Proof.
  split.
  - unfold to_method. intros H.
    repeat (destruct (streq s _) eqn:E in H; [apply streq_true in E; subst; by_compute|clear E]). done.
  - intros H. unfold known_methods in H.
    repeat (apply elem_of_cons in H as [-> |H]; [done|]). by apply elem_of_nil in H.
Qed.

Lemma method_str_of s : to_method s <> mUNKNOWN -> method_str (to_method s) = s.
Proof.
  unfold to_method. intros H.
  repeat (destruct (streq s _) eqn:E; [apply streq_true in E; by subst|clear E]). done.
Qed.

Lemma to_version_str v : to_version (version_str v) = v.
Proof. by destruct v. Qed.

Lemma to_version_known s : to_version s <> vUNKNOWN <-> s ∈ known_versions.
Proof.
  split.
  - unfold to_version. intros H.
    repeat (destruct (streq s _) eqn:E in H; [apply streq_true in E; subst; by_compute|clear E]). done.
  - intros H. unfold known_versions in H.
    repeat (apply elem_of_cons in H as [-> |H]; [done|]). by apply elem_of_nil in H.
Qed.

(** ** Parse *)

(** The part of [HttpReq::Parse] after the header block. *)
Definition req_line (r : req) (h : gmap bytes bytes) (body first : bytes) : outcome (Z * req) :=
  single ← str_split first (B " ") [] false;
  match single with
  | [m; target; v] =>
      if decide (to_method m = mUNKNOWN)
      then Ok (kLogicErr, Req (to_method m) (rq_version r) h (rq_route r) body)
      else
      rp ← route_parse (rq_route r) target;
      let '(rrc, rt) := rp in
      if negb (rrc =? kSuccess)%Z
      then Ok (kLogicErr, Req (to_method m) (rq_version r) h rt body)
      else if decide (to_version v = vUNKNOWN)
      then Ok (kLogicErr, Req (to_method m) (to_version v) h rt body)
      else Ok (kSuccess, Req (to_method m) (to_version v) h rt body)
  | _ => Ok (kLogicErr, Req (rq_method r) (rq_version r) h (rq_route r) body)
  end.

Lemma req_parse_message r s first hdrs body kvs :
  fits s -> message s first hdrs body -> leading_fields hdrs kvs ->
  req_parse r s = req_line r (insert_all (rq_header r) kvs) body first.
Proof.
  intros Hf Hm HL.
  pose proof (message_find_crlf _ _ _ _ Hm) as H1.
  pose proof (message_find_crlf2 _ _ _ _ Hm) as H2.
  destruct Hm as (Hs & Hone & HF).
  assert (Hlen : length s = length first + 2 + length (crlf_lines hdrs) + 2 + length body).
  { rewrite Hs, !app_length. simpl. lia. }
  assert (Hb : (N.of_nat (length s) < 2 ^ 63)%N) by exact Hf.
  unfold req_parse. destruct s as [|c s']; [simpl in Hlen; lia|].
  set (s := c :: s') in *. rewrite !str_find_0, H1, H2. cbn [opt_pos].
  destruct (N.eqb_spec (N.of_nat (length first + length (crlf_lines hdrs))) npos) as [E|_].
  { exfalso. revert E. apply (lt_npos s); [done|lia]. }
  destruct (N.eqb_spec (N.of_nat (length first)) npos) as [E|_].
  { exfalso. revert E. apply (lt_npos s); [done|lia]. }
  change 2%N with (N.of_nat 2). rewrite !szadd_nat by lia.
  rewrite substr_nat by lia. cbn [mbind outcome_bind].
  assert (Hd : drop (length first + 2) s = crlf_lines hdrs ++ CRLF ++ body).
  { rewrite Hs, <- drop_drop, drop_app. done. }
  rewrite Hd.
  rewrite (header_parse_block _ _ _ _ kvs) by (by rewrite <- Hs || done).
  cbn [mbind outcome_bind]. change (kLogicErr =? 0)%Z with false. cbv iota.
  rewrite substr_from_nat by (done || lia). cbn [mbind outcome_bind].
  assert (Hbd : drop (length first + length (crlf_lines hdrs) + 2 + 2) s = body).
  { replace (length first + length (crlf_lines hdrs) + 2 + 2)
      with ((length first + 2) + (length (crlf_lines hdrs) + 2)) by lia.
    rewrite <- drop_drop, Hd, <- drop_drop, drop_app. done. }
  rewrite Hbd.
  change 0%N with (N.of_nat 0). rewrite substr_nat by lia. rewrite drop_0. cbn [mbind outcome_bind].
  assert (Ht : take (length first) s = first) by (by rewrite Hs, take_app). rewrite Ht.
  unfold req_line. destruct (str_split first (B " ") [] false) as [l| | | | |]; try done.
Qed.

Lemma req_parse_no_blank r s :
  ~ contains CRLFCRLF s -> req_parse r s = Ok (kLogicErr, r).
Proof.
  intros H. unfold req_parse. destruct s as [|c s]; [done|].
  rewrite str_find_0. by rewrite (proj2 (find_idx_None_contains _ _) H).
Qed.

(** The first line. *)
Lemma request_line_pieces first m t v :
  request_line first m t v -> pieces [SP] first [m; t; v].
Proof.
  intros (-> & Hm & Ht & Hv). apply (pieces_join_char SP [m; t; v]); [done|]. by repeat constructor.
Qed.

Lemma pieces_request_line first m t v :
  pieces [SP] first [m; t; v] -> request_line first m t v.
Proof.
  intros Hp. pose proof (pieces_join _ _ _ Hp) as Hj. cbn in Hj.
  pose proof (pieces_no_delim [SP] _ _ ltac:(done) Hp) as HF.
  apply Forall_cons in HF as [Hm HF]. apply Forall_cons in HF as [Ht HF].
  apply Forall_cons in HF as [Hv _]. rewrite !contains_single in Hm, Ht, Hv. done.
Qed.

Lemma req_line_ok r h body first m t v path params :
  short first -> request_line first m t v -> to_method m <> mUNKNOWN -> to_version v <> vUNKNOWN ->
  t <> [] -> url t path params ->
  req_line r h body first = Ok (kSuccess, Req (to_method m) (to_version v) h
    (Route path (insert_all (rt_params (rq_route r)) params)) body).
Proof.
  intros Hs Hl Hm Hv Ht Hu. unfold req_line.
  pose proof (request_line_pieces _ _ _ _ Hl) as Hp.
  change (B " ") with [SP].
  rewrite (split_pieces _ [SP] [] _ (short_fits _ Hs) ltac:(done) Hp). cbn [mbind outcome_bind app].
  rewrite decide_False by done.
  rewrite (route_parse_url _ t path params); [|..|done|done].
  - cbn [mbind outcome_bind]. change (negb (kSuccess =? kSuccess)%Z) with false. cbv iota.
    by rewrite decide_False.
  - destruct Hl as (-> & _). unfold short in *. rewrite app_length in Hs. simpl in Hs.
    rewrite app_length in Hs. lia.
Qed.

(** What the first line must look like for success. *)
Definition good_line (first : bytes) : Prop :=
  exists m t v, request_line first m t v /\ m ∈ known_methods /\ v ∈ known_versions /\ t <> [].

Lemma req_line_total r h body first :
  short first ->
  exists rc r', req_line r h body first = Ok (rc, r') /\
    (rc = kSuccess \/ rc = kLogicErr) /\ (rc = kSuccess <-> good_line first).
Proof.
  intros Hs. unfold req_line.
  destruct (split_spec first [SP] [] false (short_fits _ Hs) ltac:(done)) as (l & Hp & Heq).
  change (B " ") with [SP]. rewrite Heq. cbn [mbind outcome_bind app].
  assert (Hgood : good_line first ->
    exists m t v, l = [m; t; v] /\ m ∈ known_methods /\ v ∈ known_versions /\ t <> []).
  { intros (m & t & v & Hl & H1 & H2 & H3). apply request_line_pieces in Hl.
    rewrite (pieces_det [SP] _ _ _ ltac:(done) Hp Hl). naive_solver. }
  assert (Hbad : (forall m t v, l <> [m; t; v]) ->
    exists rc r', Ok (kLogicErr, Req (rq_method r) (rq_version r) h (rq_route r) body) = Ok (rc, r') /\
      (rc = kSuccess \/ rc = kLogicErr) /\ (rc = kSuccess <-> good_line first)).
  { intros Hl. do 2 eexists. split; [done|]. split; [by right|]. split; [done|].
    intros (m & t & v & -> & _)%Hgood. by destruct (Hl m t v). }
  destruct l as [|m [|t [|v [|x l]]]]; try (apply Hbad; naive_solver).
  clear Hbad.
  assert (Hst : short t).
  { apply pieces_request_line in Hp as (-> & _). unfold short in *. rewrite app_length in Hs.
    simpl in Hs. rewrite app_length in Hs. lia. }
  destruct (decide (to_method m = mUNKNOWN)) as [Hm|Hm].
  { do 2 eexists. split; [done|]. split; [by right|]. split; [done|].
    intros (m' & t' & v' & E & Hk & _)%Hgood. simplify_eq. by apply to_method_known in Hk. }
  destruct (route_parse_total (rq_route r) t Hst) as (rrc & rt & Hr). rewrite Hr. cbn [mbind outcome_bind].
  destruct (route_parse_rc _ _ _ _ Hst Hr) as [[-> Ht]|(-> & -> & _)].
  2:{ do 2 eexists. split; [done|]. split; [by right|]. split; [done|].
      intros (m' & t' & v' & E & _ & _ & Ht)%Hgood. simplify_eq. }
  change (negb (kSuccess =? kSuccess)%Z) with false. cbv iota.
  destruct (decide (to_version v = vUNKNOWN)) as [Hv|Hv].
  { do 2 eexists. split; [done|]. split; [by right|]. split; [done|].
    intros (m' & t' & v' & E & _ & Hk & _)%Hgood. simplify_eq. by apply to_version_known in Hk. }
  do 2 eexists. split; [done|]. split; [by left|]. split; [|done]. intros _.
  exists m, t, v. split; [by apply pieces_request_line|].
  split; [by apply to_method_known|]. split; [by apply to_version_known|done].
Qed.

Lemma message_short_first s first hdrs body : short s -> message s first hdrs body -> short first.
Proof. unfold short. intros Hs (-> & _). rewrite app_length in Hs. lia. Qed.

Lemma req_parse_total r s :
  short s ->
  exists rc r', req_parse r s = Ok (rc, r') /\ (rc = kSuccess \/ rc = kLogicErr) /\
    (rc = kSuccess <-> exists first hdrs body, message s first hdrs body /\ good_line first).
Proof.
  intros Hs. pose proof (short_fits _ Hs) as Hf.
  destruct (find_idx CRLFCRLF s) as [i|] eqn:Ei.
  - assert (Hc : contains CRLFCRLF s) by (apply find_idx_contains; by rewrite Ei).
    destruct (message_exists (length s) s ltac:(lia) Hc) as (first & hdrs & body & Hm).
    destruct (leading_fields_exists hdrs) as [kvs HL].
    rewrite (req_parse_message _ _ _ _ _ _ Hf Hm HL).
    destruct (req_line_total r (insert_all (rq_header r) kvs) body first) as (rc & r' & H1 & H2 & H3);
      [by eapply message_short_first|].
    exists rc, r'. split; [done|]. split; [done|]. rewrite H3. split.
    + intros Hg. eauto.
    + intros (first' & hdrs' & body' & Hm' & Hg).
      assert (Hl : length first = length first').
      { apply message_find_crlf in Hm. apply message_find_crlf in Hm'. congruence. }
      assert (first = first') as ->; [|done].
      destruct Hm as (E & _), Hm' as (E' & _). rewrite E in E'. by apply app_inj_1 in E' as [? _].
  - apply find_idx_None_contains in Ei. rewrite req_parse_no_blank by done.
    do 2 eexists. split; [done|]. split; [by right|]. split; [done|].
    intros (first & hdrs & body & (-> & _) & _). exfalso. apply Ei.
    destruct hdrs as [|l ls].
    + by exists first, body.
    + exfalso. apply Ei. clear Ei. destruct (exists_last (l := l :: ls)) as (ls' & l' & E); [done|]. rewrite E.
      unfold crlf_lines. rewrite map_app, concat_app. cbn [map concat].
      exists (first ++ CRLF ++ concat (map (fun l => l ++ CRLF) ls') ++ l'), body.
      rewrite app_nil_r, <- !app_assoc. done.
Qed.

(** ** Build *)
Lemma url_safe_chars s c :
  url_safe s -> c ∈ s -> c ∈ unreserved \/ c = "%"%char \/ c ∈ upper_hex.
Proof.
  induction 1 as [|x s Hx Hs IH|a b s Ha Hb Hs IH]; rewrite ?elem_of_nil, ?elem_of_cons; [done| |].
  - intros [->|]; auto.
  - intros [->|[->|[->|]]]; auto.
Qed.

Lemma route_text_chars it rt c :
  c ∈ route_to_string it rt -> c <> SP /\ c <> CR /\ c <> LF.
Proof.
  intros H. unfold route_to_string in H.
  pose proof (url_safe_chars _ _ (url_encode_safe _) H) as Hc.
  assert (H1 : forall x, x ∈ [SP; CR; LF] -> x ∉ unreserved /\ x <> "%"%char /\ x ∉ upper_hex).
  { intros x Hx. apply (proj1 (Forall_forall (fun x => x ∉ unreserved /\ x <> "%"%char /\ x ∉ upper_hex) [SP; CR; LF]));
      [by_compute|done]. }
  repeat split; intros ->; (destruct (H1 SP) as (?&?&?); [by_compute|]);
    (destruct (H1 CR) as (?&?&?); [by_compute|]); (destruct (H1 LF) as (?&?&?); [by_compute|]);
    naive_solver.
Qed.

Lemma no_cr_one_line s : CR ∉ s -> one_line s.
Proof. intros H (a & b & ->). apply H. set_solver. Qed.

Lemma method_str_chars m : SP ∉ method_str m /\ CR ∉ method_str m.
Proof. destruct m; split; by_compute. Qed.
Lemma version_str_chars v : SP ∉ version_str v /\ CR ∉ version_str v.
Proof. destruct v; split; by_compute. Qed.

Lemma crlf_field_lines kvs : crlf_lines (field_lines kvs) = header_text kvs.
Proof.
  induction kvs as [|kv kvs IH]; [done|]. unfold crlf_lines, field_lines, header_text in *.
  cbn [map concat flat_map]. rewrite IH. by rewrite <- !app_assoc.
Qed.

Lemma field_lines_message kvs :
  Forall carried kvs -> Forall (fun l => one_line l /\ l <> []) (field_lines kvs).
Proof.
  intros HF. apply Forall_map. eapply Forall_impl; [exact HF|]. intros kv (_ & H2 & H3 & _).
  split; [by apply field_one_line|]. by destruct kv.1.
Qed.

Lemma leading_all lines kvs : Forall2 stored_field lines kvs -> leading_fields lines kvs.
Proof. induction 1; by constructor. Qed.

Lemma carried_leading kvs :
  Forall (fun kv => carried kv /\ kv.2 <> []) kvs -> leading_fields (field_lines kvs) kvs.
Proof. intros HF. apply leading_all. by destruct (field_lines_ok _ HF). Qed.

(** The header map after Build. *)
Definition built_header (r : req) : gmap bytes bytes :=
  <[B "Content-Length" := int_to_string (to_int32 (Z.of_N (size (rq_body r))))]>
  (match header_get (rq_header r) (B "Host") with
   | [] => <[B "Host" := B "localhost"]> (rq_header r)
   | _ => rq_header r
   end).

Definition built_line (rit : iter_order) (r : req) : bytes :=
  method_str (rq_method r) ++ SP :: route_to_string rit (rq_route r) ++ SP :: version_str (rq_version r).

Lemma req_build_ok hit rit r out :
  rq_method r <> mUNKNOWN -> rq_version r <> vUNKNOWN ->
  req_build hit rit r out =
    (kSuccess, Req (rq_method r) (rq_version r) (built_header r) (rq_route r) (rq_body r),
     built_line rit r ++ CRLF ++ crlf_lines (field_lines (hit (built_header r))) ++ CRLF ++ rq_body r).
Proof.
  intros Hm Hv. unfold req_build. rewrite !decide_False by done.
  unfold built_header, header_set_content_length, header_add. rewrite crlf_field_lines.
  set (h := <[B "Content-Length" := _]> _). f_equal.
  unfold header_to_string, built_line. change (B " ") with [SP].
  rewrite <- !app_assoc. cbn [app]. rewrite <- !app_assoc. done.
Qed.

Lemma built_line_request_line rit r :
  request_line (built_line rit r) (method_str (rq_method r)) (route_to_string rit (rq_route r))
    (version_str (rq_version r)).
Proof.
  split; [done|]. split; [by destruct (method_str_chars (rq_method r))|].
  split; [|by destruct (version_str_chars (rq_version r))].
  intros H. by apply route_text_chars in H as [? _].
Qed.

Lemma built_line_one_line rit r : one_line (built_line rit r).
Proof.
  apply no_cr_one_line. unfold built_line.
  rewrite !not_elem_of_app, !not_elem_of_cons, !not_elem_of_app, !not_elem_of_cons.
  split; [by destruct (method_str_chars (rq_method r))|]. split; [done|].
  split; [intros H; apply route_text_chars in H; naive_solver|].
  split; [done|]. by destruct (version_str_chars (rq_version r)).
Qed.

Lemma carried_number z : carried (B "Content-Length", int_to_string z) /\ int_to_string z <> [].
Proof.
  split; [|apply int_to_string_nonempty].
  assert (Hc : forall c, c ∈ int_to_string z -> is_digit c = true \/ c = "-"%char)
    by apply int_to_string_chars.
  split; [by_compute|]. split; [|split].
  - intros H. by apply find_idx_None_contains in H.
  - apply no_cr_one_line. intros [H|H]%Hc; done.
  - destruct (int_to_string z) as [|c s] eqn:E; [done|]. intros [= ->].
    destruct (Hc SP); [rewrite elem_of_cons; auto|done|done].
Qed.

(** Conditions on the headers the application set: what the line format can
    carry; a Content-Length is overwritten, and an empty Host replaced. *)
Definition sendable (h : gmap bytes bytes) : Prop :=
  forall k v, h !! k = Some v -> k <> B "Content-Length" ->
    carried (k, v) /\ (v <> [] \/ k = B "Host").

Lemma built_header_carried r :
  sendable (rq_header r) -> map_Forall (fun k v => carried (k, v) /\ v <> []) (built_header r).
Proof.
  intros Hs k v Hk. unfold built_header in Hk.
  destruct (decide (k = B "Content-Length")) as [->|Hne].
  - rewrite lookup_insert in Hk. injection Hk as <-. apply carried_number.
  - rewrite lookup_insert_ne in Hk by done.
    destruct (header_get (rq_header r) (B "Host")) as [|c w] eqn:Eh.
    + destruct (decide (k = B "Host")) as [->|Hh].
      * rewrite lookup_insert in Hk. injection Hk as <-. split; [|done].
        repeat split; [by_compute| | |done]; intros H; by apply find_idx_None_contains in H.
      * rewrite lookup_insert_ne in Hk by done. destruct (Hs k v Hk Hne) as [H1 [H2|H2]]; done.
    + destruct (Hs k v Hk Hne) as [H1 [H2|H2]]; [done|]. subst k.
      unfold header_get in Eh. rewrite Hk in Eh. simpl in Eh. by subst v.
Qed.

Lemma order_Forall (it : iter_order) (m : gmap bytes bytes) (P : bytes * bytes -> Prop) :
  valid_order it -> map_Forall (fun k v => P (k, v)) m -> Forall P (it m).
Proof.
  intros Hit HP. apply Forall_forall. intros [k v] Hin. apply HP.
  apply elem_of_map_to_list. by rewrite <- (Hit m).
Qed.

Lemma built_message hit rit r :
  valid_order hit -> sendable (rq_header r) ->
  message (built_line rit r ++ CRLF ++ crlf_lines (field_lines (hit (built_header r))) ++ CRLF ++ rq_body r)
    (built_line rit r) (field_lines (hit (built_header r))) (rq_body r) /\
  leading_fields (field_lines (hit (built_header r))) (hit (built_header r)).
Proof.
  intros Hit Hs. pose proof (built_header_carried r Hs) as Hc.
  assert (HF : Forall (fun kv => carried kv /\ kv.2 <> []) (hit (built_header r)))
    by (by apply order_Forall).
  split; [|by apply carried_leading].
  split; [done|]. split; [apply built_line_one_line|]. apply field_lines_message.
  eapply Forall_impl; [exact HF|]. by intros kv [? _].
Qed.

Lemma req_round_trip hit rit r out msg r1 :
  valid_order hit -> valid_order rit ->
  req_build hit rit r out = (kSuccess, r1, msg) ->
  short msg -> sendable (rq_header r) ->
  plain_except (B "?") (rt_path (rq_route r)) ->
  (rt_path (rq_route r) <> [] \/ rt_params (rq_route r) <> ∅) ->
  (forall k v, rt_params (rq_route r) !! k = Some v -> plain_except (B "=&") k /\ "&"%char ∉ v) ->
  req_parse req_new msg =
    Ok (kSuccess, Req (rq_method r) (rq_version r) (built_header r) (rq_route r) (rq_body r)) /\
  r1 = Req (rq_method r) (rq_version r) (built_header r) (rq_route r) (rq_body r).
Proof.
  intros Hhit Hrit Hb Hs Hsend Hpath Hne Hkv.
  assert (Hm : rq_method r <> mUNKNOWN).
  { intros E. unfold req_build in Hb. by rewrite E in Hb. }
  assert (Hv : rq_version r <> vUNKNOWN).
  { intros E. unfold req_build in Hb. rewrite decide_False in Hb by done. by rewrite E in Hb. }
  rewrite req_build_ok in Hb by done. injection Hb as <- <-. split; [|done].
  destruct (built_message hit rit r Hhit Hsend) as [Hmsg HL].
  rewrite (req_parse_message _ _ _ _ _ _ (short_fits _ Hs) Hmsg HL).
  cbn [rq_header req_new]. rewrite (insert_all_map (built_header r)) by (apply Hhit).
  pose proof (message_short_first _ _ _ _ Hs Hmsg) as Hsf.
  unfold req_line. pose proof (built_line_request_line rit r) as Hl.
  pose proof (request_line_pieces _ _ _ _ Hl) as Hp.
  change (B " ") with [SP].
  rewrite (split_pieces _ [SP] [] _ (short_fits _ Hsf) ltac:(done) Hp). cbn [mbind outcome_bind app].
  rewrite to_method_str by done. rewrite decide_False by done.
  assert (Hst : short (route_to_string rit (rq_route r))).
  { unfold built_line, short in *. rewrite app_length in Hsf. simpl in Hsf. rewrite app_length in Hsf. lia. }
  change (rq_route req_new) with route_new.
  rewrite (route_round_trip rit (rq_route r)) by done. cbn [mbind outcome_bind].
  change (negb (kSuccess =? kSuccess)%Z) with false. cbv iota.
  rewrite to_version_str. by rewrite decide_False.
Qed.
