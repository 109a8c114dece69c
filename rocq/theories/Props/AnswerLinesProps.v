(** C245: exactly what an answer consists of: HttpServer::HandleRead
    (src/cppnet/http/server/http_server.cpp:279-411) and HttpResp::Build. *)
From Verif.Proof Require Import ServerProof LogProof.
From Verif.Props Require Import MessageProps RouterProps ServerProps HttpRulesProps NoContentProps.

(** ** Specification *)

(** The text of an answer with the given parts: one line for each field that the handlers
    have set, in any order, one for the length, the body. *)
Definition answer_text (out ver : bytes) (st : status_code) (fields : gmap bytes bytes) (body : bytes) : Prop :=
  exists lines, lines ≡ₚ (B "Content-Length: " ++ int_to_string (Z.of_nat (length body))) ::
      map (fun kv => kv.1 ++ B ": " ++ kv.2) (map_to_list (delete (B "Content-Length") fields)) /\
    out = (ver ++ SP :: int_to_string (status_num st) ++ SP :: status_str st) ++ CRLF ++
      concat (map (fun l => l ++ CRLF) lines) ++ CRLF ++ body.

(** RFC 9110, 6.6.1: an answer says when it was made. *)
Definition date_line (l : bytes) : Prop := B "date:" `prefix_of` lower l.
Definition dated (out : bytes) : Prop := exists first hdrs body l, message out first hdrs body /\ l ∈ hdrs /\ date_line l.
Definition date_full : Prop := forall U hit k (ro : router U) e w text r l t c' w' v,
  valid_order hit -> short text -> request_text exact_name text r -> NUL ∉ rq_body r ->
  dispatch ro (rt_path (rq_route r)) (ctx_new r resp_new) w = Ok (c', w') ->
  resp_sendable (rs_header (cx_resp c')) -> rs_version (cx_resp c') <> vUNKNOWN -> short (rs_body (cx_resp c')) ->
  handle_read hit (WTake k) ro e w (Stream (map Byte text ++ l) t) = Ok v -> Forall dated (sv_wrote v).

(** ** Proofs *)
Lemma built_answer_text hit p : valid_order hit -> short (rs_body p) ->
  answer_text (resp_built_line p ++ CRLF ++ crlf_lines (field_lines (hit (resp_built_header p))) ++ CRLF ++ rs_body p)
    (version_str (rs_version p)) (rs_status p) (rs_header p) (rs_body p).
Proof.
  intros Hit Hs. exists (field_lines (hit (resp_built_header p))). split; [|done].
  unfold field_lines. rewrite (Hit (resp_built_header p)). unfold resp_built_header.
  rewrite <- insert_delete_insert, map_to_list_insert by apply lookup_delete. cbn [map fst snd].
  assert (E : to_int32 (Z.of_N (size (rs_body p))) = Z.of_nat (length (rs_body p))).
  { unfold size. by apply to_int32_nat. }
  by rewrite E.
Qed.

(** Whatever the handlers set, whatever the fields are. *)
Theorem answer_exact : forall U hit wr (ro : router U) e w text r l t c' w',
  valid_order hit -> short text -> request_text exact_name text r -> NUL ∉ rq_body r -> wr <> WSig ->
  dispatch ro (rt_path (rq_route r)) (ctx_new r resp_new) w = Ok (c', w') -> short (rs_body (cx_resp c')) ->
  exists out sent cl, handle_read hit wr ro e w (Stream (map Byte text ++ l) t) = Ok (Served w' (Stream l t) [out] sent cl) /\
    (rs_status (cx_resp c') <> sUNKNOWN ->
       answer_text out (version_str (rs_version (cx_resp c'))) (rs_status (cx_resp c')) (rs_header (cx_resp c')) (rs_body (cx_resp c'))) /\
    (rs_status (cx_resp c') = sUNKNOWN ->
       answer_text out (version_str (rs_version (cx_resp c'))) sNOT_FOUND (<[B "Content-Type" := B "text/html"]> (rs_header (cx_resp c'))) not_found_page).
Proof.
  intros U hit wr ro e w text r l t c' w' Hit Hs Hr Hn Hw Hd Hb.
  rewrite (handle_read_request hit wr ro e w text r l t Hs Hr Hn), (answer_ok _ _ _ _ _ _ _ _ _ Hd). unfold respond.
  set (p := cx_resp c') in *. set (p1 := if decide (rs_status p = sUNKNOWN) then resp_not_found p else p).
  assert (Hst : rs_status p1 <> sUNKNOWN) by (unfold p1; by destruct (decide (rs_status p = sUNKNOWN))).
  rewrite (resp_build_ok hit p1 [] Hst). change (negb (kSuccess =? kSuccess)%Z) with false. cbv iota.
  assert (Hb1 : short (rs_body p1)) by (unfold p1; by destruct (decide (rs_status p = sUNKNOWN))).
  pose proof (built_answer_text hit p1 Hit Hb1) as Ht.
  set (out := resp_built_line p1 ++ _) in *.
  assert (HT : (rs_status p <> sUNKNOWN -> answer_text out (version_str (rs_version p)) (rs_status p) (rs_header p) (rs_body p)) /\
    (rs_status p = sUNKNOWN -> answer_text out (version_str (rs_version p)) sNOT_FOUND (<[B "Content-Type" := B "text/html"]> (rs_header p)) not_found_page)).
  { clearbody out. clear Hst Hb1. unfold p1 in Ht. by destruct (decide (rs_status p = sUNKNOWN)). }
  destruct wr as [k| |]; [| |done]; cbn [sock_write mbind outcome_bind]; do 3 eexists; (split; [reflexivity|exact HT]).
Qed.

Lemma colon_split (a b x y : bytes) : ":"%char ∉ a -> ":"%char ∉ b -> a ++ ":"%char :: x = b ++ ":"%char :: y -> a = b.
Proof.
  revert b. induction a as [|c a IH]; intros [|d b] Ha Hb E; cbn [app] in E.
  - done.
  - injection E as E1 _. exfalso. apply Hb. rewrite <- E1. left.
  - injection E as E1 _. exfalso. apply Ha. rewrite E1. left.
  - injection E as -> E. f_equal. apply IH; [intros Hx; apply Ha; by right|intros Hx; apply Hb; by right|done].
Qed.
Lemma lower_colon (k : bytes) : ":"%char ∉ k -> ":"%char ∉ lower k.
Proof.
  intros H Hin. apply H. unfold lower in Hin. apply elem_of_list_fmap in Hin as (c & Ec & Hc).
  assert (c = ":"%char) as <-; [|done]. clear -Ec. destruct c as [[] [] [] [] [] [] [] []]; vm_compute in Ec; first [reflexivity|discriminate Ec].
Qed.
Lemma date_line_name k v : ":"%char ∉ k -> date_line (k ++ B ": " ++ v) <-> lower k = B "date".
Proof.
  intros Hk. unfold date_line, lower. rewrite map_app. fold (lower k). split.
  - intros [z Ez]. change (B "date:" ++ z) with (B "date" ++ ":"%char :: z) in Ez.
    eapply colon_split; [by apply lower_colon| |exact Ez]. by_compute.
  - intros ->. eexists. change (B "date:") with (B "date" ++ [":"%char]). rewrite <- app_assoc. reflexivity.
Qed.

Lemma answer_text_dated out ver st fields body : resp_sendable fields -> answer_text out (version_str ver) st fields body ->
  dated out <-> exists k x, fields !! k = Some x /\ lower k = B "date".
Proof.
  intros Hs (lines & Hp & Eo). set (kvs := (B "Content-Length", int_to_string (Z.of_nat (length body))) :: map_to_list (delete (B "Content-Length") fields)).
  change (lines ≡ₚ field_lines kvs) in Hp.
  assert (Hc : Forall carried kvs).
  { constructor; [apply carried_number|]. apply Forall_forall. intros [k x] Hin. apply elem_of_map_to_list, lookup_delete_Some in Hin as [Hne Hk].
    by destruct (Hs k x Hk). }
  assert (HF : Forall (fun l => one_line l /\ l <> []) lines) by (rewrite Hp; by apply field_lines_message).
  destruct (resp_built_line_ok (Resp st ver ∅ [])) as [_ H1].
  assert (Hm : message out (resp_built_line (Resp st ver ∅ [])) lines body) by (by split).
  assert (Hd : dated out <-> exists l, l ∈ lines /\ date_line l).
  { split.
    - intros (first' & hdrs' & b & l & Hm' & Hl & Hdl). exists l. split; [|done].
      pose proof (message_first_unique _ _ _ _ _ _ _ Hm Hm') as <-.
      destruct Hm as (E1 & _ & F1), Hm' as (E2 & _ & F2). rewrite E1 in E2. apply app_inv_head in E2. apply app_inv_head in E2.
      by rewrite (crlf_lines_unique _ _ _ _ F1 F2 E2).
    - intros (l & Hl & Hdl). by do 4 eexists. }
  rewrite Hd. split.
  - intros (l & Hl & Hdl). rewrite Hp in Hl. apply elem_of_list_fmap in Hl as ([k x] & -> & Hin). cbn [fst snd] in Hdl.
    pose proof (proj1 (Forall_forall _ _) Hc _ Hin) as (Hk & _). apply (date_line_name _ _ Hk) in Hdl.
    apply elem_of_cons in Hin as [E|Hin]; [injection E as -> _; vm_compute in Hdl; discriminate Hdl|].
    apply elem_of_map_to_list, lookup_delete_Some in Hin as [_ Hin]. by exists k, x.
  - intros (k & x & Hk & El). exists (k ++ B ": " ++ x).
    assert (Hin : (k, x) ∈ kvs).
    { right. apply elem_of_map_to_list. apply lookup_delete_Some. split; [|done]. intros <-. vm_compute in El. discriminate El. }
    split.
    + rewrite Hp. apply elem_of_list_fmap. by exists (k, x).
    + apply date_line_name; [|done]. by destruct (proj1 (Forall_forall _ _) Hc _ Hin).
Qed.

(** Missing: an answer says when it was made only if a handler has set that field. *)
Theorem date_partial : forall U hit wr (ro : router U) e w text r l t c' w',
  valid_order hit -> short text -> request_text exact_name text r -> NUL ∉ rq_body r -> wr <> WSig ->
  dispatch ro (rt_path (rq_route r)) (ctx_new r resp_new) w = Ok (c', w') ->
  resp_sendable (rs_header (cx_resp c')) -> short (rs_body (cx_resp c')) ->
  exists out sent cl, handle_read hit wr ro e w (Stream (map Byte text ++ l) t) = Ok (Served w' (Stream l t) [out] sent cl) /\
    (dated out <-> exists k x, rs_header (cx_resp c') !! k = Some x /\ lower k = B "date").
Proof.
  intros U hit wr ro e w text r l t c' w' Hit Hs Hr Hn Hw Hd H1 H3.
  destruct (answer_exact U hit wr ro e w text r l t c' w' Hit Hs Hr Hn Hw Hd H3) as (out & sent & cl & E & Ha & Hu).
  exists out, sent, cl. split; [exact E|]. clear E.
  destruct (decide (rs_status (cx_resp c') = sUNKNOWN)) as [H0|H0].
  - assert (Hs' : resp_sendable (<[B "Content-Type" := B "text/html"]> (rs_header (cx_resp c')))).
    { intros k x Hk Hne. apply lookup_insert_Some in Hk as [[<- <-]|[_ Hk]]; [|by apply H1]. split; [|done].
      split; [by_compute|]. split; [apply no_cr_one_line; by_compute|]. split; [apply no_cr_one_line; by_compute|]. done. }
    rewrite (answer_text_dated _ _ _ _ _ Hs' (Hu H0)). split; intros (k & x & Hk & El); exists k, x; (split; [|done]).
    + apply lookup_insert_Some in Hk as [[<- _]|[_ Hk]]; [vm_compute in El; discriminate El|done].
    + rewrite lookup_insert_ne; [done|]. intros <-. vm_compute in El. discriminate El.
  - by apply (answer_text_dated _ _ _ _ _ H1 (Ha H0)).
Qed.

(** A handler that sets the given fields and a body. *)
Definition answer_fields (h : gmap bytes bytes) (b : bytes) : handler (list req) := fun c w =>
  Ok (ctx_set_resp c (Resp sOK (rs_version (cx_resp c)) h b), w).
Lemma answer_fields_runs h b : exists ro c', register [] [] (Entry (Some (answer_fields h b)) false []) router_new = Ok (kSuccess, ro) /\
  dispatch ro (rt_path (rq_route plain_req)) (ctx_new plain_req resp_new) wr0 = Ok (c', wr0) /\ cx_resp c' = Resp sOK v1_1 h b.
Proof.
  destruct (single_registration [] [] (Entry (Some (answer_fields h b)) false []) (B "/a") (ctx_new plain_req resp_new) wr0) as (ro & Hr & Hch); [constructor|constructor|by_compute|].
  exists ro. eexists. split; [exact Hr|]. split.
  - rewrite decide_False in Hch by done. rewrite decide_True in Hch by (by exists (B "/a")).
    apply (chain_det _ _ _ _ Hch). cbn [List.filter e_exact negb]. eapply chain_called; [done| |reflexivity|done|constructor]. intros f Hf. by apply elem_of_nil in Hf.
  - reflexivity.
Qed.

Theorem date_refuted : ~ date_full.
Proof.
  intros H. destruct plain_ok as (Hs & Ht & Hn). destruct (answer_fields_runs ∅ []) as (ro & c' & _ & Hd & Ec).
  assert (Hb : short (rs_body (cx_resp c'))) by (rewrite Ec; by vm_compute).
  assert (H2 : rs_version (cx_resp c') <> vUNKNOWN) by (by rewrite Ec).
  assert (H1 : resp_sendable (rs_header (cx_resp c'))) by (rewrite Ec; intros ? ? Hx; cbn in Hx; by rewrite lookup_empty in Hx).
  destruct (date_partial _ map_to_list (WTake 500) ro [] wr0 plain_text plain_req [] Wait c' wr0 valid_order_sorted Hs Ht Hn) as (out & sent & cl & E & Hdt); try done.
  pose proof (H _ map_to_list 500 ro [] wr0 plain_text plain_req [] Wait c' wr0 _ valid_order_sorted Hs Ht Hn Hd H1 H2 Hb E) as HF.
  apply Forall_cons in HF as [HF _]. apply Hdt in HF as (k & x & Hk & _). rewrite Ec in Hk. cbn in Hk. by rewrite lookup_empty in Hk.
Qed.

(** With a date set by the handler, and a length of the handler's own that is not sent. *)
Definition dated_fields : gmap bytes bytes :=
  <[B "Date" := B "Tue, 17 Nov 2026 10:00:00 GMT"]> (<[B "Content-Length" := B "99"]> ∅).
Example answer_lines_ex : exists ro v out, register [] [] (Entry (Some (answer_fields dated_fields (B "hi"))) false []) router_new = Ok (kSuccess, ro) /\
  handle_read map_to_list (WTake 500) ro [] wr0 (Stream (map Byte plain_text ++ []) Wait) = Ok v /\ sv_wrote v = [out] /\
  answer_text out (B "HTTP/1.1") sOK dated_fields (B "hi") /\ dated out.
Proof.
  destruct plain_ok as (Hs & Ht & Hn). destruct (answer_fields_runs dated_fields (B "hi")) as (ro & c' & Hr & Hd & Ec).
  assert (Hb : short (rs_body (cx_resp c'))) by (rewrite Ec; by vm_compute).
  assert (H0 : rs_status (cx_resp c') <> sUNKNOWN) by (by rewrite Ec).
  destruct (answer_exact _ map_to_list (WTake 500) ro [] wr0 plain_text plain_req [] Wait c' wr0 valid_order_sorted Hs Ht Hn) as (out & sent & cl & E & Ha & _); try done.
  eexists ro, _, out. split; [exact Hr|]. split; [exact E|]. split; [done|].
  specialize (Ha H0). rewrite Ec in Ha. cbn [rs_version rs_status rs_header rs_body] in Ha. split; [exact Ha|].
  clear -Ha. apply (answer_text_dated _ v1_1 _ _ _) in Ha.
  - apply Ha. exists (B "Date"), (B "Tue, 17 Nov 2026 10:00:00 GMT"). split; [apply lookup_insert|by vm_compute].
  - intros k x Hk Hne. unfold dated_fields in Hk. apply lookup_insert_Some in Hk as [[<- <-]|[_ Hk]].
    + split; [|done]. split; [by_compute|]. split; [apply no_cr_one_line; by_compute|]. split; [apply no_cr_one_line; by_compute|]. done.
    + apply lookup_insert_Some in Hk as [[<- _]|[_ Hk]]; [done|by rewrite lookup_empty in Hk].
Qed.

Print Assumptions answer_exact.
Print Assumptions date_partial.
Print Assumptions date_refuted.
