(** C244: answers with 204 (No Content): HttpServer::HandleRead
    (src/cppnet/http/server/http_server.cpp:279-411) and HttpResp::Build. *)
From Verif.Proof Require Import ServerProof LogProof.
From Verif.Props Require Import MessageProps RouterProps ServerProps HttpRulesProps.

(** ** The rule *)

(** RFC 9110, 8.6 and 15.3.5: an answer with 204 has no Content-Length, and ends after its
    header lines. *)
Definition length_line (l : bytes) : Prop := B "content-length:" `prefix_of` lower l.
Definition no_content (out : bytes) : Prop := exists first hdrs, message out first hdrs [] /\ Forall (fun l => ~ length_line l) hdrs.
(** What a client that knows the rule takes for the beginning of the next answer. *)
Definition left_over (out rest : bytes) : Prop := exists first hdrs, message out first hdrs rest.
Definition no_content_full : Prop := forall U hit k (ro : router U) e w text r l t c' w' v,
  valid_order hit -> short text -> request_text exact_name text r -> NUL ∉ rq_body r ->
  dispatch ro (rt_path (rq_route r)) (ctx_new r resp_new) w = Ok (c', w') -> rs_status (cx_resp c') = sNO_CONTENT ->
  resp_sendable (rs_header (cx_resp c')) -> rs_version (cx_resp c') <> vUNKNOWN -> short (rs_body (cx_resp c')) ->
  handle_read hit (WTake k) ro e w (Stream (map Byte text ++ l) t) = Ok v -> Forall no_content (sv_wrote v).

(** ** Proofs *)
Lemma crlf_lines_unique (hdrs hdrs' : list bytes) x y :
  Forall (fun l => one_line l /\ l <> []) hdrs -> Forall (fun l => one_line l /\ l <> []) hdrs' ->
  crlf_lines hdrs ++ CRLF ++ x = crlf_lines hdrs' ++ CRLF ++ y -> hdrs = hdrs'.
Proof.
  intros H. revert hdrs'. induction H as [|h hdrs [Hh Hne] HF IH]; intros [|h' hdrs'] H' E.
  - done.
  - exfalso. apply Forall_cons in H' as [[Hh' Hne'] _]. unfold crlf_lines in E. cbn [map concat] in E. rewrite <- !app_assoc in E.
    change CRLF with [CR; LF] in E. destruct h' as [|a [|b h']]; [done|..]; cbn [app] in E.
    + discriminate E.
    + injection E as <- <- E. apply Hh'. exists [], h'. done.
  - exfalso. unfold crlf_lines in E. cbn [map concat] in E. rewrite <- !app_assoc in E.
    change CRLF with [CR; LF] in E. destruct h as [|a [|b h]]; [done|..]; cbn [app] in E.
    + discriminate E.
    + injection E as -> -> E. apply Hh. exists [], h. done.
  - apply Forall_cons in H' as [[Hh' Hne'] HF']. unfold crlf_lines in E. cbn [map concat] in E. rewrite <- !app_assoc in E.
    assert (Ehh : h = h').
    { apply (message_first_unique (h ++ CRLF ++ crlf_lines hdrs ++ CRLF ++ x) h hdrs x h' hdrs' y); [by split|]. split; [exact E|]. by split. }
    subst h'. apply app_inv_head in E. apply app_inv_head in E. f_equal. by apply IH.
Qed.

(** Missing: every answer has a Content-Length, so none with 204 is as it should be; and the
    body that a handler has set is sent. *)
Theorem no_content_partial : forall U hit wr (ro : router U) e w text r l t c' w',
  valid_order hit -> short text -> request_text exact_name text r -> NUL ∉ rq_body r -> wr <> WSig ->
  dispatch ro (rt_path (rq_route r)) (ctx_new r resp_new) w = Ok (c', w') -> rs_status (cx_resp c') = sNO_CONTENT ->
  resp_sendable (rs_header (cx_resp c')) -> rs_version (cx_resp c') <> vUNKNOWN -> short (rs_body (cx_resp c')) ->
  exists v out, handle_read hit wr ro e w (Stream (map Byte text ++ l) t) = Ok v /\ sv_wrote v = [out] /\
    ~ no_content out /\ (forall rest, left_over out rest <-> rest = rs_body (cx_resp c')).
Proof.
  intros U hit wr ro e w text r l t c' w' Hit Hs Hr Hn Hw Hd H0 H1 H2 H3.
  destruct (one_response_partial U hit wr ro e w text r l t c' w' Hit Hs Hr Hn Hw Hd H1 H2 H3) as (out & sent & cl & E & Ha & _).
  eexists _, out. split; [exact E|]. split; [done|]. rewrite H0 in Ha.
  destruct Ha as (first & hdrs & ver & Hm & _ & _ & Hin); [done|].
  assert (Huniq : forall first' hdrs' b, message out first' hdrs' b -> hdrs' = hdrs /\ b = rs_body (cx_resp c')).
  { intros first' hdrs' b Hm'. pose proof (message_first_unique _ _ _ _ _ _ _ Hm Hm') as <-.
    destruct Hm as (E1 & _ & F1), Hm' as (E2 & _ & F2). rewrite E1 in E2. apply app_inv_head in E2. apply app_inv_head in E2.
    pose proof (crlf_lines_unique _ _ _ _ F1 F2 E2) as <-. apply app_inv_head in E2. by apply app_inv_head in E2. }
  split.
  - intros (first' & hdrs' & Hm' & HF). destruct (Huniq _ _ _ Hm') as [-> _]. rewrite Forall_forall in HF. apply (HF _ Hin).
    unfold length_line. eexists. unfold lower. rewrite map_app. change (map _ (B "Content-Length: ")) with (B "content-length:" ++ [SP]). by rewrite <- app_assoc.
  - intros rest. split.
    + intros (first' & hdrs' & Hm'). by destruct (Huniq _ _ _ Hm').
    + intros ->. by exists first, hdrs.
Qed.

Definition plain_req : req := req_of mGET v1_1 [] [].
Definition plain_text : bytes := req_text mGET v1_1 [] [].
Lemma plain_ok : short plain_text /\ request_text exact_name plain_text plain_req /\ NUL ∉ rq_body plain_req.
Proof.
  split; [by vm_compute|]. split; [|by_compute]. apply req_text_ok; [done|done|constructor|].
  right. split; [done|]. intros k x Hin. by apply elem_of_nil in Hin.
Qed.
(** A handler that sets 204 and a body. *)
Definition answer_204 (b : bytes) : handler (list req) := fun c w =>
  Ok (ctx_set_resp c (Resp sNO_CONTENT (rs_version (cx_resp c)) (rs_header (cx_resp c)) b), w).
Lemma answer_204_runs b : exists ro c', register [] [] (Entry (Some (answer_204 b)) false []) router_new = Ok (kSuccess, ro) /\
  dispatch ro (rt_path (rq_route plain_req)) (ctx_new plain_req resp_new) wr0 = Ok (c', wr0) /\ rs_status (cx_resp c') = sNO_CONTENT /\
  resp_sendable (rs_header (cx_resp c')) /\ rs_version (cx_resp c') <> vUNKNOWN /\ rs_body (cx_resp c') = b.
Proof.
  destruct (single_registration [] [] (Entry (Some (answer_204 b)) false []) (B "/a") (ctx_new plain_req resp_new) wr0) as (ro & Hr & Hch); [constructor|constructor|by_compute|].
  exists ro. eexists. split; [exact Hr|]. split.
  - rewrite decide_False in Hch by done. rewrite decide_True in Hch by (by exists (B "/a")).
    apply (chain_det _ _ _ _ Hch). cbn [List.filter e_exact negb]. eapply chain_called; [done| |reflexivity|done|constructor]. intros f Hf. by apply elem_of_nil in Hf.
  - split; [done|]. split; [intros ? ? Hx; cbn in Hx; by rewrite lookup_empty in Hx|]. by split.
Qed.

Theorem no_content_refuted : ~ no_content_full.
Proof.
  intros H. destruct plain_ok as (Hs & Ht & Hn). destruct (answer_204_runs []) as (ro & c' & _ & Hd & H0 & H1 & H2 & H3).
  assert (Hb : short (rs_body (cx_resp c'))) by (rewrite H3; by vm_compute).
  destruct (no_content_partial _ map_to_list (WTake 500) ro [] wr0 plain_text plain_req [] Wait c' wr0 valid_order_sorted Hs Ht Hn) as (v & out & E & Ew & Hno & _); try done.
  pose proof (H _ map_to_list 500 ro [] wr0 plain_text plain_req [] Wait c' wr0 v valid_order_sorted Hs Ht Hn Hd H0 H1 H2 Hb E) as HF.
  rewrite Ew in HF. apply Forall_cons in HF as [HF _]. done.
Qed.

(** What such a handler sets as a body is another answer for the client. *)
Definition forged : bytes := B "HTTP/1.1 200 OK" ++ CRLF ++ B "Content-Length: 2" ++ CRLF ++ CRLF ++ B "hi".
Example no_content_ex : exists ro v out, register [] [] (Entry (Some (answer_204 forged)) false []) router_new = Ok (kSuccess, ro) /\
  handle_read map_to_list (WTake 500) ro [] wr0 (Stream (map Byte plain_text ++ []) Wait) = Ok v /\ sv_wrote v = [out] /\ left_over out forged.
Proof.
  destruct plain_ok as (Hs & Ht & Hn). destruct (answer_204_runs forged) as (ro & c' & Hr & Hd & H0 & H1 & H2 & H3).
  assert (Hb : short (rs_body (cx_resp c'))) by (rewrite H3; by vm_compute).
  destruct (no_content_partial _ map_to_list (WTake 500) ro [] wr0 plain_text plain_req [] Wait c' wr0 valid_order_sorted Hs Ht Hn) as (v & out & E & Ew & _ & Hl); try done.
  exists ro, v, out. split; [done|]. split; [done|]. split; [done|]. apply Hl. by rewrite H3.
Qed.

Print Assumptions no_content_partial.
Print Assumptions no_content_refuted.
