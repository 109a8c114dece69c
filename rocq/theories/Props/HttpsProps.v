(** C107-C109: HttpServer::HandleRead on TLS connections
    (src/cppnet/http/server/http_server.cpp, src/cppnet/ssl/ssl_socket.cpp). *)
From Verif.Model Require Import Https.
From Verif.Proof Require Import SslProof ServerProof.
From Verif.Props Require Import SslProps ServerProps.

Lemma tls_until_head pre s l :
  sm_items (tls_stream s) = map Byte pre ++ l ->
  shortest_until CRLFCRLF pre pre [] -> short pre -> LF ∉ take 3 pre ->
  exists s1, ssl_read_until [] CRLFCRLF s = Ok (Z.of_nat (length pre), pre, s1) /\ tls_stream s1 = Stream l (tl_tail s) /\
    (0 < Z.of_nat (length pre))%Z.
Proof.
  intros Hs Hsh Hl Hlf. destruct (read_until_head pre l (tl_tail s) Hsh Hl Hlf) as [E Hpos].
  pose proof (ssl_read_until_same [] CRLFCRLF s) as H.
  replace (tls_stream s) with (Stream (map Byte pre ++ l) (tl_tail s)) in H by (unfold tls_stream in *; simpl in Hs; by rewrite Hs).
  rewrite E in H. destruct (ssl_read_until [] CRLFCRLF s) as [[[a b] s1]| | | | |]; try done. unfold seen in H. cbn [mbind outcome_bind] in H. injection H as -> -> H H'.
  exists s1. split; [done|]. split; [|done]. unfold tls_stream. by rewrite H, H'.
Qed.

Section req.
Context {U : Type}.
Implicit Types (ro : router U) (w : world U).

(** A complete request. *)
Lemma https_request hit wr ro e w text r l s :
  short text -> request_text exact_name text r -> NUL ∉ rq_body r ->
  sm_items (tls_stream s) = map Byte text ++ l ->
  exists s', handle_read_tls hit wr ro e w s = (v ← answer hit wr ro r e w (tls_stream s'); Ok (v, s')) /\
    tls_stream s' = Stream l (tl_tail s).
Proof.
  intros Hs Hr Hn Hi. destruct (request_text_parts _ _ Hs Hr) as (first & hdrs & Hm & Hg & Hp & Hcl).
  destruct (message_head _ _ _ _ Hm) as (Ht & _ & Hsh).
  assert (Hsh' : short (head_of first hdrs)).
  { rewrite Ht in Hs. unfold short in *. rewrite app_length in Hs. lia. }
  rewrite Ht, map_app, <- app_assoc in Hi.
  assert (Hlf : LF ∉ take 3 (head_of first hdrs)) by (unfold head_of; by apply good_line_start).
  destruct (tls_until_head _ _ _ Hi Hsh Hsh' Hlf) as (s1 & E & Es & Hpos).
  unfold handle_read_tls. rewrite E. cbn [mbind outcome_bind].
  rewrite (proj2 (Z.leb_gt _ _) Hpos), Hp. cbn [mbind outcome_bind rq_header rq_method rq_version rq_route].
  change (negb (kSuccess =? kSuccess)%Z) with false. cbv iota.
  destruct (Z.ltb_spec 0 (header_get_content_length (rq_header r))) as [Hlt|Hge].
  - destruct Hcl as [Hc|[_ ?]]; [|lia]. rewrite Hc.
    assert (length (rq_body r) <= length text) by (rewrite Ht, app_length; lia).
    destruct (ssl_wait_all_succeeds (rq_body r) l s1) as (s2 & E2 & Es2); [unfold short in Hs; lia|by rewrite Es|].
    unfold ssl_read_string. replace (Z.to_N (Z.of_nat (length (rq_body r)))) with (N.of_nat (length (rq_body r))) by lia. rewrite E2. cbn [mbind outcome_bind].
    rewrite (proj2 (Z.leb_gt _ _)) by lia. rewrite cstr_no_nul by done. exists s2. split; [by destruct r|].
    rewrite Es2. f_equal. by injection Es.
  - assert (rq_body r = []) as Hb. { destruct Hcl as [Hc|[? _]]; [|done]. destruct (rq_body r); [done|]. simpl in Hc. lia. }
    rewrite Hb in Es. exists s1. split; [destruct r; simpl in *; by subst|done].
Qed.
End req.

(** * C107: a request over TLS is answered as over TCP, wherever the records are cut *)
Theorem https_answers : forall U hit wr (ro : router U) e w text r l s c' w',
  valid_order hit -> short text -> request_text exact_name text r -> NUL ∉ rq_body r -> wr <> WSig ->
  sm_items (tls_stream s) = map Byte text ++ l ->
  dispatch ro (rt_path (rq_route r)) (ctx_new r resp_new) w = Ok (c', w') ->
  resp_sendable (rs_header (cx_resp c')) -> rs_version (cx_resp c') <> vUNKNOWN -> short (rs_body (cx_resp c')) ->
  exists out sent cl s',
    handle_read_tls hit wr ro e w s = Ok (Served w' (Stream l (tl_tail s)) [out] sent cl, s') /\
    tls_stream s' = Stream l (tl_tail s) /\
    (rs_status (cx_resp c') <> sUNKNOWN -> response_text out (rs_status (cx_resp c')) (rs_body (cx_resp c'))) /\
    (rs_status (cx_resp c') = sUNKNOWN -> response_text out sNOT_FOUND not_found_page) /\
    sent `prefix_of` out /\ (cl = true <-> wr = WFail).
Proof.
  intros U hit wr ro e w text r l s c' w' Hit Hs Hr Hn Hw Hi Hd H1 H2 H3.
  destruct (https_request hit wr ro e w text r l s Hs Hr Hn Hi) as (s' & -> & Es).
  rewrite (answer_ok _ _ _ _ _ _ _ _ _ Hd), Es.
  destruct (respond_ok hit wr (cx_resp c') e w' (Stream l (tl_tail s)) Hit H1 H2 H3 Hw)
    as (out & sent & cl & E & Ha & Hb & Hc & Hcl & _).
  rewrite E. by exists out, sent, cl, s'.
Qed.
Print Assumptions https_answers.

(** * C108: no handler sees part of a body *)
(** The same statement as for TCP connections (C47, refuted there). *)
Theorem https_complete_bodies : forall U hit wr (ro : router U) e w head r n part s s0 v s',
  short head -> (N.of_nat (length head + n) < 2 ^ 31)%N -> declares head r n -> length part < n ->
  breaks_after part s0 -> sm_items (tls_stream s) = map Byte head ++ sm_items s0 -> tl_tail s = sm_tail s0 ->
  handle_read_tls hit wr ro e w s = Ok (v, s') -> sv_world v = w /\ sv_wrote v = [] /\ sv_closed v = true.
Proof.
  intros U hit wr ro e w head r n part s s0 v s' Hs Hn Hd Hlt Hb Hi Ht H.
  assert (exists body : bytes, length body = n) as [body Hbl] by (exists (replicate n "a"%char); apply replicate_length).
  assert (Hst : short (head ++ body)).
  { unfold short. rewrite app_length, Hbl. done. }
  destruct (request_text_parts _ _ Hst (Hd body Hbl)) as (first & hdrs & Hm & Hg & Hp & Hcl).
  cbn [rq_method rq_version rq_header rq_route rq_body] in *.
  destruct (message_head _ _ _ _ Hm) as (Htx & _ & Hsh).
  apply app_inj_2 in Htx as [-> _]; [|done].
  assert (Hlf : LF ∉ take 3 (head_of first hdrs)) by (unfold head_of; by apply good_line_start).
  destruct (tls_until_head _ _ _ Hi Hsh Hs Hlf) as (s1 & E & Es & Hpos).
  unfold handle_read_tls in H. rewrite E in H. cbn [mbind outcome_bind] in H.
  rewrite (proj2 (Z.leb_gt _ _) Hpos), Hp in H. cbn [mbind outcome_bind rq_header] in H.
  change (negb (kSuccess =? kSuccess)%Z) with false in H. cbv iota in H.
  assert (Hc : header_get_content_length (rq_header r) = Z.of_nat n).
  { destruct Hcl as [->|[Hx _]]; [by rewrite Hbl|]. rewrite Hx in Hbl. simpl in Hbl. lia. }
  rewrite Hc in H. rewrite (proj2 (Z.ltb_lt _ _)) in H by lia.
  assert (exists q, sm_items (tls_stream s1) = map Byte part ++ q /\ (q = [] /\ tl_tail s1 <> Wait \/ List.head q = Some Gap)) as (q & Eq & Hq).
  { assert (tl_tail s1 = tl_tail s) as Etl by (by injection Es).
    rewrite Es, Etl, Ht. destruct Hb as [->|[->|(q & t & ->)]]; cbn [sm_items sm_tail]; [exists []|exists []|exists (Gap :: q)];
      rewrite ?app_nil_r; auto. }
  destruct (ssl_wait_all_fails part q s1 (Z.to_N (Z.of_nat n))) as (s2 & E2); [lia|done|done|].
  unfold ssl_read_string in H. rewrite E2 in H. cbn in H. by injection H as <- <-.
Qed.
Print Assumptions https_complete_bodies.

(** * C109: pipelined requests *)
(** Whatever has arrived of the next request, the loop will be told about it. *)
Definition https_pipelined_full : Prop := forall U hit k (ro : router U) e w s v s' text r l,
  handle_read_tls hit (WTake k) ro e w s = Ok (v, s') -> sv_closed v = false ->
  short text -> request_text exact_name text r -> sm_items (tls_stream s') = map Byte text ++ l ->
  kernel_has s'.
(** Missing: requests that end inside a record. *)
Theorem https_pipelined_partial : forall U hit k (ro : router U) e w s v s' text r l,
  handle_read_tls hit (WTake k) ro e w s = Ok (v, s') -> sv_closed v = false ->
  short text -> request_text exact_name text r -> sm_items (tls_stream s') = map Byte text ++ l ->
  tl_buf s' = [] -> kernel_has s'.
Proof.
  intros U hit k ro e w s v s' text r l _ _ Hs Hr Hi Hb. left. intros Hx. unfold tls_stream in Hi. rewrite Hb, Hx in Hi. simpl in Hi.
  destruct (request_text_parts _ _ Hs Hr) as (first & hdrs & Hm & Hg & _). destruct (message_head _ _ _ _ Hm) as (-> & _).
  unfold head_of in Hi. destruct first; done.
Qed.
Print Assumptions https_pipelined_partial.
Lemma https_pipelined_stuck : exists ro v s',
  register [] [] recorder router_new = Ok (kSuccess, ro) /\
  handle_read_tls map_to_list (WTake 9) ro [] wr0 (of_records [ex_text_of (B "hi") ++ ex_text_of (B "yo")] Wait) = Ok (v, s') /\
  sv_closed v = false /\ w_user (sv_world v) = [ex_req (B "hi")] /\
  tls_stream s' = Stream (map Byte (ex_text_of (B "yo"))) Wait /\ ~ kernel_has s'.
Proof.
  destruct recorder_dispatch as (ro & Hro & _).
  pose proof Hro as Hr. vm_compute in Hr. injection Hr as Hr.
  destruct (handle_read_tls map_to_list (WTake 9) ro [] wr0 (of_records [ex_text_of (B "hi") ++ ex_text_of (B "yo")] Wait)) as [[v s']| | | | |] eqn:E;
    [|exfalso; rewrite <- Hr in E; by vm_compute in E..].
  exists ro, v, s'. split; [done|]. split; [done|]. rewrite <- Hr in E. clear Hr Hro. vm_compute in E.
  injection E as <- <-. split; [by vm_compute|]. split; [by vm_compute|]. split; [by vm_compute|].
  intros [H|[H|H]]; by vm_compute in H.
Qed.
(** Two requests in one record: both arrived, the second is in OpenSSL's buffer,
    and the descriptor is not readable. *)
Theorem https_pipelined_refuted : ~ https_pipelined_full.
Proof.
  intros H. destruct https_pipelined_stuck as (ro & v & s' & _ & E & Hc & _ & Es & Hk). apply Hk.
  refine (H _ _ _ _ _ _ _ _ _ (ex_text_of (B "yo")) (ex_req (B "yo")) [] E Hc _ _ _); [by vm_compute|ex_text|].
  by rewrite Es, app_nil_r.
Qed.
Print Assumptions https_pipelined_refuted.

(** The request cut into records within the head and the body: answered; the same
    with the last record missing: closed, no handler, no response. *)
Example https_answers_ex :
  exists out s', response_text out sNOT_FOUND not_found_page /\
    handle_read_tls map_to_list (WTake 1000) (router_new : router (list req)) [] wr0
      (of_records [take 7 (ex_text_of []); drop 7 (ex_text_of []) ++ B "h"; []; B "i"] Wait) = Ok (Served wr0 (Stream [] Wait) [out] out false, s').
Proof.
  set (s := of_records _ _).
  destruct (https_answers (list req) map_to_list (WTake 1000) router_new [] wr0 (ex_text_of (B "hi")) (ex_req (B "hi")) [] s
     (ctx_new (ex_req (B "hi")) resp_new) wr0) as (out & sent & cl & s' & E & _ & _ & Hr & _);
    [apply valid_order_sorted|by vm_compute|apply ex_good|by_compute|done|by vm_compute|by vm_compute
    |intros ? ? Hx; cbn in Hx; by rewrite lookup_empty in Hx|done|done|].
  specialize (Hr eq_refl). exists out, s'. split; [done|].
  assert (sent = out /\ cl = false) as [-> ->]; [|exact E].
  clear Hr. vm_compute in E. injection E as <- <- <- _. by vm_compute.
Qed.
Example https_complete_bodies_ex : forall v s',
  handle_read_tls map_to_list (WTake 1000) (router_new : router (list req)) [] wr0 (of_records [ex_text_of []; B "h"] Eof) = Ok (v, s') ->
  sv_world v = wr0 /\ sv_wrote v = [] /\ sv_closed v = true.
Proof.
  intros v s'. apply (https_complete_bodies _ _ _ _ _ _ (ex_head "/a" "Content-Length") (ex_req []) 2 (B "h") _ (Stream (map Byte (B "h")) Eof));
    [by vm_compute|by vm_compute|apply declares_ex|by vm_compute; lia|by left|by vm_compute|done].
Qed.
