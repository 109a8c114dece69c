(** C44-C47, C51, C85: the request loop and the host filter
    (src/cppnet/http/server/http_server.cpp: HttpServer::HandleRead;
    filter/http_host_filter.hpp). *)
From Verif.Proof Require Import ServerProof.
From Verif.Props Require Import RouterProps.

(** A server that writes down every request its handler sees. *)
Definition record_req : handler (list req) := fun c w =>
  Ok (c, World (w_running w) (w_fs w) (w_opened w) (w_custom w) (w_user w ++ [cx_req c])).
Definition recorder : entry (list req) := Entry (Some record_req) false [].
Definition wr0 : world (list req) := World true (fun _ => Absent true) [] ∅ [].

Lemma recorder_dispatch : exists ro, register [] [] recorder router_new = Ok (kSuccess, ro) /\
  forall p c w, ascii_only p -> w_running w = true -> dispatch ro p c w = record_req c w.
Proof.
  destruct (single_registration [] [] recorder [] c0 wr0) as (ro & Hr & _); [constructor|constructor|constructor|].
  exists ro. split; [done|]. intros p c w Hp Hw.
  destruct (single_registration [] [] recorder p c w) as (ro' & Hr' & Hch); [constructor|constructor|done|].
  rewrite Hr in Hr'. injection Hr' as <-. cbn [app] in Hch.
  assert (Hc : chain [recorder] (c, w) (dispatch ro p c w)).
  { destruct (decide (p = [])); [done|]. by rewrite decide_True in Hch by apply prefix_nil. }
  apply (chain_det _ _ _ _ Hc). unfold record_req.
  eapply chain_called; [done| |done|exact Hw|apply chain_done]. intros f Hf. by apply elem_of_nil in Hf.
Qed.

(** ** C44 *)
Definition not_found_page : bytes := B "<html><body><h1>404 Not Found</h1></body></html>".

Definition one_response_full : Prop := forall U hit wr (ro : router U) e w text r l t,
  valid_order hit -> short text -> request_text exact_name text r -> NUL ∉ rq_body r ->
  exists v out, handle_read hit wr ro e w (Stream (map Byte text ++ l) t) = Ok v /\ sv_wrote v = [out].

(** Missing: handlers that throw or crash, paths that are not ASCII (undefined
    behaviour, C07), a peer that has gone away (C85). *)
Theorem one_response_partial : forall U hit wr (ro : router U) e w text r l t c' w',
  valid_order hit -> short text -> request_text exact_name text r -> NUL ∉ rq_body r -> wr <> WSig ->
  dispatch ro (rt_path (rq_route r)) (ctx_new r resp_new) w = Ok (c', w') ->
  resp_sendable (rs_header (cx_resp c')) -> rs_version (cx_resp c') <> vUNKNOWN -> short (rs_body (cx_resp c')) ->
  exists out sent cl,
    handle_read hit wr ro e w (Stream (map Byte text ++ l) t) = Ok (Served w' (Stream l t) [out] sent cl) /\
    (rs_status (cx_resp c') <> sUNKNOWN -> response_text out (rs_status (cx_resp c')) (rs_body (cx_resp c'))) /\
    (rs_status (cx_resp c') = sUNKNOWN -> response_text out sNOT_FOUND not_found_page) /\
    sent `prefix_of` out /\ (cl = true <-> wr = WFail).
Proof.
  intros U hit wr ro e w text r l t c' w' Hit Hs Hr Hn Hw Hd H1 H2 H3.
  rewrite (handle_read_request hit wr ro e w text r l t Hs Hr Hn), (answer_ok _ _ _ _ _ _ _ _ _ Hd).
  destruct (respond_ok hit wr (cx_resp c') e w' (Stream l t) Hit H1 H2 H3 Hw)
    as (out & sent & cl & E & Ha & Hb & Hc & Hcl & _).
  by exists out, sent, cl.
Qed.

(** No handler at all: 404. *)
Theorem empty_server_answers_404 : forall U hit k e (w : world U) text r l t,
  valid_order hit -> short text -> request_text exact_name text r -> NUL ∉ rq_body r ->
  ascii_only (rt_path (rq_route r)) ->
  exists out, handle_read hit (WTake k) router_new e w (Stream (map Byte text ++ l) t)
      = Ok (Served w (Stream l t) [out] (take k out) false) /\
    response_text out sNOT_FOUND not_found_page.
Proof.
  intros U hit k e w text r l t Hit Hs Hr Hn Ha.
  destruct (handlers_run_partial U [] (rt_path (rq_route r)) (ctx_new r resp_new) w) as (ro & Hro & Hch).
  { constructor. } { done. } { intros before x after Hx. by destruct before. }
  injection Hro as <-.
  assert (Hnil : concerning (registered ([] : list (registration U))) (rt_path (rq_route r)) = []).
  { unfold concerning. generalize (seq 0 (S (length (rt_path (rq_route r))))) as q.
    induction q as [|i q IH]; [reflexivity|]. cbn [flat_map]. by rewrite IH. }
  rewrite Hnil in Hch.
  assert (Hd : dispatch router_new (rt_path (rq_route r)) (ctx_new r resp_new) w = Ok (ctx_new r resp_new, w)) by by inversion Hch.
  rewrite (handle_read_request hit _ _ e w text r l t Hs Hr Hn), (answer_ok _ _ _ _ _ _ _ _ _ Hd).
  destruct (respond_ok hit (WTake k) resp_new e w (Stream l t) Hit) as (out & sent & cl & E & _ & Hb & _ & Hcl & Ht);
    [intros ? ? Hx; cbn in Hx; by rewrite lookup_empty in Hx|done|done|done|].
  rewrite (Ht k eq_refl) in E. destruct cl; [discriminate (proj1 Hcl eq_refl)|].
  exists out. split; [done|]. by apply Hb.
Qed.

(** ** C45 *)
Definition malformed (head : bytes) : Prop :=
  forall first hdrs body, message head first hdrs body -> ~ good_line first.

Definition malformed_400_full : Prop := forall U hit k (ro : router U) e w head l t,
  valid_order hit -> short head -> short e -> shortest_until CRLFCRLF head head [] -> malformed head ->
  exists out, handle_read hit (WTake k) ro e w (Stream (map Byte head ++ l) t)
      = Ok (Served w (Stream l t) [out] (take k out) true) /\
    response_text out sBAD_REQUEST e.

(** Missing: heads with a line feed among the first three bytes. *)
Theorem malformed_400_partial : forall U hit wr (ro : router U) e w head l t,
  valid_order hit -> short head -> short e -> shortest_until CRLFCRLF head head [] -> malformed head ->
  LF ∉ take 3 head -> wr <> WSig ->
  exists out sent, handle_read hit wr ro e w (Stream (map Byte head ++ l) t)
      = Ok (Served w (Stream l t) [out] sent true) /\
    response_text out sBAD_REQUEST e /\ (forall k, wr = WTake k -> sent = take k out).
Proof.
  intros U hit wr ro e w head l t Hit Hs He Hsh Hbad Hlf Hw.
  destruct (read_until_head head l t Hsh Hs Hlf) as [E Hpos].
  unfold handle_read. rewrite E. cbn [mbind outcome_bind]. rewrite (proj2 (Z.leb_gt _ _) Hpos).
  destruct (req_parse_total req_new head Hs) as (rc & r' & Hp & Hrc & Hiff). rewrite Hp. cbn [mbind outcome_bind].
  assert (rc = kLogicErr) as ->.
  { destruct Hrc as [Hok| ->]; [|done]. exfalso. apply Hiff in Hok as (f & h & b & Hm & Hg).
    by apply (Hbad f h b Hm). }
  change (negb (kLogicErr =? kSuccess)%Z) with true. cbv iota.
  set (p := resp_bad_request resp_new e).
  rewrite (resp_build_ok hit p []) by done.
  assert (Ht : response_text (resp_built_line p ++ CRLF ++ crlf_lines (field_lines (hit (resp_built_header p))) ++ CRLF ++ rs_body p)
    (rs_status p) (rs_body p)).
  { apply response_text_built; [done| |done|done]. intros k v Hk Hne.
    unfold p in Hk. cbn [rs_header resp_bad_request resp_new] in Hk.
    unfold resp_type, header_set_content_type in Hk. cbn in Hk.
    apply lookup_insert_Some in Hk as [[<- <-]|[_ Hk]]; [|by rewrite lookup_empty in Hk].
    split; [|done]. repeat split; [by_compute| | |done]; intros H; by apply find_idx_None_contains in H. }
  set (out := resp_built_line p ++ _) in *.
  destruct wr as [k| |]; [| |done]; cbn [sock_write mbind outcome_bind snd].
  - exists out, (take k out). split; [done|]. split; [done|]. by intros k' [= ->].
  - exists out, []. split; [done|]. by split.
Qed.

Theorem malformed_400_refuted : ~ malformed_400_full.
Proof.
  intros H. pose (head := [LF] ++ CRLFCRLF).
  destruct (H unit map_to_list 0 router_new [] (World true (fun _ => Absent true) [] ∅ tt) head [] Eof)
    as (out & Hr & _).
  - apply valid_order_sorted.
  - by vm_compute.
  - by vm_compute.
  - pose proof (find_shortest CRLFCRLF head 1 eq_refl) as Hx. done.
  - intros first hdrs body Hm (m & tg & v & Hl & Hk & _). destruct Hm as (Hh & _).
    destruct Hl as (-> & _). unfold known_methods in Hk.
    repeat (apply elem_of_cons in Hk as [->|Hk]; [by vm_compute in Hh|]). by apply elem_of_nil in Hk.
  - by vm_compute in Hr.
Qed.

(** ** C46 *)
Definition pipelined_for (named : bytes -> Prop) : Prop := forall hit e texts rs wrs ro l t,
  valid_order hit -> register [] [] recorder router_new = Ok (kSuccess, ro) ->
  Forall2 (request_text named) texts rs -> Forall short texts ->
  Forall (fun r => NUL ∉ rq_body r /\ ascii_only (rt_path (rq_route r))) rs ->
  length wrs = length rs -> Forall (fun wr => exists k, wr = WTake k) wrs ->
  exists w' outs, serve hit wrs ro e wr0 (Stream (map Byte (concat texts) ++ l) t) = Ok (w', Stream l t, outs, false) /\
    w_user w' = rs /\ length outs = length rs.
Definition pipelined_full : Prop := pipelined_for any_case_name.

(** Missing: other spellings of Content-Length; NUL bytes in bodies (C29). *)
Theorem pipelined_partial : pipelined_for exact_name.
Proof.
  intros hit e texts rs wrs ro l t Hit Hro HF Hsh Hall Hlen Hwr.
  destruct recorder_dispatch as (ro' & Hro' & Hdis). rewrite Hro in Hro'. injection Hro' as <-.
  assert (Hgen : forall w, w_running w = true ->
    exists w' outs, serve hit wrs ro e w (Stream (map Byte (concat texts) ++ l) t) = Ok (w', Stream l t, outs, false) /\
      w_user w' = w_user w ++ rs /\ length outs = length rs).
  { revert wrs Hlen Hwr. induction HF as [|text r texts rs Hr HF IH]; intros wrs Hlen Hwr w Hw.
    - destruct wrs; [|done]. exists w, []. cbn. split; [done|]. by rewrite app_nil_r.
    - destruct wrs as [|wr wrs]; [done|]. apply Forall_cons in Hsh as [Hs Hsh].
      apply Forall_cons in Hall as [[Hn Ha] Hall]. apply Forall_cons in Hwr as [[k ->] Hwr].
      cbn [serve concat]. rewrite map_app, <- app_assoc.
      rewrite (handle_read_request hit _ ro e w text r _ t Hs Hr Hn).
      pose proof (Hdis (rt_path (rq_route r)) (ctx_new r resp_new) w Ha Hw) as Hd.
      rewrite (answer_ok _ _ _ _ _ _ _ _ _ Hd).
      set (w1 := World (w_running w) (w_fs w) (w_opened w) (w_custom w) (w_user w ++ [r])).
      destruct (respond_ok hit (WTake k) resp_new e w1 (Stream (map Byte (concat texts) ++ l) t) Hit)
        as (out & sent & cl & E & _ & _ & _ & Hcl & _);
        [intros ? ? Hx; cbn in Hx; by rewrite lookup_empty in Hx|done|done|done|].
      change (cx_resp _) with resp_new. cbn [cx_req ctx_new]. fold w1. rewrite E. cbn [mbind outcome_bind sv_closed].
      destruct cl; [discriminate (proj1 Hcl eq_refl)|]. cbn [sv_world sv_rest sv_wrote].
      destruct (IH Hsh Hall wrs ltac:(by injection Hlen) Hwr w1 Hw) as (w' & outs & E2 & Hu & Hl).
      rewrite E2. cbn [mbind outcome_bind]. do 2 eexists. split; [done|].
      split; [|by cbn; rewrite Hl]. rewrite Hu. cbn. by rewrite <- app_assoc. }
  destruct (Hgen wr0 eq_refl) as (w' & outs & H). by exists w', outs.
Qed.

(** ** C47 *)

(** The head of a request that declares a body of [n] bytes. *)
Definition declares (head : bytes) (r : req) (n : nat) : Prop :=
  forall body, length body = n -> request_text exact_name (head ++ body)
    (Req (rq_method r) (rq_version r) (rq_header r) (rq_route r) body).

(** [s] delivers [part] and then no more: the peer closed or reset the
    connection, or the read timed out. *)
Definition breaks_after (part : bytes) (s : stream) : Prop :=
  s = Stream (map Byte part) Eof \/ s = Stream (map Byte part) Err \/
  exists l t, s = Stream (map Byte part ++ Gap :: l) t.

Definition complete_bodies_full : Prop := forall U hit wr (ro : router U) e w head r n part s s0 v,
  short head -> (N.of_nat (length head + n) < 2 ^ 31)%N -> declares head r n -> length part < n ->
  breaks_after part s0 -> sm_items s = map Byte head ++ sm_items s0 -> sm_tail s = sm_tail s0 ->
  handle_read hit wr ro e w s = Ok v -> sv_world v = w /\ sv_wrote v = [].

Lemma recv_all_breaks n part s0 :
  length part < n -> breaks_after part s0 ->
  exists s1 rc, recv_all n s0 = Ok (rc, part, s1) /\
    ((part <> [] /\ rc = Z.of_nat (length part)) \/ (part = [] /\ (rc <= 0)%Z)).
Proof.
  intros Hlt Hb. unfold recv_all.
  assert (Hgap : forall l, grab n (map Byte part ++ Gap :: l) = (part, l, true)).
  { intros l. clear Hb. revert n Hlt. induction part as [|c part IH]; intros [|n] Hlt; simpl in *; try lia; [done|].
    rewrite IH; [done|lia]. }
  assert (Hne : (length part =? n) = false) by (apply Nat.eqb_neq; lia).
  destruct Hb as [->|[->|(l & t & ->)]]; cbn [sm_items sm_tail];
    rewrite ?(grab_end part n Hlt), ?Hgap, Hne; do 2 eexists; (split; [done|]);
    unfold rc_of; destruct part; cbn; (by left) || (right; split; [done|lia]).
Qed.

Lemma handle_read_breaks {U} hit wr (ro : router U) e w head r n part s s0 :
  short head -> (N.of_nat (length head + n) < 2 ^ 31)%N -> declares head r n -> length part < n ->
  breaks_after part s0 -> sm_items s = map Byte head ++ sm_items s0 -> sm_tail s = sm_tail s0 ->
  exists s1,
    (part = [] -> handle_read hit wr ro e w s = Ok (Served w s1 [] [] true)) /\
    (part <> [] -> handle_read hit wr ro e w s =
      answer hit wr ro (Req (rq_method r) (rq_version r) (rq_header r) (rq_route r) (cstr part)) e w s1).
Proof.
  intros Hs Hn Hd Hlt Hb Hi Ht.
  assert (exists body : bytes, length body = n) as [body Hbl] by (exists (replicate n "a"%char); apply replicate_length).
  assert (Hst : short (head ++ body)).
  { unfold short. rewrite app_length, Hbl. done. }
  destruct (request_text_parts _ _ Hst (Hd body Hbl)) as (first & hdrs & Hm & Hg & Hp & Hcl).
  cbn [rq_method rq_version rq_header rq_route rq_body] in *.
  destruct (message_head _ _ _ _ Hm) as (Htx & _ & Hsh).
  apply app_inj_2 in Htx as [-> _]; [|done].
  assert (Hlf : LF ∉ take 3 (head_of first hdrs)) by (unfold head_of; by apply good_line_start).
  destruct (read_until_head (head_of first hdrs) (sm_items s0) (sm_tail s) Hsh Hs Hlf) as [E Hpos].
  destruct s as [si stl]. cbn [sm_items sm_tail] in *. subst si.
  unfold handle_read. rewrite E. cbn [mbind outcome_bind].
  rewrite (proj2 (Z.leb_gt _ _) Hpos), Hp. cbn [mbind outcome_bind rq_header].
  change (negb (kSuccess =? kSuccess)%Z) with false. cbv iota.
  assert (Hc : header_get_content_length (rq_header r) = Z.of_nat n).
  { destruct Hcl as [->|[Hx _]]; [by rewrite Hbl|]. rewrite Hx in Hbl. simpl in Hbl. lia. }
  rewrite Hc. rewrite (proj2 (Z.ltb_lt _ _)) by lia. rewrite Nat2Z.id.
  destruct (recv_all_breaks n part s0 Hlt Hb) as (s1 & rc & Er & Hcase).
  assert (Hs0 : Stream (sm_items s0) stl = s0) by (destruct s0; cbn in *; by subst).
  rewrite Hs0. unfold read_string. rewrite Er. cbn [mbind outcome_bind].
  exists s1. split; intros Hpart.
  - destruct Hcase as [[? _]|[_ Hrc]]; [done|]. by rewrite (proj2 (Z.leb_le _ _) Hrc).
  - destruct Hcase as [[_ ->]|[? _]]; [|done].
    rewrite (proj2 (Z.leb_gt _ _)); [done|]. destruct part; [done|]. simpl. lia.
Qed.

(** No handler runs when not a single byte of the body arrived.  Missing: when
    some did, the handlers run on them (next theorem). *)
Theorem complete_bodies_partial : forall U hit wr (ro : router U) e w head r n s s0,
  short head -> (N.of_nat (length head + n) < 2 ^ 31)%N -> declares head r n -> 0 < n ->
  breaks_after [] s0 -> sm_items s = map Byte head ++ sm_items s0 -> sm_tail s = sm_tail s0 ->
  exists s1, handle_read hit wr ro e w s = Ok (Served w s1 [] [] true).
Proof.
  intros U hit wr ro e w head r n s s0 H1 H2 H3 H4 H5 H6 H7.
  destruct (handle_read_breaks hit wr ro e w head r n [] s s0 H1 H2 H3 H4 H5 H6 H7) as (s1 & H & _).
  exists s1. by apply H.
Qed.

(** A truncated body is handed to the handlers as if it were the whole. *)
Theorem truncated_body_is_handled : forall hit k ro e head r n part s s0,
  valid_order hit -> register [] [] recorder router_new = Ok (kSuccess, ro) ->
  ascii_only (rt_path (rq_route r)) ->
  short head -> (N.of_nat (length head + n) < 2 ^ 31)%N -> declares head r n -> length part < n -> part <> [] ->
  NUL ∉ part ->
  breaks_after part s0 -> sm_items s = map Byte head ++ sm_items s0 -> sm_tail s = sm_tail s0 ->
  exists v, handle_read hit (WTake k) ro e wr0 s = Ok v /\
    w_user (sv_world v) = [Req (rq_method r) (rq_version r) (rq_header r) (rq_route r) part].
Proof.
  intros hit k ro e head r n part s s0 Hit Hro Ha H1 H2 H3 H4 Hne Hnul H5 H6 H7.
  destruct (handle_read_breaks hit (WTake k) ro e wr0 head r n part s s0 H1 H2 H3 H4 H5 H6 H7) as (s1 & _ & H).
  rewrite (H Hne), cstr_no_nul by done.
  destruct recorder_dispatch as (ro' & Hro' & Hdis). rewrite Hro in Hro'. injection Hro' as <-.
  set (q := Req _ _ _ _ part).
  rewrite (answer_ok _ _ _ _ _ _ _ _ _ (Hdis (rt_path (rq_route q)) (ctx_new q resp_new) wr0 Ha eq_refl)).
  change (cx_resp _) with resp_new.
  destruct (respond_ok hit (WTake k) resp_new e
      (World true (fun _ => Absent true) [] ∅ [q] : world (list req)) s1 Hit) as (out & sent & cl & E & _);
    [intros ? ? Hx; cbn in Hx; by rewrite lookup_empty in Hx|done|done|done|].
  eexists. split; [exact E|]. done.
Qed.

(** ** C51 *)

(** The host a request names; none counts as the empty name. *)
Definition named_host (r : req) : bytes := default [] (rq_header r !! B "Host").

Definition host_filter_full : Prop :=
  (forall re r, host_filter (Some re) [] r = true <-> re (named_host r) = true) /\
  (forall wild r, host_filter None wild r = true <-> glob wild (named_host r)).

Lemma get_host r : header_get_host (rq_header r) = named_host r.
Proof. unfold header_get_host, named_host. by destruct (_ !! _). Qed.

(** Missing: requests without a host, for a filter with only a regex. *)
Theorem host_filter_partial :
  (forall re r, named_host r <> [] -> host_filter (Some re) [] r = true <-> re (named_host r) = true) /\
  (forall wild r, host_filter None wild r = true <-> glob wild (named_host r)).
Proof.
  split.
  - intros re r Hne. unfold host_filter. rewrite get_host.
    assert (wildcard_match [] (named_host r) = false) as ->.
    { apply not_true_is_false. rewrite wildcard_match_glob. inversion 1. congruence. }
    by rewrite orb_false_r.
  - intros wild r. unfold host_filter. rewrite get_host. cbn [orb]. apply wildcard_match_glob.
Qed.

(** A request without a Host header passes every regex filter. *)
Theorem host_filter_refuted : ~ host_filter_full.
Proof.
  intros [H _]. pose proof (proj1 (H (fun _ => false) req_new)) as Hx.
  discriminate Hx. by vm_compute.
Qed.

(** ** C85 *)
Definition survives_peer_full : Prop := forall U hit wr (ro : router U) e w text r l t c' w',
  valid_order hit -> short text -> request_text exact_name text r -> NUL ∉ rq_body r ->
  dispatch ro (rt_path (rq_route r)) (ctx_new r resp_new) w = Ok (c', w') ->
  exists v, handle_read hit wr ro e w (Stream (map Byte text ++ l) t) = Ok v /\
    (wr = WFail -> sv_closed v = true).

(** Missing: the write that raises SIGPIPE. *)
Theorem survives_peer_partial : forall U hit wr (ro : router U) e w text r l t c' w',
  valid_order hit -> short text -> request_text exact_name text r -> NUL ∉ rq_body r -> wr <> WSig ->
  dispatch ro (rt_path (rq_route r)) (ctx_new r resp_new) w = Ok (c', w') ->
  exists v, handle_read hit wr ro e w (Stream (map Byte text ++ l) t) = Ok v /\
    sv_world v = w' /\ sv_rest v = Stream l t /\ length (sv_wrote v) = 1 /\
    (sv_closed v = true <-> wr = WFail).
Proof.
  intros U hit wr ro e w text r l t c' w' Hit Hs Hr Hn Hw Hd.
  rewrite (handle_read_request hit wr ro e w text r l t Hs Hr Hn), (answer_ok _ _ _ _ _ _ _ _ _ Hd).
  unfold respond. set (p1 := if decide _ then _ else _).
  destruct (resp_build hit p1 []) as [[rc p2] buf].
  destruct (if negb (rc =? kSuccess)%Z then _ else _) as [p3 buf3].
  destruct wr as [k| |]; [| |done]; cbn [sock_write mbind outcome_bind]; eexists; (split; [done|]); cbn;
    do 3 (split; [done|]); [|done].
  unfold rc_of. rewrite (proj2 (Z.ltb_ge _ _)) by lia. done.
Qed.

(** ** Examples and refutations *)
Lemma last_val_insert_all kvs k : insert_all ∅ kvs !! k = last_val kvs k.
Proof. rewrite insert_all_lookup, lookup_empty. by destruct (last_val kvs k). Qed.

Ltac no_match := let H := fresh in intros H; by apply find_idx_None_contains in H.

Definition ex_head (path cl : string) : bytes :=
  B "POST " ++ B path ++ B " HTTP/1.1" ++ CRLF ++ B "Host: a.b" ++ CRLF ++ B cl ++ B ": 2" ++ CRLF ++ CRLF.
Definition ex_r (path cl : string) (body : bytes) : req :=
  Req mPOST v1_1 (insert_all ∅ [(B "Host", B "a.b"); (B cl, B "2")]) (Route (B path) ∅) body.

Lemma ex_request_text (named : bytes -> Prop) path cl body :
  "?"%char ∉ B path -> SP ∉ B path -> CR ∉ B path -> B path <> [] ->
  named (B cl) -> ~ named (B "Host") -> ":"%char ∉ B cl -> CR ∉ B cl -> B cl <> [] -> B cl <> B "Host" ->
  length body = 2 ->
  request_text named (ex_head path cl ++ body) (ex_r path cl body).
Proof.
  intros Hq Hsp Hcr Hne Hn Hnh Hcol Hcrl Hcl Hneq Hlen.
  exists (B "POST " ++ B path ++ B " HTTP/1.1"), [B "Host: a.b"; B cl ++ B ": 2"],
    [(B "Host", B "a.b"); (B cl, B "2")], (B path), [].
  assert (Hcr1 : CR ∉ B "POST " ++ B path ++ B " HTTP/1.1").
  { rewrite !not_elem_of_app. split; [by_compute|]. split; [done|by_compute]. }
  assert (Hcr2 : CR ∉ B cl ++ B ": 2").
  { rewrite not_elem_of_app. split; [done|by_compute]. }
  split; [|split; [|split; [done|split; [done|split; [done|split; [|split; [|split; [|split; [|split; [|]]]]]]]]]].
  - split; [|split].
    + unfold ex_head, crlf_lines. cbn [map concat rq_body ex_r]. by rewrite <- !app_assoc.
    + by apply no_cr_one_line.
    + repeat constructor; try done.
      * no_match.
      * by apply no_cr_one_line.
      * by destruct (B cl).
  - split; [done|]. split; [by_compute|]. split; [done|by_compute].
  - by constructor.
  - intros k. cbn. by rewrite lookup_empty.
  - repeat constructor; cbn.
    + exists 1. split; [by_compute|]. done.
    + exists 1. done.
  - by repeat constructor.
  - intros k. apply last_val_insert_all.
  - left. exists (B cl). split; [done|]. split.
    + cbn [rq_body ex_r]. rewrite Hlen. cbn [last_val]. by rewrite decide_True.
    + intros k' v Hin Hk'. apply elem_of_cons in Hin as [[= -> ->]|Hin]; [done|].
      by apply elem_of_list_singleton in Hin as [= -> ->].
Qed.

Ltac ex_text := apply ex_request_text; [by_compute|by_compute|by_compute|done|done|done|by_compute|by_compute|done|done|done].

Definition ex_req (body : bytes) : req := ex_r "/a" "Content-Length" body.
Definition ex_text_of (body : bytes) : bytes := ex_head "/a" "Content-Length" ++ body.

Example ex_good : request_text exact_name (ex_text_of (B "hi")) (ex_req (B "hi")).
Proof. ex_text. Qed.

Example one_response_ex :
  exists out, response_text out sNOT_FOUND not_found_page /\
    handle_read map_to_list (WTake 1000) router_new [] wr0 (of_bytes (ex_text_of (B "hi")) Eof) =
    Ok (Served wr0 (Stream [] Eof) [out] out false).
Proof.
  destruct (empty_server_answers_404 (list req) map_to_list 1000 [] wr0 (ex_text_of (B "hi")) (ex_req (B "hi")) [] Eof)
    as (out & H & Hr); [apply valid_order_sorted|by vm_compute|apply ex_good|by_compute|by_compute|].
  exists out. split; [done|]. unfold of_bytes. rewrite <- (app_nil_r (map Byte _)), H.
  vm_compute in H. injection H as <-. by vm_compute.
Qed.

Theorem one_response_refuted : ~ one_response_full.
Proof.
  intros H. pose (path := String (ascii_of_nat 200) EmptyString).
  destruct (H (list req) map_to_list (WTake 0) router_new [] wr0 (ex_head path "Content-Length" ++ B "hi")
    (ex_r path "Content-Length" (B "hi")) [] Eof) as (v & out & Hh & _);
    [apply valid_order_sorted|by vm_compute|ex_text|by_compute|].
  by vm_compute in Hh.
Qed.

Example malformed_ex : malformed (B "GET / HTTP/1.1 x" ++ CRLFCRLF) /\
  shortest_until CRLFCRLF (B "GET / HTTP/1.1 x" ++ CRLFCRLF) (B "GET / HTTP/1.1 x" ++ CRLFCRLF) [] /\
  exists out, handle_read map_to_list (WTake 1000) (router_new : router (list req)) (B "bad") wr0
    (of_bytes (B "GET / HTTP/1.1 x" ++ CRLFCRLF) Wait) = Ok (Served wr0 (Stream [] Wait) [out] out true).
Proof.
  split; [|split].
  - intros first hdrs body Hm Hg.
    destruct (req_parse_total req_new (B "GET / HTTP/1.1 x" ++ CRLFCRLF)) as (rc & r' & Hp & _ & Hiff); [by vm_compute|].
    assert (rc = kSuccess) as -> by (apply Hiff; by exists first, hdrs, body).
    vm_compute in Hp. congruence.
  - exact (find_shortest CRLFCRLF (B "GET / HTTP/1.1 x" ++ CRLFCRLF) 16 eq_refl).
  - eexists. by vm_compute.
Qed.

(** Two pipelined requests. *)
Example pipelined_ex : exists ro w' outs,
  register [] [] recorder router_new = Ok (kSuccess, ro) /\
  serve map_to_list [WTake 9; WTake 9] ro [] wr0
    (of_bytes (ex_text_of (B "hi") ++ ex_text_of (B "yo")) Wait) = Ok (w', Stream [] Wait, outs, false) /\
  w_user w' = [ex_req (B "hi"); ex_req (B "yo")].
Proof.
  destruct recorder_dispatch as (ro & Hro & _).
  destruct (pipelined_partial map_to_list [] [ex_text_of (B "hi"); ex_text_of (B "yo")]
    [ex_req (B "hi"); ex_req (B "yo")] [WTake 9; WTake 9] ro [] Wait) as (w' & outs & H & Hu & _).
  - apply valid_order_sorted.
  - done.
  - constructor; [ex_text|]. constructor; [ex_text|constructor].
  - repeat constructor.
  - constructor; [by split; by_compute|]. constructor; [by split; by_compute|constructor].
  - done.
  - repeat constructor; by eexists.
  - exists ro, w', outs. split; [done|]. split; [|done]. cbn [concat] in H. by rewrite !app_nil_r in H.
Qed.

(** HTTP field names are case-insensitive; here they are not. *)
Theorem pipelined_refuted : ~ pipelined_full.
Proof.
  intros H. destruct recorder_dispatch as (ro & Hro & _).
  destruct (H map_to_list [] [ex_head "/a" "content-length" ++ B "hi"] [ex_r "/a" "content-length" (B "hi")]
    [WTake 9] ro [] Wait) as (w' & outs & Hs & Hu & _).
  - apply valid_order_sorted.
  - done.
  - constructor; [ex_text|constructor].
  - repeat constructor.
  - constructor; [by split; by_compute|constructor].
  - done.
  - repeat constructor; by eexists.
  - vm_compute in Hro. injection Hro as <-. vm_compute in Hs. congruence.
Qed.

Example declares_ex : declares (ex_head "/a" "Content-Length") (ex_req []) 2.
Proof. intros body Hl. ex_text. Qed.

Theorem complete_bodies_refuted : ~ complete_bodies_full.
Proof.
  intros H. destruct recorder_dispatch as (ro & Hro & _).
  destruct (truncated_body_is_handled map_to_list 0 ro [] (ex_head "/a" "Content-Length") (ex_req []) 2 (B "h")
    (of_bytes (ex_text_of (B "h")) Eof) (Stream (map Byte (B "h")) Eof)) as (v & Hh & Hu);
    [apply valid_order_sorted|done|by_compute|by vm_compute|by vm_compute|apply declares_ex|by vm_compute; lia|done|by_compute
    |by left|by vm_compute|done|].
  destruct (H _ map_to_list (WTake 0) ro [] wr0 (ex_head "/a" "Content-Length") (ex_req []) 2 (B "h")
    (of_bytes (ex_text_of (B "h")) Eof) (Stream (map Byte (B "h")) Eof) v) as [Hw _];
    [by vm_compute|by vm_compute|apply declares_ex|by vm_compute; lia|by left|by vm_compute|done|done|].
  by rewrite Hw in Hu.
Qed.

Example complete_bodies_ex : exists s1,
  handle_read map_to_list (WTake 0) (router_new : router (list req)) [] wr0 (of_bytes (ex_head "/a" "Content-Length") Err)
    = Ok (Served wr0 s1 [] [] true).
Proof.
  eapply (complete_bodies_partial _ _ _ _ _ _ (ex_head "/a" "Content-Length") (ex_req []) 2 _ (Stream [] Err));
    [by vm_compute|by vm_compute|apply declares_ex|lia|right; by left|by vm_compute|done].
Qed.

Example host_filter_ex :
  host_filter (Some (fun h => bool_decide (h = B "a.b"))) [] (ex_req []) = true /\
  host_filter None (B "*.b") (ex_req []) = true /\ host_filter None (B "*.c") (ex_req []) = false.
Proof. by vm_compute. Qed.

Theorem survives_peer_refuted : ~ survives_peer_full.
Proof.
  intros H. destruct recorder_dispatch as (ro & Hro & Hdis).
  destruct (H (list req) map_to_list WSig ro [] wr0 (ex_text_of (B "hi")) (ex_req (B "hi")) [] Eof _ _
    valid_order_sorted ltac:(by vm_compute) ex_good ltac:(by_compute)
    (Hdis (B "/a") (ctx_new (ex_req (B "hi")) resp_new) wr0 ltac:(by_compute) eq_refl)) as (v & Hv & _).
  vm_compute in Hro. injection Hro as <-. by vm_compute in Hv.
Qed.

Print Assumptions one_response_partial.
Print Assumptions empty_server_answers_404.
Print Assumptions one_response_refuted.
Print Assumptions malformed_400_partial.
Print Assumptions malformed_400_refuted.
Print Assumptions pipelined_partial.
Print Assumptions pipelined_refuted.
Print Assumptions complete_bodies_partial.
Print Assumptions truncated_body_is_handled.
Print Assumptions complete_bodies_refuted.
Print Assumptions host_filter_partial.
Print Assumptions host_filter_refuted.
Print Assumptions survives_peer_partial.
Print Assumptions survives_peer_refuted.
