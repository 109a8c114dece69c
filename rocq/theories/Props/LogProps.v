(** C163-C166: what people are told: the reason in a 400, the server's log, the
    client's error text
    (src/cppnet/http/server/http_server.cpp: HttpServer::HandleRead,
    http/client/http_client.cpp: HttpClient::Send, err_msg_ of HttpReq). *)
From Verif.Proof Require Import LogProof.
From Verif.Props Require Import MessageProps RouterProps SocketProps ServerProps ClientProps.

(** ** C163 *)

(** Whenever a malformed head is answered, the answer is a 400 whose body is the
    reason, and the reason is in the log. *)
Theorem rejected_is_told_why : forall U fd rerr werr hit wr (ro : router U) w head l t log v,
  valid_order hit -> short head -> shortest_until CRLFCRLF head head [] -> malformed head ->
  handle_read_log fd rerr werr hit wr ro w (Stream (map Byte head ++ l) t) = (log, Ok v) ->
  exists m out, reason head m /\ m <> [] /\ sv_wrote v = [out] /\ response_text out sBAD_REQUEST m /\
    sv_world v = w /\ sv_closed v = true /\ log = [(kError, B "[req.Parse]:" ++ m); resp_entry fd sBAD_REQUEST].
Proof.
  intros U fd rerr werr hit wr ro w head l t log v Hit Hs Hsh Hbad H.
  assert (Hlf : LF ∉ take 3 head).
  { intros Hlf. unfold handle_read_log in H.
    change (read_until [] CRLFCRLF ?s) with (until_loop CRLFCRLF (sm_items s) (sm_tail s) NUL []) in H. cbn [sm_items sm_tail] in H.
    rewrite (until_throw CRLFCRLF LF eq_refl ltac:(done) ltac:(by vm_compute) head l t) in H; [done|by apply short_fits|].
    apply elem_of_list_lookup in Hlf as [i Hi].
    assert (i < 3) by (apply lookup_lt_Some in Hi; rewrite take_length in Hi; lia).
    rewrite lookup_take in Hi by done. exists i, LF. repeat split; [done|]. simpl. lia. }
  destruct (read_until_head head l t Hsh Hs Hlf) as [E Hpos].
  unfold handle_read_log in H. rewrite E in H. cbn [log_bind] in H.
  rewrite (proj2 (Z.eqb_neq _ _)), (proj2 (Z.ltb_ge _ _)) in H by lia.
  destruct (req_parse_total req_new head Hs) as (rc & r' & Hp & Hrc & Hiff). rewrite Hp in H. cbn [log_bind] in H.
  assert (rc = kLogicErr) as ->.
  { destruct Hrc as [Hok| ->]; [|done]. exfalso. apply Hiff in Hok as (f & h & b & Hm & Hg).
    by apply (Hbad f h b Hm). }
  change (negb (kLogicErr =? kSuccess)%Z) with true in H. cbv iota in H.
  destruct (req_parse_reason req_text_new req_new head _ _ Hs Hp) as (t' & Ht & _ & Hr).
  specialize (Hr ltac:(done)). rewrite Ht in H. cbn [log_bind] in H. set (m := qt_own t') in *.
  assert (Hmm : m <> [] /\ short m) by (destruct Hr; by vm_compute).
  destruct Hmm as [Hm0 Hms].
  set (p := resp_bad_request resp_new m) in *.
  rewrite (resp_build_ok hit p []) in H by done.
  assert (Hx : response_text (resp_built_line p ++ CRLF ++ crlf_lines (field_lines (hit (resp_built_header p))) ++ CRLF ++ rs_body p)
    (rs_status p) (rs_body p)).
  { apply response_text_built; [done| |done|done]. intros k x Hk Hne.
    unfold p in Hk. cbn [rs_header resp_bad_request resp_new] in Hk.
    unfold resp_type, header_set_content_type in Hk. cbn in Hk.
    apply lookup_insert_Some in Hk as [[<- <-]|[_ Hk]]; [|by rewrite lookup_empty in Hk].
    split; [|done]. repeat split; [by_compute| | |done]; intros Hc; by apply find_idx_None_contains in Hc. }
  set (out := resp_built_line p ++ _) in *. cbv iota beta in H.
  destruct wr as [k| |]; cbn [sock_write log_bind log_say fst snd app] in H; [injection H as <- <-..|done];
    by exists m, out.
Qed.

(** The reason is the one there is. *)
Theorem one_reason : forall s m m', reason s m -> reason s m' -> m = m'.
Proof. exact reason_unique. Qed.

Example rejected_is_told_why_ex :
  malformed (B "BREW /pot HTTP/1.1" ++ CRLFCRLF) /\
  reason (B "BREW /pot HTTP/1.1" ++ CRLFCRLF) (B "[logicerr]:invalid http method") /\
  exists log out, handle_read_log 7 None [] map_to_list (WTake 1000) (router_new : router (list req)) wr0
    (of_bytes (B "BREW /pot HTTP/1.1" ++ CRLFCRLF) Wait) = (log, Ok (Served wr0 (Stream [] Wait) [out] out true)) /\
    log = [(kError, B "[req.Parse]:[logicerr]:invalid http method"); resp_entry 7 sBAD_REQUEST].
Proof.
  assert (Hm : message (B "BREW /pot HTTP/1.1" ++ CRLFCRLF) (B "BREW /pot HTTP/1.1") [] []).
  { split; [done|]. split; [|constructor]. apply no_cr_one_line. by_compute. }
  assert (Hl : request_line (B "BREW /pot HTTP/1.1") (B "BREW") (B "/pot") (B "HTTP/1.1")).
  { split; [done|]. split; [by_compute|]. split; by_compute. }
  split; [|split].
  - intros first hdrs body Hm' Hg.
    destruct (req_parse_total req_new (B "BREW /pot HTTP/1.1" ++ CRLFCRLF)) as (rc & r' & Hp & _ & Hiff); [by vm_compute|].
    assert (rc = kSuccess) as -> by (apply Hiff; by exists first, hdrs, body).
    vm_compute in Hp. congruence.
  - eapply why_method; [exact Hm|exact Hl|by_compute].
  - do 2 eexists. split; by vm_compute.
Qed.

(** ** C164 *)

(** [out] is an answer with status [st]. *)
Definition says_status (out : bytes) (st : status_code) : Prop := exists ver rest,
  out = ver ++ SP :: int_to_string (status_num st) ++ SP :: status_str st ++ CRLF ++ rest /\ SP ∉ ver.

(** For a call that returns: the log has an entry "resp: ..." with a status exactly
    if an answer with that status was handed over to the peer. *)
Definition answers_logged_for (ok : wres -> Prop) : Prop := forall U fd rerr werr hit wr (ro : router U) w s log v st,
  ok wr -> handle_read_log fd rerr werr hit wr ro w s = (log, Ok v) ->
  (resp_entry fd st ∈ log <-> wr <> WFail /\ exists out, sv_wrote v = [out] /\ says_status out st).
Definition answers_logged_full : Prop := answers_logged_for (fun _ => True).

Lemma says_status_det out st st' : says_status out st -> says_status out st' -> st = st'.
Proof.
  intros (v1 & r1 & E1 & H1) (v2 & r2 & E2 & H2). rewrite E1 in E2.
  apply cut_at_char_inj in E2 as [_ E2]; [|done..].
  assert (Hn : forall c, SP ∉ int_to_string (status_num c)) by (intros c [H|H]%int_to_string_chars; done).
  apply cut_at_char_inj in E2 as [_ E2]; [|done..].
  change CRLF with (CR :: drop 1 CRLF) in E2. cbn [app] in E2.
  apply cut_at_char_inj in E2 as [E2 _]; [|apply status_str_no_cr..].
  by rewrite <- (status_of_str_str st), E2, status_of_str_str.
Qed.

Lemma resp_entry_inj fd st st' : resp_entry fd st = resp_entry fd st' -> st = st'.
Proof.
  unfold resp_entry. intros [= E]. apply app_inv_tail in E.
  by rewrite <- (status_of_str_str st), E, status_of_str_str.
Qed.
Lemma resp_not_req fd st fd' m p : resp_entry fd st <> req_entry fd' m p.
Proof. done. Qed.
Lemma resp_not_error fd st x : resp_entry fd st <> (kError, x).
Proof. done. Qed.

Lemma built_says hit p rest :
  says_status (resp_built_line p ++ CRLF ++ crlf_lines (field_lines (hit (resp_built_header p))) ++ CRLF ++ rest) (rs_status p).
Proof.
  exists (version_str (rs_version p)). unfold resp_built_line. eexists. split.
  - repeat first [rewrite <- !app_assoc|progress cbn [app]]. reflexivity.
  - by destruct (version_str_chars (rs_version p)).
Qed.

Lemma respond_log_spec {U} fd werr hit wr p (w : world U) s log v :
  respond_log fd werr hit wr p w s = (log, Ok v) ->
  exists st out, says_status out st /\ sv_wrote v = [out] /\
    ((wr <> WFail /\ log = [resp_entry fd st] /\ sv_closed v = false) \/
     (wr = WFail /\ log = [(kError, B "[soc.Write]" ++ werr)] /\ sv_closed v = true)) /\
    (rs_status p <> sUNKNOWN -> st = rs_status p) /\ (rs_status p = sUNKNOWN -> st = sNOT_FOUND).
Proof.
  unfold respond_log.
  set (p1 := if decide (rs_status p = sUNKNOWN) then resp_not_found p else p).
  assert (Hst : rs_status p1 <> sUNKNOWN) by (unfold p1; by destruct (decide (rs_status p = sUNKNOWN))).
  assert (Hp : (rs_status p <> sUNKNOWN -> rs_status p1 = rs_status p) /\ (rs_status p = sUNKNOWN -> rs_status p1 = sNOT_FOUND)).
  { unfold p1. by destruct (decide (rs_status p = sUNKNOWN)). }
  rewrite (resp_build_ok hit p1 [] Hst). change (negb (kSuccess =? kSuccess)%Z) with false. cbv iota beta.
  pose proof (built_says hit p1 (rs_body p1)) as Hsay. set (out := resp_built_line p1 ++ _) in *.
  destruct wr as [k| |]; cbn [sock_write log_bind log_say fst snd app].
  - unfold rc_of. rewrite (proj2 (Z.ltb_ge _ _)) by lia. intros [= <- <-]. exists (rs_status p1), out.
    split; [done|]. split; [done|]. split; [by left|done].
  - intros [= <- <-]. exists (rs_status p1), out. split; [done|]. split; [done|]. split; [by right|done].
  - done.
Qed.

(** Missing: 400 answers are logged as given even if writing them fails. *)
Theorem answers_logged_partial : answers_logged_for (fun wr => wr <> WFail).
Proof.
  intros U fd rerr werr hit wr ro w s log v st Hw H. unfold handle_read_log in H.
  assert (Hone : forall es st' out, log = es ++ [resp_entry fd st'] -> resp_entry fd st ∉ es ->
    sv_wrote v = [out] -> says_status out st' ->
    (resp_entry fd st ∈ log <-> wr <> WFail /\ exists out, sv_wrote v = [out] /\ says_status out st)).
  { intros es st' out -> Hes Hout Hsay. split.
    - intros [?|Hx]%elem_of_app; [done|]. apply elem_of_list_singleton, resp_entry_inj in Hx as ->.
      split; [done|]. by exists out.
    - intros (_ & out' & Ho & Hs'). rewrite Hout in Ho. injection Ho as <-.
      rewrite (says_status_det _ _ _ Hs' Hsay). apply elem_of_app. right. by apply elem_of_list_singleton. }
  assert (Herr : forall x s1, log = [(kError, x)] -> v = Served w s1 [] [] true ->
    (resp_entry fd st ∈ log <-> wr <> WFail /\ exists out, sv_wrote v = [out] /\ says_status out st)).
  { intros x s1 -> ->. split.
    - intros Hx%elem_of_list_singleton. by destruct (resp_not_error fd st x).
    - intros (_ & out & Hx & _). done. }
  assert (Hans : forall r s2, answer_log fd werr hit wr ro r w s2 = (log, Ok v) ->
    (resp_entry fd st ∈ log <-> wr <> WFail /\ exists out, sv_wrote v = [out] /\ says_status out st)).
  { intros r s2. unfold answer_log. destruct (dispatch _ _ _ _) as [cw| | | | |]; cbn [log_bind log_say fst snd]; try done.
    destruct (respond_log fd werr hit wr (cx_resp cw.1) cw.2 s2) as [es o] eqn:E. cbn [fst snd]. intros [= <- ->].
    destruct (respond_log_spec _ _ _ _ _ _ _ _ _ E) as (st' & out & Hsay & Ho & [(_ & -> & _)|(? & _)] & _); [|done].
    eapply (Hone [req_entry fd (rq_method r) (rt_path (rq_route r))]); [done| |done|done].
    intros Hx%elem_of_list_singleton. by destruct (resp_not_req _ _ _ _ _ Hx). }
  destruct (read_until [] CRLFCRLF s) as [[[len buf] s1]| | | | |]; cbn [log_bind] in H; try done.
  destruct (len =? 0)%Z; [injection H as <- <-; by eapply Herr|].
  destruct (len <? 0)%Z; [injection H as <- <-; by eapply Herr|].
  destruct (req_parse req_new buf) as [[rc r]| | | | |]; cbn [log_bind] in H; try done.
  destruct (negb (rc =? kSuccess)%Z).
  { destruct (req_parse_text req_text_new req_new buf) as [t'| | | | |]; cbn [log_bind] in H; try done.
    set (p := resp_bad_request resp_new (qt_own t')) in *. rewrite (resp_build_ok hit p []) in H by done. cbv iota beta in H.
    pose proof (built_says hit p (rs_body p)) as Hsay. set (out := resp_built_line p ++ _) in *.
    destruct wr as [k| |]; cbn [sock_write log_bind log_say fst snd app] in H; [|done|done]. injection H as <- <-.
    eapply (Hone [_]); [done| |done|exact Hsay].
    intros Hx%elem_of_list_singleton. by destruct (resp_not_error _ _ _ Hx). }
  destruct (0 <? header_get_content_length (rq_header r))%Z; [|by eapply Hans].
  destruct (read_string true 0 _ s1) as [[[rc2 body] s2]| | | | |]; cbn [log_bind] in H; try done.
  destruct (rc2 =? 0)%Z; [injection H as <- <-; by eapply Herr|].
  destruct (rc2 <? 0)%Z; [injection H as <- <-; by eapply Herr|]. by eapply Hans.
Qed.

Theorem answers_logged_refuted : ~ answers_logged_full.
Proof.
  intros H. pose (s := of_bytes (B "xyz" ++ CRLFCRLF) Wait).
  destruct (handle_read_log 7 None [] map_to_list WFail (router_new : router (list req)) wr0 s) as [log o] eqn:E.
  assert (exists v, o = Ok v) as [v ->] by (vm_compute in E; injection E as _ <-; by eexists).
  destruct (H (list req) 7%Z None [] map_to_list WFail router_new wr0 s log v sBAD_REQUEST I E) as [H1 _].
  destruct H1 as [H1 _]; [|done].
  assert (log = [(kError, B "[req.Parse]:[logicerr]:invalid http request"); resp_entry 7 sBAD_REQUEST]) as ->.
  { vm_compute in E. injection E as <- _. by vm_compute. }
  apply elem_of_cons. right. by apply elem_of_list_singleton.
Qed.

(** The log of a whole request: first what was asked, whatever the handlers then do;
    then the status that was sent, or that it could not be sent. *)
Theorem request_logged : forall U fd rerr werr hit wr (ro : router U) w text r l t log o,
  short text -> request_text exact_name text r -> NUL ∉ rq_body r ->
  handle_read_log fd rerr werr hit wr ro w (Stream (map Byte text ++ l) t) = (log, o) ->
  exists log', log = req_entry fd (rq_method r) (rt_path (rq_route r)) :: log' /\
    (~ is_ok o -> log' = []) /\
    (forall v, o = Ok v -> exists st out, sv_wrote v = [out] /\ says_status out st /\
      ((wr <> WFail /\ log' = [resp_entry fd st] /\ sv_closed v = false) \/
       (wr = WFail /\ log' = [(kError, B "[soc.Write]" ++ werr)] /\ sv_closed v = true))).
Proof.
  intros U fd rerr werr hit wr ro w text r l t log o Hs Hr Hn H.
  destruct (request_text_parts _ _ Hs Hr) as (first & hdrs & Hm & Hg & Hp & Hcl).
  destruct (message_head _ _ _ _ Hm) as (Ht & _ & Hsh).
  assert (Hsh' : short (head_of first hdrs)).
  { rewrite Ht in Hs. unfold short in *. rewrite app_length in Hs. lia. }
  rewrite Ht, map_app, <- app_assoc in H.
  destruct (read_until_head (head_of first hdrs) (map Byte (rq_body r) ++ l) t Hsh Hsh') as [E Hpos].
  { unfold head_of. by apply good_line_start. }
  unfold handle_read_log in H. rewrite E in H. cbn [log_bind] in H.
  rewrite (proj2 (Z.eqb_neq _ _)), (proj2 (Z.ltb_ge _ _)) in H by lia. rewrite Hp in H. cbn [log_bind rq_header] in H.
  change (negb (kSuccess =? kSuccess)%Z) with false in H. cbv iota in H.
  assert (Hlen : (header_get_content_length (rq_header r) <= 0)%Z -> rq_body r = []).
  { intros Hle. destruct Hcl as [Heq|[? _]]; [|done]. apply nil_length_inv. lia. }
  assert (Ha : answer_log fd werr hit wr ro r w (Stream l t) = (log, o)).
  { destruct (Z.ltb_spec 0 (header_get_content_length (rq_header r))) as [Hlt|Hge].
    - destruct Hcl as [Heq|[_ ?]]; [|lia]. rewrite Heq in H. unfold read_string in H.
      rewrite recv_all_enough in H by lia. cbn [mbind outcome_bind log_bind] in H.
      rewrite (proj2 (Z.eqb_neq _ _)), (proj2 (Z.ltb_ge _ _)) in H by lia. rewrite cstr_no_nul in H by done. by destruct r.
    - rewrite (Hlen Hge) in H. cbn [map app] in H. destruct r. cbn in *. by rewrite (Hlen Hge). }
  clear H E. unfold answer_log, log_say in Ha.
  destruct (dispatch _ _ _ _) as [cw| | | | |]; cbn [log_bind fst snd app] in Ha;
    try (injection Ha as <- <-; exists []; split; [done|]; split; [done|]; by intros v ?).
  destruct (respond_log fd werr hit wr (cx_resp cw.1) cw.2 (Stream l t)) as [es o'] eqn:E. cbn [fst snd] in Ha.
  injection Ha as <- <-. exists es. split; [done|]. split.
  - intros Hno. pose proof (respond_log_only fd werr hit wr (cx_resp cw.1) cw.2 (Stream l t) []) as Hx.
    rewrite E in Hx. cbn [snd] in Hx. unfold respond_log in E.
    set (p1 := if decide (rs_status (cx_resp cw.1) = sUNKNOWN) then resp_not_found (cx_resp cw.1) else cx_resp cw.1) in E.
    assert (Hst : rs_status p1 <> sUNKNOWN) by (unfold p1; by destruct (decide (rs_status (cx_resp cw.1) = sUNKNOWN))).
    rewrite (resp_build_ok hit p1 [] Hst) in E. change (negb (kSuccess =? kSuccess)%Z) with false in E. cbv iota beta in E.
    destruct wr as [k| |]; cbn [sock_write log_bind log_say fst snd app] in E.
    + unfold rc_of in E. rewrite (proj2 (Z.ltb_ge _ _)) in E by lia. injection E as _ <-. destruct Hno. by eexists.
    + injection E as _ <-. destruct Hno. by eexists.
    + by injection E as <- _.
  - intros v ->. destruct (respond_log_spec _ _ _ _ _ _ _ _ _ E) as (st & out & ? & ? & ? & _). by exists st, out.
Qed.

Example request_logged_ex : exists out,
  handle_read_log 7 None [] map_to_list (WTake 1000) (router_new : router (list req)) wr0 (of_bytes (ex_text_of (B "hi")) Eof)
  = ([(kInfo, B "req: POST /a soc:7"); (kInfo, B "resp: Not Found soc:7" ++ [LFb])],
     Ok (Served wr0 (Stream [] Eof) [out] out false)).
Proof. eexists. by vm_compute. Qed.

(** ** C165 *)

(** Every entry is one line of the log. *)
Definition one_entry_one_line_full : Prop := forall U fd rerr werr hit wr (ro : router U) w s log o,
  (forall m, rerr = Some m -> LF ∉ m) -> LF ∉ werr ->
  handle_read_log fd rerr werr hit wr ro w s = (log, o) ->
  length (filter (eq LF) (std_text log)) = length log.

Lemma header_text_no_lf old h s t : LF ∉ old -> header_parse_text old h s = Ok t -> LF ∉ t.
Proof.
  unfold header_parse_text. destruct s; [intros _ [= <-]; by_compute|].
  destruct (header_parse h _) as [hp| | | | |]; cbn [mbind outcome_bind]; try done.
  destruct (hp.1 =? kSuccess)%Z; [by intros ? [= <-]|]. intros _ [= <-]. by_compute.
Qed.

Lemma req_text_no_lf r s t : req_parse_text req_text_new r s = Ok t -> LF ∉ qt_own t.
Proof.
  assert (Hok : forall t1 x, (LF ∉ x) -> Ok (qt_say t1 x) = Ok t -> LF ∉ qt_own t) by (intros t1 x ? [= <-]; done).
  unfold req_parse_text. destruct s as [|c s]; [apply Hok; by_compute|].
  destruct (str_find (c :: s) CRLFCRLF 0 =? npos)%N; [apply Hok; by_compute|].
  destruct (str_find (c :: s) CRLF 0 =? npos)%N; [apply Hok; by_compute|].
  destruct (substr (c :: s) (szadd (str_find (c :: s) CRLF 0) 2) (str_find (c :: s) CRLFCRLF 0)) as [block| | | | |]; try done.
  cbn [mbind outcome_bind]. destruct (header_parse (rq_header r) block) as [[hrc h]| | | | |]; try done. cbn [mbind outcome_bind fst].
  destruct (header_parse_text _ _ block) as [ht| | | | |] eqn:Hh; try done. cbn [mbind outcome_bind].
  apply header_text_no_lf in Hh; [|cbn; apply not_elem_of_nil].
  destruct (hrc =? 0)%Z; [by apply Hok|].
  destruct (substr (c :: s) 0 _) as [first| | | | |]; try done. cbn [mbind outcome_bind].
  destruct (str_split first (B " ") [] false) as [l| | | | |]; try done. cbn [mbind outcome_bind].
  destruct l as [|m [|tg [|v [|y l]]]]; try (apply Hok; by_compute).
  destruct (decide (to_method m = mUNKNOWN)); [apply Hok; by_compute|].
  destruct (route_parse (rq_route r) tg) as [[rrc rt]| | | | |]; try done. cbn [mbind outcome_bind fst].
  destruct (negb (rrc =? kSuccess)%Z); [apply Hok; destruct tg; [by_compute|cbn; apply not_elem_of_nil]|].
  destruct (decide (to_version v = vUNKNOWN)); [apply Hok; by_compute|]. intros [= <-]. cbn. apply not_elem_of_nil.
Qed.

Lemma int_no_lf z : LF ∉ int_to_string z.
Proof. intros [H|H]%int_to_string_chars; done. Qed.

(** Missing: paths with a line feed; the entry for an answer, which brings a line
    feed of its own. *)
Theorem one_entry_one_line_partial : forall U fd rerr werr hit wr (ro : router U) w s log o e,
  (forall m, rerr = Some m -> LF ∉ m) -> LF ∉ werr ->
  handle_read_log fd rerr werr hit wr ro w s = (log, o) -> e ∈ log ->
  LF ∉ e.2 \/
  (exists st x, e = resp_entry fd st /\ e.2 = x ++ [LF] /\ LF ∉ x) \/
  (exists m path, e = req_entry fd m path /\ LF ∈ path).
Proof.
  intros U fd rerr werr hit wr ro w s log o e Hr Hw H He.
  assert (Hresp : forall st, e = resp_entry fd st -> LF ∉ e.2 \/
    (exists st x, e = resp_entry fd st /\ e.2 = x ++ [LF] /\ LF ∉ x) \/ (exists m path, e = req_entry fd m path /\ LF ∈ path)).
  { intros st ->. right; left. exists st, (B "resp: " ++ status_str st ++ B " soc:" ++ int_to_string fd).
    split; [done|]. split; [cbn [resp_entry snd]; by rewrite <- !app_assoc|].
    rewrite !not_elem_of_app. split; [by_compute|]. split; [destruct st; by_compute|]. split; [by_compute|apply int_no_lf]. }
  assert (Hrespond : forall p (w1 : world U) s2 es o', respond_log fd werr hit wr p w1 s2 = (es, o') -> e ∈ es -> LF ∉ e.2 \/
    (exists st x, e = resp_entry fd st /\ e.2 = x ++ [LF] /\ LF ∉ x) \/ (exists m path, e = req_entry fd m path /\ LF ∈ path)).
  { intros p w1 s2 es o' E Hin. unfold respond_log in E.
    set (p1 := if decide (rs_status p = sUNKNOWN) then resp_not_found p else p) in E.
    assert (Hst : rs_status p1 <> sUNKNOWN) by (unfold p1; by destruct (decide (rs_status p = sUNKNOWN))).
    rewrite (resp_build_ok hit p1 [] Hst) in E. change (negb (kSuccess =? kSuccess)%Z) with false in E. cbv iota beta in E.
    destruct wr as [k| |]; cbn [sock_write log_bind log_say fst snd] in E; try change ([] ++ ?y) with y in E.
    - unfold rc_of in E. rewrite (proj2 (Z.ltb_ge _ _)) in E by lia. injection E as <- _.
      apply elem_of_list_singleton in Hin. by eapply Hresp.
    - apply (f_equal fst) in E. cbn [fst] in E. subst es. apply elem_of_list_singleton in Hin as ->. left. cbn [snd].
      apply not_elem_of_app. split; [by_compute|done].
    - injection E as <- _. by apply elem_of_nil in Hin. }
  assert (Hans : forall r s2, answer_log fd werr hit wr ro r w s2 = (log, o) -> LF ∉ e.2 \/
    (exists st x, e = resp_entry fd st /\ e.2 = x ++ [LF] /\ LF ∉ x) \/ (exists m path, e = req_entry fd m path /\ LF ∈ path)).
  { intros r s2 Ha. unfold answer_log, log_say in Ha.
    assert (Hreq : e = req_entry fd (rq_method r) (rt_path (rq_route r)) -> LF ∉ e.2 \/
      (exists st x, e = resp_entry fd st /\ e.2 = x ++ [LF] /\ LF ∉ x) \/ (exists m path, e = req_entry fd m path /\ LF ∈ path)).
    { intros ->. destruct (decide (LF ∈ rt_path (rq_route r))); [right; right; by do 2 eexists|]. left. cbn [req_entry snd].
      rewrite !not_elem_of_app. split; [by_compute|]. split; [destruct (rq_method r); by_compute|]. split; [by_compute|].
      split; [done|]. split; [by_compute|apply int_no_lf]. }
    destruct (dispatch _ _ _ _) as [cw| | | | |]; cbn [log_bind fst snd app] in Ha;
      try (injection Ha as <- _; apply elem_of_list_singleton in He; by apply Hreq).
    destruct (respond_log fd werr hit wr (cx_resp cw.1) cw.2 s2) as [es o'] eqn:E. cbn [fst snd] in Ha. injection Ha as <- _.
    apply elem_of_cons in He as [He|He]; [by apply Hreq|by eapply Hrespond]. }
  assert (Herr : forall x (o1 : outcome (served U)), ([(kError, x)], o1) = (log, o) -> LF ∉ x -> LF ∉ e.2 \/
    (exists st x, e = resp_entry fd st /\ e.2 = x ++ [LF] /\ LF ∉ x) \/ (exists m path, e = req_entry fd m path /\ LF ∈ path)).
  { intros x o1 [= <- _] Hx. apply elem_of_list_singleton in He as ->. by left. }
  assert (Hnil : forall o1 : outcome (served U), ([], o1) = (log, o) -> LF ∉ e.2 \/
    (exists st x, e = resp_entry fd st /\ e.2 = x ++ [LF] /\ LF ∉ x) \/ (exists m path, e = req_entry fd m path /\ LF ∈ path)).
  { intros o1 [= <- _]. by apply elem_of_nil in He. }
  assert (Hread : forall a c, LF ∉ a -> LF ∉ c -> LF ∉ match rerr with None => a | Some m => c ++ m end).
  { intros a c Ha Hc. destruct rerr as [m|]; [|done]. apply not_elem_of_app. split; [done|by apply Hr]. }
  unfold handle_read_log in H.
  destruct (read_until [] CRLFCRLF s) as [[[len buf] s1]| | | | |]; cbn [log_bind] in H; try by eapply Hnil.
  destruct (len =? 0)%Z; [eapply Herr; [exact H|by_compute]|].
  destruct (len <? 0)%Z; [eapply Herr; [exact H|apply Hread; by_compute]|].
  destruct (req_parse req_new buf) as [[rc r]| | | | |]; cbn [log_bind] in H; try by eapply Hnil.
  destruct (negb (rc =? kSuccess)%Z).
  { destruct (req_parse_text req_text_new req_new buf) as [t'| | | | |] eqn:Ht; cbn [log_bind] in H; try by eapply Hnil.
    apply req_text_no_lf in Ht.
    rewrite (resp_build_ok hit _ []) in H by done. cbv iota beta in H. unfold log_say in H.
    assert (Hx : LF ∉ B "[req.Parse]:" ++ qt_own t') by (apply not_elem_of_app; split; [by_compute|done]).
    destruct wr as [k| |]; cbn [sock_write log_bind fst snd] in H; [| |by eapply Herr];
      (apply (f_equal fst) in H; cbn [fst] in H; subst log; apply elem_of_cons in He as [->|He]; [by left|];
       apply elem_of_list_singleton in He; by eapply Hresp). }
  destruct (0 <? header_get_content_length (rq_header r))%Z; [|by eapply Hans].
  destruct (read_string true 0 _ s1) as [[[rc2 body] s2]| | | | |]; cbn [log_bind] in H; try by eapply Hnil.
  destruct (rc2 =? 0)%Z; [eapply Herr; [exact H|by_compute]|].
  destruct (rc2 <? 0)%Z; [eapply Herr; [exact H|apply Hread; by_compute]|]. by eapply Hans.
Qed.

(** A client can put a line of its choice into the log of any server: a request that
    makes it appear, whatever handlers there are. *)
Definition forging (x : bytes) : bytes := B "GET /" ++ [LF] ++ x ++ B " HTTP/1.1" ++ CRLFCRLF.

Theorem lines_can_be_forged : forall U fd rerr werr hit wr (ro : router U) w x l t log o,
  SP ∉ x -> CR ∉ x -> "?"%char ∉ x -> short (forging x) ->
  handle_read_log fd rerr werr hit wr ro w (Stream (map Byte (forging x) ++ l) t) = (log, o) ->
  exists before after, std_text log = before ++ [LF] ++ x ++ B " soc:" ++ int_to_string fd ++ [LF] ++ after.
Proof.
  intros U fd rerr werr hit wr ro w x l t log o Hsp Hcr Hq Hs H.
  assert (Hr : request_text exact_name (forging x) (Req mGET v1_1 ∅ (Route (B "/" ++ [LF] ++ x) ∅) [])).
  { exists (B "GET /" ++ [LF] ++ x ++ B " HTTP/1.1"), [], [], (B "/" ++ [LF] ++ x), [].
    split; [|split; [|split; [done|split; [done|split; [done|split; [|split; [|split; [|split; [|split; [|]]]]]]]]]].
    - split; [|split; [|constructor]].
      + unfold forging. cbn [rq_body]. rewrite app_nil_r, <- !app_assoc. reflexivity.
      + apply no_cr_one_line. rewrite !not_elem_of_app. split; [by_compute|]. split; [by_compute|]. split; [done|by_compute].
    - split; [done|]. split; [by_compute|]. split; [|by_compute]. rewrite !not_elem_of_app. split; [by_compute|]. split; [by_compute|done].
    - apply url_plain_path. cbn [rq_route rt_path]. rewrite !not_elem_of_app. split; [by_compute|]. by split; [by_compute|].
    - intros k. cbn. by rewrite lookup_empty.
    - constructor.
    - constructor.
    - intros k. cbn. by rewrite lookup_empty.
    - right. split; [done|]. intros k v Hx. by apply elem_of_nil in Hx. }
  destruct (request_logged _ _ _ _ _ _ _ _ _ _ _ _ _ _ Hs Hr ltac:(apply not_elem_of_nil) H) as (log' & -> & _).
  exists (B "[INFO]:req: GET /"), (std_text log'). cbn [std_text flat_map]. fold (std_text log').
  cbn [req_entry rq_method rq_route rt_path fst snd std_log level_gt level_num Z.ltb Z.compare].
  change (method_str mGET) with (B "GET"). change LFb with LF.
  repeat first [rewrite <- !app_assoc|progress cbn [app]]. reflexivity.
Qed.

Example lines_can_be_forged_ex : exists log v,
  handle_read_log 7 None [] map_to_list (WTake 1000) (router_new : router (list req)) wr0
    (of_bytes (forging (B "[FATAL]:disk-failure")) Wait) = (log, Ok v) /\
  std_text log = B "[INFO]:req: GET /" ++ [LF] ++ B "[FATAL]:disk-failure soc:7" ++ [LF] ++
    B "[INFO]:resp: Not Found soc:7" ++ [LF] ++ [LF].
Proof. do 2 eexists. split; by vm_compute. Qed.

Theorem one_entry_one_line_refuted : ~ one_entry_one_line_full.
Proof.
  intros H. destruct request_logged_ex as [out E].
  apply H in E; [by vm_compute in E|done|apply not_elem_of_nil].
Qed.

(** ** C166 *)

(** Send's text is empty exactly if it succeeded. *)
Definition send_text_for (olds : bytes -> Prop) (ok : bool -> wres -> Prop) : Prop :=
  forall old serr open hit rit wr q p s x m,
  olds old -> ok open wr ->
  client_send open hit rit wr q p s = Ok x -> client_send_text old serr open hit rit wr q p s = Ok m ->
  (m = [] <-> st_rc x = kSuccess).
Definition send_text_full : Prop := send_text_for (fun _ => True) (fun _ _ => True).

(** What the text says about a failure. *)
Definition text_fits (serr : bytes) (open : bool) (wr : wres) (q : req) (m : bytes) : Prop :=
  (open = false /\ m = B "[logicerr]:socket is null") \/
  (open = true /\ (rq_method q = mUNKNOWN \/ rq_version q = vUNKNOWN) /\ m = B "[req.Build]:[logicerr]:invalid http request") \/
  (open = true /\ (wr = WFail \/ wr = WTake 0) /\ m = B "[soc.Write]:" ++ serr) \/
  (open = true /\ exists k, wr = WTake (S k) /\
    (m = B "[logicerr]:empty http response" \/ m = B "[logicerr]:invalid http response" \/ exists why, why <> [] /\ m = B "[resp.Parse]:" ++ why)).

Lemma resp_text_set r s rc r' pt :
  resp_parse r s = Ok (rc, r') -> rc <> kSuccess -> resp_parse_text [] [] r s = Ok pt -> pt <> [].
Proof.
  unfold resp_parse, resp_parse_text. destruct s as [|c s]; [by intros _ _ [= <-]|].
  destruct (str_find (c :: s) CRLF 0 =? npos)%N; [by intros _ _ [= <-]|].
  destruct (substr (c :: s) 0 (str_find (c :: s) CRLF 0)) as [first| | | | |]; try done. cbn [mbind outcome_bind].
  destruct (substr (c :: s) (szadd (str_find (c :: s) CRLF 0) 2) _) as [hdr| | | | |]; try done. cbn [mbind outcome_bind].
  destruct (substr_from (c :: s) _) as [body| | | | |]; try done. cbn [mbind outcome_bind].
  destruct (str_find first (B " ") 0 =? npos)%N; [by intros _ _ [= <-]|].
  destruct (str_find first (B " ") (szadd (str_find first (B " ") 0) 1) =? npos)%N; [by intros _ _ [= <-]|].
  destruct (substr first 0 _) as [ver| | | | |]; try done. cbn [mbind outcome_bind].
  destruct (substr first (szadd (str_find first (B " ") 0) 1) _) as [code| | | | |]; try done. cbn [mbind outcome_bind].
  destruct (substr_from first _) as [rs| | | | |]; try done. cbn [mbind outcome_bind].
  destruct (stoi code) as [z| | | | |]; cbn [mbind outcome_bind]; try (by intros _ _ [= <-]).
  destruct (header_parse (rs_header r) hdr) as [[hrc h]| | | | |]; try done. cbn [mbind outcome_bind fst].
  destruct (header_parse_text [] (rs_header r) hdr) as [ht| | | | |]; try done. cbn [mbind outcome_bind].
  destruct (Z.eqb_spec hrc kSuccess) as [->|Hne]; [by intros [= <- _] ?|]. intros _ _ [= <-]. by destruct ht.
Qed.

Lemma req_build_rc hit rit q rc q1 msg :
  req_build hit rit q [] = (rc, q1, msg) ->
  (rc = kSuccess /\ msg <> []) \/ (rc <> kSuccess /\ (rq_method q = mUNKNOWN \/ rq_version q = vUNKNOWN)).
Proof.
  intros H. destruct (decide (rq_method q = mUNKNOWN)) as [E|Em].
  { unfold req_build in H. rewrite decide_True in H by done. injection H as <- _ _. right. by auto. }
  destruct (decide (rq_version q = vUNKNOWN)) as [E|Ev].
  { unfold req_build in H. rewrite decide_False in H by done. rewrite decide_True in H by done. injection H as <- _ _. right. by auto. }
  rewrite req_build_ok in H by done. injection H as <- _ <-. left. split; [done|]. by destruct (built_line rit q).
Qed.

(** What Send leaves behind, in every case. *)
Theorem send_text_cases : forall old serr open hit rit wr q p s x m,
  client_send open hit rit wr q p s = Ok x -> client_send_text old serr open hit rit wr q p s = Ok m ->
  (m = old /\ st_rc x = kSuccess /\ open = true /\ exists k, wr = WTake (S k)) \/
  (text_fits serr open wr q m /\ (st_rc x = kSuccess -> wr = WFail \/ wr = WTake 0)).
Proof.
  intros old serr open hit rit wr q p s x m. unfold client_send, client_send_text.
  destruct open; cbn [negb]; [|intros [= <-] [= <-]; right; split; [by left|done]].
  destruct (req_build hit rit q []) as [[rc q1] msg] eqn:Eb.
  destruct (Z.eqb_spec rc kSuccess) as [->|Hne]; cbn [negb].
  2:{ intros [= <-] [= <-]. right. split; [right; left|done].
      destruct (req_build_rc _ _ _ _ _ _ Eb) as [[? _]|[_ ?]]; done. }
  destruct (req_build_rc _ _ _ _ _ _ Eb) as [[_ Hmsg]|[? _]]; [|done].
  assert (Hwr : forall (n : Z) out, sock_write wr msg = Ok (n, out) -> (n <= 0)%Z -> wr = WFail \/ wr = WTake 0).
  { intros n out Hw Hn. destruct wr as [[|k]| |]; [by right| |by left|done]. injection Hw as <- _.
    unfold rc_of in Hn. rewrite take_length in Hn. destruct msg; [done|]. cbn [length] in Hn. lia. }
  assert (Hwp : forall (n : Z) out, sock_write wr msg = Ok (n, out) -> (0 < n)%Z -> exists k, wr = WTake (S k)).
  { intros n out Hw Hn. destruct wr as [[|k]| |]; [|by eexists| |done]; injection Hw as <- _; [|lia].
    change (rc_of (take 0 msg)) with 0%Z in Hn. lia. }
  destruct (sock_write wr msg) as [[n out]| | | | |]; cbn [mbind outcome_bind fst]; try done.
  destruct (Z.leb_spec n 0) as [Hn|Hn].
  { intros [= <-] [= <-]. right. specialize (Hwr _ _ eq_refl Hn). split; [|done]. right; right; left. done. }
  destruct (Hwp _ _ eq_refl Hn) as [k ->]. clear Hwr Hwp.
  assert (Hlast : forall why, (why = B "[logicerr]:empty http response" \/ why = B "[logicerr]:invalid http response" \/
    exists y, y <> [] /\ why = B "[resp.Parse]:" ++ y) -> text_fits serr true (WTake (S k)) q why).
  { intros why Hy. right; right; right. split; [done|]. by exists k. }
  destruct (read_until [] CRLFCRLF s) as [[[len hd] s1]| | | | |]; cbn [mbind outcome_bind]; try done.
  destruct (len <=? 0)%Z; [intros [= <-] [= <-]; right; split; [apply Hlast; by left|done]|].
  destruct (resp_parse p hd) as [[rc2 p1]| | | | |] eqn:Ep; cbn [mbind outcome_bind]; try done.
  destruct (Z.eqb_spec rc2 kSuccess) as [->|Hne]; cbn [negb].
  2:{ destruct (resp_parse_text [] [] p hd) as [pt| | | | |] eqn:Et; cbn [mbind outcome_bind]; try done.
      intros [= <-] [= <-]. right. split; [|done]. apply Hlast. right; right. exists pt. split; [|done].
      by eapply resp_text_set. }
  destruct (0 <? header_get_content_length (rs_header p1))%Z.
  2:{ intros [= <-] [= <-]. left. do 3 (split; [done|]). by exists k. }
  destruct (read_string true 0 _ s1) as [[[rl body] s2]| | | | |]; cbn [mbind outcome_bind]; try done.
  destruct (negb (rl =? _)%Z); intros [= <-] [= <-].
  - right. split; [|done]. apply Hlast. by right; left.
  - left. do 3 (split; [done|]). by exists k.
Qed.

Lemma text_fits_some serr open wr q m : text_fits serr open wr q m -> m <> [].
Proof. intros [[_ ->]|[(_ & _ & ->)|[(_ & _ & ->)|(_ & k & _ & [->|[->|(y & _ & ->)]])]]]; done. Qed.

(** Missing: a text that was there before; a write that fails (Send returns
    success, C50, but says what happened). *)
Theorem send_text_partial : send_text_for (fun old => old = []) (fun _ wr => wr <> WFail /\ wr <> WTake 0).
Proof.
  intros old serr open hit rit wr q p s x m -> [Hf H0] Hx Hm.
  destruct (send_text_cases _ _ _ _ _ _ _ _ _ _ _ Hx Hm) as [(-> & Hrc & _)|[Ht Hrc]]; [done|].
  split; [intros ->; by destruct (text_fits_some _ _ _ _ _ Ht)|]. intros Hs. by destruct (Hrc Hs).
Qed.

(** An empty text means that the exchange took place - more than success does. *)
Theorem empty_text_means_exchanged : forall serr open hit rit wr q p s x,
  (forall q1 msg k, wr = WTake k -> req_build hit rit q [] = (kSuccess, q1, msg) -> length msg <= k \/ k = 0) ->
  (forall b rest, sm_items s = map Byte b ++ rest -> fits b) ->
  client_send open hit rit wr q p s = Ok x -> client_send_text [] serr open hit rit wr q p s = Ok [] ->
  open = true /\ st_rc x = kSuccess /\ exchanged q hit rit s x.
Proof.
  intros serr open hit rit wr q p s x Hk Hf Hx Hm.
  destruct (send_text_cases _ _ _ _ _ _ _ _ _ _ _ Hx Hm) as [(_ & Hrc & -> & k & ->)|[Ht _]].
  2:{ by apply text_fits_some in Ht. }
  split; [done|]. split; [done|].
  destruct (send_success_partial true hit rit (S k) q p s x) as [_ He]; [|done..|done].
  intros q1 msg Hb. by destruct (Hk q1 msg (S k) eq_refl Hb).
Qed.

Example send_text_ex :
  (exists x, client_send true map_to_list map_to_list (WTake 1000) (ex_q "/a" (B "b")) resp_new
     (of_bytes (B "HTTP/1.1 200 OK" ++ CRLF ++ B "Content-Length: 5" ++ CRLFCRLF ++ B "he") Eof) = Ok x /\ st_rc x = kLogicErr) /\
  client_send_text [] [] true map_to_list map_to_list (WTake 1000) (ex_q "/a" (B "b")) resp_new
     (of_bytes (B "HTTP/1.1 200 OK" ++ CRLF ++ B "Content-Length: 5" ++ CRLFCRLF ++ B "he") Eof)
   = Ok (B "[logicerr]:invalid http response") /\
  client_send_text [] (B "Broken pipe") true map_to_list map_to_list WFail (ex_q "/a" (B "b")) resp_new (of_bytes [] Eof)
   = Ok (B "[soc.Write]:Broken pipe").
Proof. split; [eexists; split; by vm_compute|]. split; by vm_compute. Qed.

(** A failed write: success with a text. *)
Theorem send_text_refuted : ~ send_text_full.
Proof.
  intros H.
  destruct (client_send true map_to_list map_to_list WFail (ex_q "/a" (B "b")) resp_new (of_bytes [] Eof)) as [x| | | | |] eqn:E;
    try by vm_compute in E.
  destruct send_text_ex as (_ & _ & Hm).
  destruct (H [] (B "Broken pipe") true map_to_list map_to_list WFail (ex_q "/a" (B "b")) resp_new (of_bytes [] Eof) x _ I I E Hm)
    as [_ H2].
  discriminate H2. vm_compute in E. by injection E as <-.
Qed.

(** The text of an earlier failure stays after a success. *)
Theorem stale_text_stays : forall old serr k hit rit hit' q p p1 out l t,
  valid_order hit' -> resp_build hit' p [] = (kSuccess, p1, out) -> short out -> resp_sendable (rs_header p) ->
  NUL ∉ rs_body p -> rs_version p <> vUNKNOWN -> rq_method q <> mUNKNOWN -> rq_version q <> vUNKNOWN ->
  exists x m, client_send true hit rit (WTake (S k)) q resp_new (Stream (map Byte out ++ l) t) = Ok x /\ st_rc x = kSuccess /\
    client_send_text old serr true hit rit (WTake (S k)) q resp_new (Stream (map Byte out ++ l) t) = Ok m /\ m = old.
Proof.
  intros old serr k hit rit hit' q p p1 out l t H1 H2 H3 H4 H5 H6 H7 H8.
  destruct (response_arrives_partial hit rit hit' q p p1 out k l t H1 H2 H3 H4 H5 H6 H7 H8) as (x & Hx & Hrc & _).
  exists x, old. split; [done|]. split; [done|]. split; [|done].
  revert Hx. unfold client_send, client_send_text. cbn [negb]. rewrite req_build_ok by done.
  change (negb (kSuccess =? kSuccess)%Z) with false. cbv iota. cbn [sock_write mbind outcome_bind fst].
  destruct (_ <=? 0)%Z eqn:El.
  { exfalso. apply Z.leb_le in El. revert El. unfold rc_of. rewrite take_length.
    match goal with |- context [length ?a] => assert (0 < length a) by (rewrite !app_length; simpl; lia) end. lia. }
  destruct (read_until [] CRLFCRLF _) as [[[len hd] s1]| | | | |]; cbn [mbind outcome_bind]; try done.
  destruct (len <=? 0)%Z; [by intros [= <-]|].
  destruct (resp_parse resp_new hd) as [[rc2 p2]| | | | |]; cbn [mbind outcome_bind]; try done.
  destruct (Z.eqb_spec rc2 kSuccess) as [->|Hne]; cbn [negb]; [|by intros [= <-]].
  destruct (0 <? header_get_content_length (rs_header p2))%Z; [|done].
  destruct (read_string true 0 _ s1) as [[[rl body] s2]| | | | |]; cbn [mbind outcome_bind]; try done.
  destruct (negb (rl =? _)%Z); [by intros [= <-]|done].
Qed.

Print Assumptions rejected_is_told_why.
Print Assumptions one_reason.
Print Assumptions answers_logged_partial.
Print Assumptions answers_logged_refuted.
Print Assumptions request_logged.
Print Assumptions one_entry_one_line_partial.
Print Assumptions one_entry_one_line_refuted.
Print Assumptions lines_can_be_forged.
Print Assumptions send_text_cases.
Print Assumptions send_text_partial.
Print Assumptions send_text_refuted.
Print Assumptions empty_text_means_exchanged.
Print Assumptions stale_text_stays.
