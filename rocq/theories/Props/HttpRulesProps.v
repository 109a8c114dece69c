(** C230-C233: what HTTP/1.1 (RFC 9110, RFC 9112) asks of a server beyond the framing by
    Content-Length, and what HttpServer::HandleRead
    (src/cppnet/http/server/http_server.cpp:279-411) does: chunked bodies, the end of
    connections, HEAD, and expectations. *)
From Verif.Proof Require Import ServerProof StrangerProof.
From Verif.Props Require Import MessageProps RouterProps ServerProps.

(** * C230: chunked bodies *)

Definition hex_chars : bytes := B "0123456789abcdefABCDEF".
Definition hex_digit (c : ascii) : Prop := c ∈ hex_chars.
(** The number that hexadecimal digits say. *)
Definition hex_value (s : bytes) : nat :=
  foldl (fun n c => 16 * n + (let k := N.to_nat (byteN c) in if k <? 58 then k - 48 else if k <? 71 then k - 55 else k - 87)) 0 s.
(** What may follow the size in its line. *)
Definition chunk_ext (e : bytes) : Prop := CR ∉ e /\ LF ∉ e /\ (e = [] \/ head e = Some ";"%char).
(** RFC 9112, 7.1: the chunked form [b] of [data] (without trailers). *)
Inductive chunked : bytes -> bytes -> Prop :=
| chunk_last z ext : z <> [] -> Forall (fun c => c = "0"%char) z -> chunk_ext ext -> chunked (z ++ ext ++ CRLF ++ CRLF) []
| chunk_more sz ext data b rest : Forall hex_digit sz -> chunk_ext ext -> data <> [] -> hex_value sz = length data -> chunked b rest ->
    chunked (sz ++ ext ++ CRLF ++ data ++ CRLF ++ b) (data ++ rest).

Lemma chunked_start b d : chunked b d -> exists sz ext tl, b = sz ++ ext ++ CR :: LF :: tl /\ sz <> [] /\ Forall hex_digit sz /\ chunk_ext ext /\ contains CRLFCRLF b.
Proof.
  induction 1 as [z ext Hz HF He|sz ext data b rest HF He Hd Hv Hb IH].
  - exists z, ext, CRLF. split; [done|]. split; [done|]. split; [|split; [done|]].
    + eapply Forall_impl; [exact HF|]. intros c ->. unfold hex_digit. by_compute.
    + exists (z ++ ext), []. by rewrite app_nil_r, <- app_assoc.
  - exists sz, ext, (data ++ CRLF ++ b). split; [done|]. split.
    + intros ->. cbn in Hv. destruct data; [done|]. by cbn in Hv.
    + split; [done|]. split; [done|]. destruct IH as (_ & _ & _ & _ & _ & _ & _ & p & q & Hpq).
      exists (sz ++ ext ++ CRLF ++ data ++ CRLF ++ p), q. rewrite Hpq. by rewrite <- !app_assoc.
Qed.

Lemma no_method sz c tl m X : sz <> [] -> Forall hex_digit sz -> (c = CR \/ c = ";"%char) -> sz ++ c :: tl = m ++ SP :: X -> m ∉ known_methods.
Proof.
  intros Hne HF Hc E Hm. assert (Hcl : c ∉ B "ABCDEFGHIJKLMNOPQRSTUVWXYZ") by (destruct Hc as [->| ->]; by_compute).
  assert (Hh : forall x, x ∈ B "GHIJKLMNOPQRSTUVWXYZ" -> ~ hex_digit x).
  { intros x Hx Hd. assert (HFx : Forall (fun x => x ∉ hex_chars) (B "GHIJKLMNOPQRSTUVWXYZ")) by by_compute.
    rewrite Forall_forall in HFx. by apply (HFx x). }
  unfold known_methods in Hm. cbn [map] in Hm.
  repeat (apply elem_of_cons in Hm as [->|Hm];
    [repeat (destruct sz as [|? sz]; [try done; injection E as -> _; apply Hcl; by_compute|];
       injection E as -> E; apply Forall_cons in HF as [Hx HF]; try (solve [exfalso; refine (Hh _ _ Hx); by_compute]); clear Hx; try clear Hne)|]).
  by apply elem_of_nil in Hm.
Qed.

(** What the server makes of chunks: it takes them for the head of a request. If the first
    line has only one character (a chunk of less than 16 bytes, or none at all), HandleRead
    throws, which ends the process; else it answers 400 and closes. No handler runs. *)
Theorem chunks_refused : forall U hit wr (ro : router U) e w body data l t,
  valid_order hit -> chunked body data -> short body -> short e ->
  (body !! 2 = Some LF -> handle_read hit wr ro e w (Stream (map Byte body ++ l) t) = Throw OutOfRange) /\
  (body !! 2 <> Some LF -> wr <> WSig -> exists out sent rest,
     handle_read hit wr ro e w (Stream (map Byte body ++ l) t) = Ok (Served w rest [out] sent true) /\ response_text out sBAD_REQUEST e) /\
  (body !! 2 <> Some LF -> wr = WSig -> handle_read hit wr ro e w (Stream (map Byte body ++ l) t) = Terminate).
Proof.
  intros U hit wr ro e w body data l t Hit Hch Hs He.
  destruct (chunked_start _ _ Hch) as (sz & ext & tl & Hb & Hne & HF & (Hcr & Hlf & Hext) & Hcon).
  split.
  { intros H2. unfold handle_read. change (read_until [] CRLFCRLF ?s) with (until_loop CRLFCRLF (sm_items s) (sm_tail s) NUL []). cbn [sm_items sm_tail].
    rewrite (until_throw CRLFCRLF LF eq_refl ltac:(done) ltac:(by vm_compute) body l t); [done|by apply short_fits|].
    exists 2, LF. split; [done|]. split; [done|]. cbn; lia. }
  assert (Hhl : forall x, hex_digit x -> x <> LF).
  { intros x Hx ->. unfold hex_digit in Hx. revert Hx. apply (bool_decide_unpack (LF ∉ hex_chars)). by vm_compute. }
  assert (H01 : body !! 2 <> Some LF -> LF ∉ take 3 body).
  { intros H2 Hin. apply elem_of_list_lookup in Hin as (i & Hi). assert (Hi3 : i < 3) by (apply lookup_lt_Some in Hi; rewrite take_length in Hi; lia).
    rewrite lookup_take in Hi by done. destruct sz as [|a sz]; [done|]. apply Forall_cons in HF as [Ha HF].
    destruct i as [|[|[|i]]]; [..|done|lia].
    - rewrite Hb in Hi. cbn in Hi. injection Hi as ->. by apply Hhl in Ha.
    - rewrite Hb in Hi. destruct sz as [|a1 sz]; cbn in Hi.
      + destruct ext as [|x ext]; cbn in Hi; [done|]. injection Hi as ->. apply Hlf. by left.
      + injection Hi as ->. apply Forall_cons in HF as [Ha1 _]. by apply Hhl in Ha1. }
  destruct (shortest_until_exists CRLFCRLF body ltac:(done) Hcon) as (pre & rest & Hsh). pose proof Hsh as (Epr & Hsuf & Hmin).
  assert (Hpre : shortest_until CRLFCRLF pre pre []).
  { split; [by rewrite app_nil_r|]. by split. }
  assert (Hsp : short pre).
  { unfold short in *. rewrite Epr, app_length in Hs. lia. }
  assert (Htk : LF ∉ take 3 body -> LF ∉ take 3 pre).
  { intros Hn Hin. apply Hn. rewrite Epr. apply elem_of_list_lookup in Hin as (i & Hi). apply elem_of_list_lookup. exists i.
    assert (Hi3 : i < 3) by (apply lookup_lt_Some in Hi; rewrite take_length in Hi; lia). rewrite lookup_take in Hi |- * by done.
    by apply lookup_app_l_Some. }
  assert (Hmal : malformed pre).
  { intros first hdrs b (Em & _) (m & tg & v & (Hfl & _) & Hk & _).
    destruct (no_method sz (match ext with [] => CR | x :: _ => x end) (match ext with [] => LF :: tl | _ :: ext' => ext' ++ CR :: LF :: tl end)
      m (tg ++ SP :: v ++ CRLF ++ crlf_lines hdrs ++ CRLF ++ b ++ rest) Hne HF); [| |done].
    - destruct Hext as [->|He']; [by left|]. destruct ext as [|x ext]; [done|]. injection He' as ->. by right.
    - transitivity body.
      + rewrite Hb. by destruct ext.
      + rewrite Epr, Em, Hfl. by rewrite <- !app_assoc, <- !app_comm_cons, <- !app_assoc. }
  assert (Estr : Stream (map Byte body ++ l) t = Stream (map Byte pre ++ map Byte rest ++ l) t).
  { by rewrite Epr, map_app, <- app_assoc. }
  split; intros H2 Hwr.
  - destruct (malformed_400_partial U hit wr ro e w pre (map Byte rest ++ l) t Hit Hsp He Hpre Hmal (Htk (H01 H2)) Hwr) as (out & sent & E & Ho & _).
    exists out, sent, (Stream (map Byte rest ++ l) t). split; [|done]. by rewrite Estr.
  - subst wr. rewrite Estr. destruct (read_until_head pre (map Byte rest ++ l) t Hpre Hsp (Htk (H01 H2))) as [E Hpos].
    unfold handle_read. rewrite E. cbn [mbind outcome_bind]. rewrite (proj2 (Z.leb_gt _ _) Hpos).
    destruct (req_parse_total req_new pre Hsp) as (rc & r' & Hp & Hrc & Hiff). rewrite Hp. cbn [mbind outcome_bind].
    assert (rc = kLogicErr) as ->.
    { destruct Hrc as [Hok| ->]; [|done]. exfalso. apply Hiff in Hok as (f & h & b & Hm & Hg). by apply (Hmal f h b Hm). }
    change (negb (kLogicErr =? kSuccess)%Z) with true. cbv iota. by destruct (resp_build hit _ []) as [[? ?] ?].
Qed.

(** The head of a request: [first] is its first line, [hdrs] its header lines. *)
Definition request_head (head : bytes) (hdrs : list bytes) (path : bytes) : Prop :=
  exists first m tg v params, message head first hdrs [] /\ request_line first m tg v /\ m ∈ known_methods /\ v ∈ known_versions /\
    tg <> [] /\ url tg path params /\ ascii_only path.

(** A server that records what its handler sees: what it sees of a request with a chunked body. *)
Definition chunked_full : Prop := forall hit ro e head hdrs path body data k1 t,
  valid_order hit -> register [] [] recorder router_new = Ok (kSuccess, ro) ->
  request_head head hdrs path -> B "Transfer-Encoding: chunked" ∈ hdrs -> chunked body data -> short (head ++ body) -> NUL ∉ data ->
  exists v r, handle_read hit (WTake k1) ro e wr0 (Stream (map Byte (head ++ body)) t) = Ok v /\ sv_rest v = Stream [] t /\ w_user (sv_world v) = [r] /\ rq_body r = data.
(** At least the chunks are not taken for requests. *)
Definition chunks_no_requests (named : list bytes -> Prop) : Prop := forall hit ro e head hdrs path body data wrs t w' s' outs cl,
  valid_order hit -> register [] [] recorder router_new = Ok (kSuccess, ro) ->
  request_head head hdrs path -> B "Transfer-Encoding: chunked" ∈ hdrs -> named hdrs -> chunked body data -> short (head ++ body) -> short e ->
  serve hit wrs ro e wr0 (Stream (map Byte (head ++ body)) t) = Ok (w', s', outs, cl) -> length (w_user w') <= 1.
Definition no_length (hdrs : list bytes) : Prop := Forall (fun l => ~ B "Content-Length:" `prefix_of` l) hdrs.

Lemma stored_prefix l k v : stored_field l (k, v) -> (k ++ B ":") `prefix_of` l.
Proof.
  inversion 1 as [line kv (n & H1 & H2 & H3)|n m Hn]; subst.
  - eexists. cbn. rewrite <- app_assoc. done.
  - exists (replicate m SP). by rewrite <- app_assoc.
Qed.

Lemma no_length_field hdrs kvs : no_length hdrs -> leading_fields hdrs kvs -> last_val kvs (B "Content-Length") = None.
Proof.
  intros HF HL. destruct (last_val kvs (B "Content-Length")) as [v|] eqn:E; [|done]. apply last_val_In in E. exfalso.
  induction HL as [|l ls Hl|l ls kv kvs Hst HL IH]; [by apply elem_of_nil in E..|]. apply Forall_cons in HF as [Hl HF].
  apply elem_of_cons in E as [<-|E]; [|by apply IH]. apply Hl. by apply stored_prefix in Hst.
Qed.

Definition seen (r : req) : world (list req) := World true (fun _ => Absent true) [] ∅ [r].

(** Without a Content-Length, only the head is read. *)
Lemma head_answer hit ro e head hdrs path wr l t :
  register [] [] recorder router_new = Ok (kSuccess, ro) ->
  request_head head hdrs path -> no_length hdrs -> short head ->
  exists r, rt_path (rq_route r) = path /\ rq_body r = [] /\
    handle_read hit wr ro e wr0 (Stream (map Byte head ++ l) t) = respond hit wr resp_new e (seen r) (Stream l t).
Proof.
  intros Hro (first & m & tg & v & params & Hm & Hl & Hk & Hv & Htg & Hu & Ha) Hno Hs.
  destruct (leading_fields_exists hdrs) as [kvs HL].
  destruct (request_parse_reads req_new head first hdrs [] m tg v path params kvs Hs Hm Hl Hk Hv Htg Hu HL) as (r & Hp & _ & _ & Hpa & Hb & _ & Hh).
  destruct (message_head _ _ _ _ Hm) as (Et & _). rewrite app_nil_r in Et.
  assert (E : handle_read hit wr ro e wr0 (Stream (map Byte head ++ l) t) = answer hit wr ro r e wr0 (Stream l t)).
  { apply (handle_read_message hit wr ro e wr0 head first hdrs r l t Hs).
    - by rewrite Hb.
    - by exists m, tg, v.
    - rewrite Hb. by apply not_elem_of_nil.
    - rewrite <- Et, Hp. destruct r; cbn in Hb |- *. by subst.
    - right. split; [done|]. unfold header_get_content_length. rewrite Hh, (no_length_field _ _ Hno HL). cbn. rewrite lookup_empty. lia. }
  destruct recorder_dispatch as (ro' & Hro' & Hdis). rewrite Hro in Hro'. injection Hro' as <-.
  rewrite <- Hpa in Ha.
  rewrite (answer_ok _ _ _ _ _ _ _ _ _ (Hdis _ (ctx_new r resp_new) wr0 Ha eq_refl)) in E.
  exists r. by split.
Qed.

Lemma respond_new hit wr e r s : valid_order hit -> wr <> WSig -> exists out sent cl,
  respond hit wr resp_new e (seen r) s = Ok (Served (seen r) s [out] sent cl) /\ (cl = true <-> wr = WFail) /\ (forall k, wr = WTake k -> sent = take k out).
Proof.
  intros Hit Hw.
  destruct (respond_ok hit wr resp_new e (seen r) s Hit) as (out & sent & cl & E1 & _ & _ & _ & Hcl & Ht);
    [intros ? ? Hx; cbn in Hx; by rewrite lookup_empty in Hx|done|done|done|]. by exists out, sent, cl.
Qed.

(** The handlers see the request without its body. The body is then read as a request: if
    the first chunk's size has one character, the process ends; else the answer is 400 and
    the connection is closed. *)
Theorem chunked_partial : forall hit ro e head hdrs path body data k1 wr2 wrs t,
  valid_order hit -> register [] [] recorder router_new = Ok (kSuccess, ro) ->
  request_head head hdrs path -> no_length hdrs -> chunked body data -> short (head ++ body) -> short e ->
  exists r out1, rt_path (rq_route r) = path /\ rq_body r = [] /\
    handle_read hit (WTake k1) ro e wr0 (Stream (map Byte (head ++ body)) t) =
      Ok (Served (seen r) (Stream (map Byte body) t) [out1] (take k1 out1) false) /\
    (body !! 2 = Some LF -> serve hit (WTake k1 :: wr2 :: wrs) ro e wr0 (Stream (map Byte (head ++ body)) t) = Throw OutOfRange) /\
    (body !! 2 <> Some LF -> wr2 <> WSig -> exists s' out2,
       serve hit (WTake k1 :: wr2 :: wrs) ro e wr0 (Stream (map Byte (head ++ body)) t) =
         Ok (seen r, s', [out1; out2], true) /\ response_text out2 sBAD_REQUEST e).
Proof.
  intros hit ro e head hdrs path body data k1 wr2 wrs t Hit Hro Hh Hno Hch Hs He.
  assert (Hs1 : short head) by (unfold short in *; rewrite app_length in Hs; lia).
  assert (Hs2 : short body) by (unfold short in *; rewrite app_length in Hs; lia).
  destruct (head_answer hit ro e head hdrs path (WTake k1) (map Byte body) t Hro Hh Hno Hs1) as (r & Hp & Hb & E).
  destruct (respond_new hit (WTake k1) e r (Stream (map Byte body) t) Hit) as (out1 & sent1 & cl1 & E1 & Hcl & Ht); [done|].
  destruct cl1; [discriminate (proj1 Hcl eq_refl)|]. rewrite E1, (Ht k1 eq_refl) in E.
  exists r, out1. split; [done|]. split; [done|]. rewrite map_app. split; [done|].
  destruct (chunks_refused _ hit wr2 ro e (seen r) body data [] t Hit Hch Hs2 He) as (H1 & H2 & _).
  rewrite app_nil_r in H1, H2. split.
  - intros HLF. cbn [serve]. rewrite E. cbn [mbind outcome_bind sv_closed sv_world sv_rest]. by rewrite (H1 HLF).
  - intros HLF Hwr. destruct (H2 HLF Hwr) as (out2 & sent & rest & E2 & Hr). exists rest, out2. split; [|done].
    cbn [serve]. rewrite E. cbn [mbind outcome_bind sv_closed sv_world sv_rest]. rewrite E2. done.
Qed.

(** Chunks never become requests of their own when no Content-Length is given too. *)
Theorem chunks_no_requests_partial : chunks_no_requests no_length.
Proof.
  intros hit ro e head hdrs path body data wrs t w' s' outs cl Hit Hro Hh _ Hno Hch Hs He E.
  assert (Hs1 : short head) by (unfold short in *; rewrite app_length in Hs; lia).
  assert (Hs2 : short body) by (unfold short in *; rewrite app_length in Hs; lia).
  rewrite map_app in E. destruct wrs as [|wr wrs]; cbn [serve] in E; [injection E as <- _ _ _; cbn; lia|].
  destruct (head_answer hit ro e head hdrs path wr (map Byte body) t Hro Hh Hno Hs1) as (r & _ & _ & E1). rewrite E1 in E.
  assert (Hsig : wr <> WSig).
  { intros ->. revert E. unfold respond. destruct (resp_build hit _ []) as [[rc p2] buf].
    destruct (if negb (rc =? kSuccess)%Z then _ else _) as [p3 buf3]. done. }
  destruct (respond_new hit wr e r (Stream (map Byte body) t) Hit Hsig) as (out1 & sent1 & cl1 & E2 & _ & _).
  rewrite E2 in E. cbn [mbind outcome_bind sv_closed sv_world sv_rest sv_wrote] in E.
  destruct cl1; [injection E as <- _ _ _; cbn; lia|].
  destruct wrs as [|wr2 wrs]; cbn [serve mbind outcome_bind] in E; [injection E as <- _ _ _; cbn; lia|].
  destruct (chunks_refused _ hit wr2 ro e (seen r) body data [] t Hit Hch Hs2 He) as (H1 & H2 & H3). rewrite app_nil_r in H1, H2, H3.
  destruct (decide (body !! 2 = Some LF)) as [HLF|HLF]; [by rewrite (H1 HLF) in E|].
  destruct wr2 as [k2| |]; [| |by rewrite (H3 HLF eq_refl) in E].
  all: destruct (H2 HLF ltac:(done)) as (out2 & sent & rest & E3 & _); rewrite E3 in E; cbn [mbind outcome_bind sv_closed sv_world] in E; injection E as <- _ _ _; cbn; lia.
Qed.

(** * C231: the end of a connection *)

(** RFC 9112, 9.3: whether the connection ends after the answer. *)
Definition should_close (r : req) : Prop :=
  rq_header r !! B "Connection" = Some (B "close") \/
  (rq_version r = v1_0 /\ rq_header r !! B "Connection" <> Some (B "keep-alive")).

Definition connection_full : Prop := forall U hit k (ro : router U) e w text r l t v,
  valid_order hit -> short text -> request_text exact_name text r -> NUL ∉ rq_body r ->
  handle_read hit (WTake k) ro e w (Stream (map Byte text ++ l) t) = Ok v ->
  (sv_closed v = true <-> should_close r).

(** The server keeps every connection open, and reads on where the request ended. *)
Theorem connection_partial : forall U hit k (ro : router U) e w text r l t v,
  short text -> request_text exact_name text r -> NUL ∉ rq_body r ->
  handle_read hit (WTake k) ro e w (Stream (map Byte text ++ l) t) = Ok v ->
  sv_rest v = Stream l t /\
  (~ should_close r -> (sv_closed v = true <-> should_close r)) /\ (should_close r -> sv_closed v = false).
Proof.
  intros U hit k ro e w text r l t v Hs Hr Hn E. rewrite (handle_read_request hit _ ro e w text r l t Hs Hr Hn) in E.
  destruct (answer_what _ _ _ _ _ _ _ _ E) as [Hrest _]. split; [done|].
  assert (Hc : sv_closed v = false).
  { unfold answer in E. destruct (dispatch _ _ _ w) as [[c' w']| | | | |]; cbn [mbind outcome_bind fst snd] in E; try done.
    unfold respond in E. destruct (resp_build hit _ []) as [[rc p2] buf].
    destruct (if negb (rc =? kSuccess)%Z then _ else _) as [p3 buf3]. cbn [sock_write mbind outcome_bind] in E. injection E as <-.
    cbn [sv_closed]. unfold rc_of. apply Z.ltb_ge. lia. }
  rewrite Hc. by split.
Qed.

(** * C232: HEAD *)

(** RFC 9110, 9.3.2: the answer to HEAD has no body. *)
Definition bare (out : bytes) : Prop := exists first hdrs, message out first hdrs [].
Definition head_full : Prop := forall U hit k (ro : router U) e w text r l t v,
  valid_order hit -> short text -> request_text exact_name text r -> NUL ∉ rq_body r -> rq_method r = mHEAD ->
  handle_read hit (WTake k) ro e w (Stream (map Byte text ++ l) t) = Ok v -> Forall bare (sv_wrote v).

Lemma bare_body out st body : response_text out st body -> (bare out <-> body = []).
Proof.
  intros (first & hdrs & ver & Hm & _). split.
  - intros (first' & hdrs' & Hm'). destruct (message_head _ _ _ _ Hm) as (E & _ & (_ & Hsuf & Hmin)).
    destruct (message_head _ _ _ _ Hm') as (E' & _ & (_ & Hsuf' & Hmin')).
    destruct (shortest_until_unique CRLFCRLF out (head_of first hdrs) body (head_of first' hdrs') []) as [_ Hb]; [by split|by split|done].
  - intros ->. by exists first, hdrs.
Qed.

(** The answer to HEAD has no body exactly if a handler set a status and left the body
    empty: the method is not looked at, and the 404 page is sent. *)
Theorem head_partial : forall U hit wr (ro : router U) e w text r l t c' w',
  valid_order hit -> short text -> request_text exact_name text r -> NUL ∉ rq_body r -> wr <> WSig ->
  dispatch ro (rt_path (rq_route r)) (ctx_new r resp_new) w = Ok (c', w') ->
  resp_sendable (rs_header (cx_resp c')) -> rs_version (cx_resp c') <> vUNKNOWN -> short (rs_body (cx_resp c')) ->
  exists v out, handle_read hit wr ro e w (Stream (map Byte text ++ l) t) = Ok v /\ sv_wrote v = [out] /\
    (bare out <-> rs_status (cx_resp c') <> sUNKNOWN /\ rs_body (cx_resp c') = []).
Proof.
  intros U hit wr ro e w text r l t c' w' Hit Hs Hr Hn Hw Hd H1 H2 H3.
  destruct (one_response_partial U hit wr ro e w text r l t c' w' Hit Hs Hr Hn Hw Hd H1 H2 H3) as (out & sent & cl & E & Ha & Hb & _).
  eexists _, out. split; [exact E|]. split; [done|].
  destruct (decide (rs_status (cx_resp c') = sUNKNOWN)) as [Hu|Hu].
  - rewrite (bare_body _ _ _ (Hb Hu)). split; [done|]. by intros [? _].
  - rewrite (bare_body _ _ _ (Ha Hu)). split; [done|]. by intros [_ ?].
Qed.

(** * C233: Expect: 100-continue *)

(** RFC 9110, 10.1.1: a client that waits for 100 (Continue) before it sends the body gets an answer. *)
Definition expect_full : Prop := forall U hit k (ro : router U) e w head r n l t v,
  valid_order hit -> short head -> (N.of_nat (length head + n) < 2 ^ 31)%N -> declares head r n -> 0 < n ->
  rq_header r !! B "Expect" = Some (B "100-continue") ->
  handle_read hit (WTake k) ro e w (Stream (map Byte head ++ Gap :: l) t) = Ok v -> sv_wrote v <> [].

(** The expectation is ignored: while the client waits the server's thread waits too, and
    the time-out ends the connection without an answer. A client that sends the body anyway
    is answered as without the expectation. *)
Theorem expect_partial : forall U hit wr (ro : router U) e w head r n l t,
  short head -> (N.of_nat (length head + n) < 2 ^ 31)%N -> declares head r n -> 0 < n ->
  rq_header r !! B "Expect" = Some (B "100-continue") ->
  handle_read hit wr ro e w (Stream (map Byte head) Wait) = Blocked /\
  (exists s1, handle_read hit wr ro e w (Stream (map Byte head ++ Gap :: l) t) = Ok (Served w s1 [] [] true)) /\
  (forall body c' w', length body = n -> NUL ∉ body -> valid_order hit -> wr <> WSig ->
     dispatch ro (rt_path (rq_route r)) (ctx_new (Req (rq_method r) (rq_version r) (rq_header r) (rq_route r) body) resp_new) w = Ok (c', w') ->
     rs_status (cx_resp c') <> sUNKNOWN ->
     resp_sendable (rs_header (cx_resp c')) -> rs_version (cx_resp c') <> vUNKNOWN -> short (rs_body (cx_resp c')) ->
     exists v out, handle_read hit wr ro e w (Stream (map Byte (head ++ body) ++ l) t) = Ok v /\ sv_rest v = Stream l t /\
       sv_wrote v = [out] /\ response_text out (rs_status (cx_resp c')) (rs_body (cx_resp c'))).
Proof.
  intros U hit wr ro e w head r n l t Hs Hn Hd Hpos Hex. split; [|split].
  - assert (exists body : bytes, length body = n) as [body Hbl] by (exists (replicate n "a"%char); apply replicate_length).
    assert (Hst : short (head ++ body)) by (unfold short; by rewrite app_length, Hbl).
    destruct (request_text_parts _ _ Hst (Hd body Hbl)) as (first & hdrs & Hm & Hg & Hp & Hcl).
    cbn [rq_method rq_version rq_header rq_route rq_body] in *.
    destruct (message_head _ _ _ _ Hm) as (Htx & _ & Hsh). apply app_inj_2 in Htx as [-> _]; [|done].
    assert (Hlf : LF ∉ take 3 (head_of first hdrs)) by (unfold head_of; by apply good_line_start).
    destruct (read_until_head (head_of first hdrs) [] Wait Hsh Hs Hlf) as [E Hp0]. rewrite app_nil_r in E.
    unfold handle_read. rewrite E. cbn [mbind outcome_bind]. rewrite (proj2 (Z.leb_gt _ _) Hp0), Hp. cbn [mbind outcome_bind rq_header].
    change (negb (kSuccess =? kSuccess)%Z) with false. cbv iota.
    assert (Hc : header_get_content_length (rq_header r) = Z.of_nat n).
    { destruct Hcl as [->|[Hx _]]; [by rewrite Hbl|]. rewrite Hx in Hbl. simpl in Hbl. lia. }
    rewrite Hc, (proj2 (Z.ltb_lt _ _)) by lia. rewrite Nat2Z.id. unfold read_string, recv_all. cbn [sm_items sm_tail].
    by destruct n; [lia|].
  - apply (complete_bodies_partial U hit wr ro e w head r n (Stream (map Byte head ++ Gap :: l) t) (Stream (Gap :: l) t) Hs Hn Hd Hpos); try done.
    right; right. by exists l, t.
  - intros body c' w' Hl Hnul Hit Hw Hdis Hst H1 H2 H3.
    destruct (one_response_partial U hit wr ro e w (head ++ body) (Req (rq_method r) (rq_version r) (rq_header r) (rq_route r) body) l t c' w' Hit)
      as (out & sent & cl & E & Ha & _); try done.
    + unfold short. by rewrite app_length, Hl.
    + by apply Hd.
    + eexists _, out. split; [exact E|]. split; [done|]. split; [done|]. by apply Ha.
Qed.

(** * Examples and refutations *)

Definition req_text (m : http_method) (v : http_version) (kvs : list (bytes * bytes)) (body : bytes) : bytes :=
  (method_str m ++ B " /a " ++ version_str v) ++ CRLF ++ crlf_lines (field_lines kvs) ++ CRLF ++ body.
Definition req_of (m : http_method) (v : http_version) (kvs : list (bytes * bytes)) (body : bytes) : req :=
  Req m v (insert_all ∅ kvs) (Route (B "/a") ∅) body.
Definition plain_field (kv : bytes * bytes) : Prop :=
  ":"%char ∉ kv.1 /\ CR ∉ kv.1 /\ CR ∉ kv.2 /\ kv.2 <> [] /\ head kv.2 <> Some SP.

Lemma plain_lines kvs : Forall plain_field kvs -> Forall (fun l => one_line l /\ l <> []) (field_lines kvs).
Proof.
  induction 1 as [|[k w] kvs (H1 & H2 & H3 & H4 & H5) HF IH]; [constructor|]. cbn [field_lines map fst snd] in *. constructor; [|done]. split; [|by destruct k].
  apply no_cr_one_line. rewrite !not_elem_of_app. split; [done|]. split; [by_compute|done].
Qed.

Lemma first_line_ok m v : one_line (method_str m ++ B " /a " ++ version_str v) /\
  request_line (method_str m ++ B " /a " ++ version_str v) (method_str m) (B "/a") (version_str v).
Proof.
  destruct (method_str_chars m), (version_str_chars v). split.
  - apply no_cr_one_line. rewrite !not_elem_of_app. split; [done|]. split; [by_compute|done].
  - split; [done|]. split; [done|]. split; [by_compute|done].
Qed.

Lemma req_text_ok m v kvs body : m <> mUNKNOWN -> v <> vUNKNOWN -> Forall plain_field kvs -> declares_length exact_name kvs (length body) ->
  request_text exact_name (req_text m v kvs body) (req_of m v kvs body).
Proof.
  intros Hm Hv HF Hd. exists (method_str m ++ B " /a " ++ version_str v), (field_lines kvs), kvs, (B "/a"), [].
  destruct (first_line_ok m v) as [H1 H2].
  split; [|split; [done|split; [done|split; [done|split; [done|split; [by constructor; by_compute|split; [intros k; cbn; by rewrite lookup_empty|]]]]]]].
  - split; [done|]. split; [done|]. by apply plain_lines.
  - split; [|split; [|split; [|done]]].
    + unfold field_lines. apply Forall2_fmap_l, Forall2_same_length_lookup_2; [done|]. intros i kv kv' E1 E2. rewrite E1 in E2. injection E2 as <-.
      rewrite Forall_forall in HF. destruct (HF kv) as (Ha & _ & _ & _ & Hb); [by eapply elem_of_list_lookup_2|].
      exists 1. by split.
    + eapply Forall_impl; [exact HF|]. intros kv (_ & _ & _ & ? & _). done.
    + intros k. apply last_val_insert_all.
Qed.

Lemma req_text_head m v kvs : m <> mUNKNOWN -> v <> vUNKNOWN -> Forall plain_field kvs -> request_head (req_text m v kvs []) (field_lines kvs) (B "/a").
Proof.
  intros Hm Hv HF. exists (method_str m ++ B " /a " ++ version_str v), (method_str m), (B "/a"), (version_str v), [].
  destruct (first_line_ok m v) as [H1 H2]. split; [|split; [done|split; [|split; [|split; [done|split; [constructor; by_compute|by_compute]]]]]].
  - split; [done|]. split; [done|]. by apply plain_lines.
  - destruct m; by_compute || done.
  - destruct v; by_compute || done.
Qed.

Definition te : bytes * bytes := (B "Transfer-Encoding", B "chunked").
Definition cl4 : bytes * bytes := (B "Content-Length", B "4").
Definition smuggled : bytes := B "GET /admin HTTP/1.1" ++ CRLFCRLF.
Lemma last_chunk : chunked (B "0" ++ [] ++ CRLF ++ CRLF) [].
Proof. apply chunk_last; [done|by_compute|]. split; [by_compute|]. split; [by_compute|by left]. Qed.
Definition one_chunk (n : bytes) (d : bytes) : bytes := n ++ [] ++ CRLF ++ d ++ CRLF ++ B "0" ++ [] ++ CRLF ++ CRLF.
Lemma one_chunk_ok n d : Forall hex_digit n -> d <> [] -> hex_value n = length d -> chunked (one_chunk n d) (d ++ []).
Proof. intros H1 H2 H3. apply chunk_more; [done| |done|done|apply last_chunk]. split; [by_compute|]. split; [by_compute|by left]. Qed.

Definition hello : bytes := req_text mPOST v1_1 [te] [] ++ one_chunk (B "5") (B "hello").
Definition long_hello : bytes := req_text mPOST v1_1 [te] [] ++ one_chunk (B "05") (B "hello").

Lemma te_head : request_head (req_text mPOST v1_1 [te] []) (field_lines [te]) (B "/a") /\ B "Transfer-Encoding: chunked" ∈ field_lines [te] /\ no_length (field_lines [te]).
Proof.
  split; [apply req_text_head; [done|done|]; repeat constructor; by_compute || done|]. split; [by_compute|].
  constructor; [|constructor]. intros [k Hk]. discriminate Hk.
Qed.

(** A POST with the chunks of [hello]: the handler sees no body, and the next read throws,
    which ends the server. With a longer size the next answer is 400. *)
Example chunked_ex : exists ro r out, register [] [] recorder router_new = Ok (kSuccess, ro) /\ rq_body r = [] /\
  serve map_to_list [WTake 500; WTake 500] ro [] wr0 (of_bytes hello Wait) = Throw OutOfRange /\
  (exists s' out2, serve map_to_list [WTake 500; WTake 500] ro [] wr0 (of_bytes long_hello Wait) = Ok (seen r, s', [out; out2], true)).
Proof.
  destruct recorder_dispatch as (ro & Hro & _). destruct te_head as (Hh & _ & Hno).
  assert (Hc1 : chunked (one_chunk (B "5") (B "hello")) (B "hello" ++ [])) by (apply one_chunk_ok; [by_compute|done|done]).
  assert (Hc2 : chunked (one_chunk (B "05") (B "hello")) (B "hello" ++ [])) by (apply one_chunk_ok; [by_compute|done|done]).
  destruct (chunked_partial map_to_list ro [] _ _ _ _ _ 500 (WTake 500) [] Wait valid_order_sorted Hro Hh Hno Hc1 ltac:(by vm_compute) ltac:(by vm_compute)) as (_ & _ & _ & _ & _ & H1 & _).
  destruct (chunked_partial map_to_list ro [] _ _ _ _ _ 500 (WTake 500) [] Wait valid_order_sorted Hro Hh Hno Hc2 ltac:(by vm_compute) ltac:(by vm_compute)) as (r & out & _ & Hb & _ & _ & H2).
  exists ro, r, out. split; [done|]. split; [done|]. split; [apply H1; by_compute|].
  destruct (H2 ltac:(by_compute) ltac:(done)) as (s' & out2 & E & _). by exists s', out2.
Qed.

Theorem chunked_refuted : ~ chunked_full.
Proof.
  intros H. destruct recorder_dispatch as (ro & Hro & _). destruct te_head as (Hh & Hin & Hno).
  assert (Hc : chunked (one_chunk (B "5") (B "hello")) (B "hello" ++ [])) by (apply one_chunk_ok; [by_compute|done|done]).
  destruct (H map_to_list ro [] _ _ _ _ _ 0 Wait valid_order_sorted Hro Hh Hin Hc ltac:(by vm_compute) ltac:(by_compute)) as (v & r & E & Hr & _).
  destruct (chunked_partial map_to_list ro [] _ _ _ _ _ 0 (WTake 500) [] Wait valid_order_sorted Hro Hh Hno Hc ltac:(by vm_compute) ltac:(by vm_compute)) as (r' & out & _ & _ & E' & _).
  rewrite E' in E. injection E as <-. discriminate Hr.
Qed.

(** With a Content-Length beside it, the body's chunks hold a request that the handlers see. *)
Theorem chunks_no_requests_refuted : ~ chunks_no_requests (fun _ => True).
Proof.
  intros H. destruct recorder_dispatch as (ro & Hro & _).
  assert (Hh : request_head (req_text mPOST v1_1 [cl4; te] []) (field_lines [cl4; te]) (B "/a")).
  { apply req_text_head; [done|done|]. repeat constructor; by_compute || done. }
  assert (Hc : chunked (one_chunk (B "17") smuggled) (smuggled ++ [])) by (apply one_chunk_ok; [by_compute|done|done]).
  pose (run := serve map_to_list [WTake 0; WTake 0] ro [] wr0 (Stream (map Byte (req_text mPOST v1_1 [cl4; te] [] ++ one_chunk (B "17") smuggled)) Wait)).
  assert (Hrun : exists w' s' outs cl, run = Ok (w', s', outs, cl) /\ length (w_user w') = 2).
  { vm_compute in Hro. injection Hro as <-. unfold run. do 4 eexists. split; vm_compute; reflexivity. }
  destruct Hrun as (w' & s' & outs & cl & E & H2).
  pose proof (H map_to_list ro [] _ _ _ _ _ [WTake 0; WTake 0] Wait w' s' outs cl valid_order_sorted Hro Hh ltac:(by_compute) I Hc ltac:(by vm_compute) ltac:(by vm_compute) E) as Hle.
  lia.
Qed.

Definition closing : list (bytes * bytes) := [(B "Connection", B "close")].
Lemma plain_404 m v kvs : m <> mUNKNOWN -> v <> vUNKNOWN -> Forall plain_field kvs -> declares_length exact_name kvs 0 -> short (req_text m v kvs []) ->
  exists out, handle_read map_to_list (WTake 500) (router_new : router (list req)) [] wr0 (Stream (map Byte (req_text m v kvs []) ++ []) Wait) =
    Ok (Served wr0 (Stream [] Wait) [out] (take 500 out) false) /\ response_text out sNOT_FOUND not_found_page.
Proof.
  intros Hm Hv HF Hd Hs. apply (empty_server_answers_404 (list req) map_to_list 500 [] wr0 (req_text m v kvs []) (req_of m v kvs []) [] Wait).
  - apply valid_order_sorted.
  - done.
  - by apply req_text_ok.
  - cbn. by apply not_elem_of_nil.
  - by_compute.
Qed.
Lemma closing_ok : Forall plain_field closing /\ declares_length exact_name closing 0.
Proof.
  split; [repeat constructor; by_compute || done|]. right. split; [done|].
  intros k x Hin. apply elem_of_list_singleton in Hin as [= -> ->]. done.
Qed.

Theorem connection_refuted : ~ connection_full.
Proof.
  intros H. destruct closing_ok as [Hc Hd].
  destruct (plain_404 mGET v1_1 closing) as (out & E & _); [done|done|done|done|by vm_compute|].
  assert (Hs : should_close (req_of mGET v1_1 closing [])) by (left; by vm_compute).
  assert (Ht : request_text exact_name (req_text mGET v1_1 closing []) (req_of mGET v1_1 closing [])) by by apply req_text_ok.
  assert (Hsh : short (req_text mGET v1_1 closing [])) by by vm_compute.
  assert (Hn : NUL ∉ rq_body (req_of mGET v1_1 closing [])) by by_compute.
  destruct (H _ map_to_list 500 router_new [] wr0 _ _ [] Wait _ valid_order_sorted Hsh Ht Hn E) as [_ Hx]. discriminate (Hx Hs).
Qed.

(** The same for HTTP/1.0 without any header. *)
Example connection_ex : should_close (req_of mGET v1_0 [] []) /\
  exists out, handle_read map_to_list (WTake 500) (router_new : router (list req)) [] wr0 (of_bytes (req_text mGET v1_0 [] []) Wait) =
    Ok (Served wr0 (Stream [] Wait) [out] (take 500 out) false).
Proof.
  split; [right; split; [done|]; by vm_compute|].
  destruct (plain_404 mGET v1_0 []) as (out & E & _); [done|done|constructor| |by vm_compute|].
  - right. split; [done|]. intros k x Hin. by apply elem_of_nil in Hin.
  - exists out. rewrite app_nil_r in E. exact E.
Qed.

Theorem head_refuted : ~ head_full.
Proof.
  intros H. destruct closing_ok as [Hc Hd].
  destruct (plain_404 mHEAD v1_1 closing) as (out & E & Hr); [done|done|done|done|by vm_compute|].
  assert (Ht : request_text exact_name (req_text mHEAD v1_1 closing []) (req_of mHEAD v1_1 closing [])) by by apply req_text_ok.
  assert (Hsh : short (req_text mHEAD v1_1 closing [])) by by vm_compute.
  assert (Hn : NUL ∉ rq_body (req_of mHEAD v1_1 closing [])) by by_compute.
  pose proof (H _ map_to_list 500 router_new [] wr0 _ _ [] Wait _ valid_order_sorted Hsh Ht Hn eq_refl E) as HF.
  cbn [sv_wrote] in HF. apply Forall_cons in HF as [Hb _]. apply (bare_body _ _ _ Hr) in Hb. discriminate Hb.
Qed.

(** A handler that only sets a status answers HEAD rightly. *)
Definition silent : handler (list req) := fun c w => Ok (ctx_set_resp c (Resp sNO_CONTENT (rs_version (cx_resp c)) (rs_header (cx_resp c)) (rs_body (cx_resp c))), w).
Example head_ex : exists ro v out, register [] [] (Entry (Some silent) false []) router_new = Ok (kSuccess, ro) /\
  handle_read map_to_list (WTake 500) ro [] wr0 (of_bytes (req_text mHEAD v1_1 closing []) Wait) = Ok v /\ sv_wrote v = [out] /\
  out = B "HTTP/1.1 204 No Content" ++ CRLF ++ B "Content-Length: 0" ++ CRLF ++ CRLF.
Proof. do 3 eexists. split; [vm_compute; reflexivity|]. split; [vm_compute; reflexivity|]. split; vm_compute; reflexivity. Qed.

Definition waiting : list (bytes * bytes) := [(B "Expect", B "100-continue"); (B "Content-Length", B "2")].
Lemma waiting_declares : declares (req_text mPOST v1_1 waiting []) (req_of mPOST v1_1 waiting []) 2.
Proof.
  intros body Hb. cbn [rq_method rq_version rq_header rq_route req_of].
  assert (E : req_text mPOST v1_1 waiting [] ++ body = req_text mPOST v1_1 waiting body).
  { unfold req_text. by rewrite <- !app_assoc. }
  rewrite E. apply req_text_ok; [done|done|repeat constructor; by_compute || done|]. left. exists (B "Content-Length"). split; [done|]. split; [by rewrite Hb|].
  intros k v Hin Hk. exact Hk.
Qed.

Lemma waiting_short : short (req_text mPOST v1_1 waiting []) /\ (N.of_nat (length (req_text mPOST v1_1 waiting []) + 2) < 2 ^ 31)%N /\
  rq_header (req_of mPOST v1_1 waiting []) !! B "Expect" = Some (B "100-continue").
Proof. split; [by vm_compute|]. split; by vm_compute. Qed.

Example expect_ex : handle_read map_to_list (WTake 500) (router_new : router (list req)) [] wr0 (Stream (map Byte (req_text mPOST v1_1 waiting [])) Wait) = Blocked.
Proof.
  destruct waiting_short as (H1 & H2 & H3).
  apply (expect_partial (list req) map_to_list (WTake 500) router_new [] wr0 _ _ 2 [] Wait H1 H2 waiting_declares ltac:(lia) H3).
Qed.

Theorem expect_refuted : ~ expect_full.
Proof.
  intros H. destruct waiting_short as (H1 & H2 & H3).
  destruct (expect_partial (list req) map_to_list (WTake 0) router_new [] wr0 _ _ 2 [] Wait H1 H2 waiting_declares ltac:(lia) H3) as (_ & (s1 & E) & _).
  by apply (H _ map_to_list 0 router_new [] wr0 _ _ 2 [] Wait _ valid_order_sorted H1 H2 waiting_declares ltac:(lia) H3) in E.
Qed.

Print Assumptions chunks_refused.
Print Assumptions chunked_partial.
Print Assumptions chunked_refuted.
Print Assumptions chunks_no_requests_partial.
Print Assumptions chunks_no_requests_refuted.
Print Assumptions connection_partial.
Print Assumptions connection_refuted.
Print Assumptions head_partial.
Print Assumptions head_refuted.
Print Assumptions expect_partial.
Print Assumptions expect_refuted.
