(** Model of the texts for people: [err_msg_] of HttpReq, HttpRoute, HttpHeader,
    HttpResp and HttpClient, and what HttpServer::HandleRead logs.

    Each function says what the texts are after a call; what the call returns and
    does otherwise is in Req.v, Resp.v, Client.v and Server.v.  The texts of Socket
    (strerror) are arguments. *)
From Verif.Model Require Export Client Logger.

Local Open Scope N_scope.

(** ** Requests *)

(** [err_msg_] of an HttpReq, of its HttpHeader and of its HttpRoute *)
Record req_text : Type := ReqText { qt_own : bytes; qt_header : bytes; qt_route : bytes }.
Definition req_text_new : req_text := ReqText [] [] [].
Definition qt_say (t : req_text) (m : bytes) : req_text := ReqText m (qt_header t) (qt_route t).

(** http_header.cpp:9-29, the only two assignments to [err_msg_] *)
Definition header_parse_text (old : bytes) (h : header) (s : bytes) : outcome bytes :=
  match s with
  | [] => Ok (B "header is empty")
  | _ => hp ← header_parse h s; Ok (if (hp.1 =? kSuccess)%Z then old else B "header format error")
  end.
(** http_route.cpp:8-12 *)
Definition route_parse_text (old target : bytes) : bytes :=
  match target with [] => B "path is empty" | _ => old end.

(** http_req.cpp:9-60 [HttpReq::Parse] *)
Definition req_parse_text (t : req_text) (r : req) (s : bytes) : outcome req_text :=
  match s with
  | [] => Ok (qt_say t (B "[logicerr]:empty http request"))
  | _ =>
    let header_end_pos := str_find s CRLFCRLF 0 in
    if header_end_pos =? npos then Ok (qt_say t (B "[logicerr]:can't find endof header"))
    else
    let line_end_pos := str_find s CRLF 0 in
    if line_end_pos =? npos then Ok (qt_say t (B "[logicerr]:can't find endof line"))
    else
    block ← substr s (szadd line_end_pos 2) header_end_pos;
    hp ← header_parse (rq_header r) block;
    ht ← header_parse_text (qt_header t) (rq_header r) block;
    let t1 := ReqText (qt_own t) ht (qt_route t) in
    if (hp.1 =? 0)%Z then Ok (qt_say t1 ht)
    else
    first_line ← substr s 0 line_end_pos;
    single ← str_split first_line (B " ") [] false;
    match single with
    | [m; target; v] =>
        if decide (to_method m = mUNKNOWN) then Ok (qt_say t1 (B "[logicerr]:invalid http method"))
        else
        rp ← route_parse (rq_route r) target;
        let t2 := ReqText (qt_own t1) (qt_header t1) (route_parse_text (qt_route t1) target) in
        if negb (rp.1 =? kSuccess)%Z then Ok (qt_say t2 (qt_route t2))
        else if decide (to_version v = vUNKNOWN) then Ok (qt_say t2 (B "[logicerr]:invalid http version"))
        else Ok t2
    | _ => Ok (qt_say t1 (B "[logicerr]:invalid http request"))
    end
  end.

(** ** Responses *)

(** http_resp.cpp:9-64 [HttpResp::Parse]; [hold]: the text of the header object *)
Definition resp_parse_text (old hold : bytes) (r : resp) (s : bytes) : outcome bytes :=
  match s with
  | [] => Ok (B "empty http response")
  | _ =>
    let pos := str_find s CRLF 0 in
    let header_end_pos := str_find s CRLFCRLF 0 in
    if pos =? npos then Ok (B "header format error")
    else
    first_line ← substr s 0 pos;
    hdr ← substr s (szadd pos 2) (szsub (szsub header_end_pos pos) 2);
    let sp1 := str_find first_line (B " ") 0 in
    if sp1 =? npos then Ok (B "first line format error")
    else
    let sp2 := str_find first_line (B " ") (szadd sp1 1) in
    if sp2 =? npos then Ok (B "first line format error")
    else
    code ← substr first_line (szadd sp1 1) (szsub (szsub sp2 sp1) 1);
    match stoi code with
    | Ok _ =>
        hp ← header_parse (rs_header r) hdr;
        ht ← header_parse_text hold (rs_header r) hdr;
        Ok (if (hp.1 =? kSuccess)%Z then old else ht ++ [LFb] ++ hdr)
    | _ => Ok (B "status code format error")
    end
  end.

(** ** The client *)

(** http_client.cpp:22-66 [HttpClient::Send]; [serr]: what Socket says after a failed
    Write *)
Definition client_send_text (old serr : bytes) (open : bool) (hit rit : iter_order) (wr : wres) (q : req) (p : resp)
    (s : stream) : outcome bytes :=
  if negb open then Ok (B "[logicerr]:socket is null")
  else
  let '(rc, _, req_str) := req_build hit rit q [] in
  if negb (rc =? kSuccess)%Z then Ok (B "[req.Build]:" ++ B "[logicerr]:invalid http request")
  else
  o ← sock_write wr req_str;
  if (o.1 <=? 0)%Z then Ok (B "[soc.Write]:" ++ serr)
  else
  u ← read_until [] CRLFCRLF s;
  let '(len, resp_str, s1) := u in
  if (len <=? 0)%Z then Ok (B "[logicerr]:empty http response")
  else
  pr ← resp_parse p resp_str;
  let '(rc, p1) := pr in
  if negb (rc =? kSuccess)%Z then pt ← resp_parse_text [] [] p resp_str; Ok (B "[resp.Parse]:" ++ pt)
  else
  let len := header_get_content_length (rs_header p1) in
  if (0 <? len)%Z then
    b ← read_string true 0 (Z.to_nat len) s1;
    let '(rec_len, _, _) := b in
    if negb (rec_len =? len)%Z then Ok (B "[logicerr]:invalid http response") else Ok old
  else Ok old.

(** ** The server's log *)

(** A call of Info, Error, ... of the logger *)
Notation log_entry := (level * bytes)%type.

Section log.
Context {U : Type}.

(** What was logged, and how the call ended. *)
Notation logging A := (list log_entry * outcome A)%type.
Definition log_bind {A C} (o : outcome A) (f : A -> logging C) : logging C :=
  match o with
  | Ok a => f a
  | Throw e => ([], Throw e) | UB => ([], UB) | Diverge => ([], Diverge) | Blocked => ([], Blocked) | Terminate => ([], Terminate)
  end.
Definition log_say {A} (es : list log_entry) (x : logging A) : logging A := (es ++ x.1, x.2).

(** http_server.cpp:328, 407: after Write *)
Definition resp_entry (fd : Z) (st : status_code) : log_entry :=
  (kInfo, B "resp: " ++ status_str st ++ B " soc:" ++ int_to_string fd ++ [LFb]).
(** http_server.cpp:360 *)
Definition req_entry (fd : Z) (m : http_method) (path : bytes) : log_entry :=
  (kInfo, B "req: " ++ method_str m ++ B " " ++ path ++ B " soc:" ++ int_to_string fd).

(** http_server.cpp:392-411, step 3; [werr]: what Socket says after a failed Write *)
Definition respond_log (fd : Z) (werr : bytes) (hit : iter_order) (wr : wres) (p : resp) (w : world U) (s : stream)
    : logging (served U) :=
  let p1 := if decide (rs_status p = sUNKNOWN) then resp_not_found p else p in
  let '(rc, p2, buf) := resp_build hit p1 [] in
  let '(es, p3, buf3) :=
    if negb (rc =? kSuccess)%Z then
      let '(_, p3, buf3) := resp_build hit (resp_internal_error p2 (B "status code is unknown")) buf in
      ([(kError, B "[resp.Build]:" ++ B "status code is unknown")], p3, buf3)
    else ([], p2, buf) in
  log_say es (log_bind (sock_write wr buf3) (fun o =>
    if (o.1 <? 0)%Z then ([(kError, B "[soc.Write]" ++ werr)], Ok (Served w s [buf3] o.2 true))
    else ([resp_entry fd (rs_status p3)], Ok (Served w s [buf3] o.2 false)))).

(** http_server.cpp:359-411 *)
Definition answer_log (fd : Z) (werr : bytes) (hit : iter_order) (wr : wres) (ro : router U) (r : req) (w : world U)
    (s : stream) : logging (served U) :=
  let path := rt_path (rq_route r) in
  log_say [req_entry fd (rq_method r) path]
    (log_bind (dispatch ro path (ctx_new r resp_new) w) (fun cw =>
       respond_log fd werr hit wr (cx_resp cw.1) cw.2 s)).

(** http_server.cpp:279-411 [HttpServer::HandleRead] on a connection with descriptor
    [fd]; [rerr]: what Socket says after a failed read, [None]: errno is EAGAIN *)
Definition handle_read_log (fd : Z) (rerr : option bytes) (werr : bytes) (hit : iter_order) (wr : wres) (ro : router U)
    (w : world U) (s : stream) : logging (served U) :=
  log_bind (read_until [] CRLFCRLF s) (fun u =>
  let '(len, buf, s1) := u in
  if (len =? 0)%Z then
    ([(kError, B "[soc.ReadUntil]: peer close before read complete")], Ok (Served w s1 [] [] true))
  else if (len <? 0)%Z then
    ([(kError, match rerr with None => B "[soc.ReadUntil]: read timeout" | Some m => B "[soc.ReadUntil]:" ++ m end)],
     Ok (Served w s1 [] [] true))
  else
  log_bind (req_parse req_new buf) (fun pr =>
  let '(rc, r) := pr in
  if negb (rc =? kSuccess)%Z then
    log_bind (req_parse_text req_text_new req_new buf) (fun t =>
    let '(_, p, resp_buf) := resp_build hit (resp_bad_request resp_new (qt_own t)) [] in
    log_say [(kError, B "[req.Parse]:" ++ qt_own t)]
      (log_bind (sock_write wr resp_buf) (fun o =>
        ([resp_entry fd (rs_status p)], Ok (Served w s1 [resp_buf] o.2 true)))))
  else
  let content_size := header_get_content_length (rq_header r) in
  if (0 <? content_size)%Z then
    log_bind (read_string true 0 (Z.to_nat content_size) s1) (fun b =>
    let '(rc, body, s2) := b in
    if (rc =? 0)%Z then
      ([(kError, B "[soc.Read]: peer close before read complete")], Ok (Served w s2 [] [] true))
    else if (rc <? 0)%Z then
      ([(kError, match rerr with None => B "[soc.Read]: read body timeout" | Some m => B "[soc.Read]: " ++ m end)],
       Ok (Served w s2 [] [] true))
    else answer_log fd werr hit wr ro (Req (rq_method r) (rq_version r) (rq_header r) (rq_route r) body) w s2)
  else answer_log fd werr hit wr ro r w s1)).
End log.

(** The text a StdLogger prints for these entries (std_logger.hpp:11-37, level kDebug) *)
Definition std_text (es : list log_entry) : bytes :=
  flat_map (fun e => match std_log kDebug e.1 e.2 with Some (_, line) => line | None => [] end) es.
