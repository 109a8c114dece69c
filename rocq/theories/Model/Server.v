(** Model of the request loop of src/cppnet/http/server/http_server.cpp.

    Simplifications: logging, the error texts of HttpReq ([errmsg] stands for
    req.err_msg()), and TLS connections are not modelled (with CPPNET_OPENSSL the
    same code runs on an SSLSocket). *)
From Verif.Model Require Export Router Socket.

Local Open Scope N_scope.

(** What send(2) does with a response: takes the first [k] bytes of it (any [k]:
    a write timeout or a signal can interrupt it), fails, or raises SIGPIPE
    (no MSG_NOSIGNAL, socket.hpp:207-213; the library does not ignore SIGPIPE). *)
Inductive wres : Type := WTake (k : nat) | WFail | WSig.

(** socket.cpp:193-202 [Socket::Write] on an open socket: return code and the
    bytes that reach the peer. *)
Definition sock_write (wr : wres) (buf : bytes) : outcome (Z * bytes) :=
  match wr with
  | WTake k => Ok (rc_of (take k buf), take k buf)
  | WFail => Ok ((-1)%Z, [])
  | WSig => Terminate
  end.

Section server.
Context {U : Type}.

(** What one call of HandleRead did. *)
Record served : Type := Served {
  sv_world : world U;
  sv_rest : stream;              (* what is left to read *)
  sv_wrote : list bytes;         (* the texts given to Write *)
  sv_sent : bytes;               (* the bytes that reached the peer *)
  sv_closed : bool }.            (* RemoveSoc and Close were called *)

(** http_server.cpp:392-407, step 3, with [resp_buf] = [] *)
Definition respond (hit : iter_order) (wr : wres) (p : resp) (errmsg : bytes) (w : world U) (s : stream)
    : outcome served :=
  let p1 := if decide (rs_status p = sUNKNOWN) then resp_not_found p else p in
  let '(rc, p2, buf) := resp_build hit p1 [] in
  let '(p3, buf3) :=
    if negb (rc =? kSuccess)%Z then
      let '(_, p3, buf3) := resp_build hit (resp_internal_error p2 errmsg) buf in (p3, buf3)
    else (p2, buf) in
  o ← sock_write wr buf3;
  let '(len, sent) := o in
  Ok (Served w s [buf3] sent (len <? 0)%Z).

(** http_server.cpp:364-407, steps 2 and 3 *)
Definition answer (hit : iter_order) (wr : wres) (ro : router U) (r : req) (errmsg : bytes)
    (w : world U) (s : stream) : outcome served :=
  let path := rt_path (rq_route r) in
  cw ← dispatch ro path (ctx_new r resp_new) w;
  respond hit wr (cx_resp cw.1) errmsg cw.2 s.

(** http_server.cpp:279-411 [HttpServer::HandleRead] *)
Definition handle_read (hit : iter_order) (wr : wres) (ro : router U) (errmsg : bytes)
    (w : world U) (s : stream) : outcome served :=
  u ← read_until [] CRLFCRLF s;
  let '(len, buf, s1) := u in
  if (len <=? 0)%Z then Ok (Served w s1 [] [] true)
  else
  pr ← req_parse req_new buf;
  let '(rc, r) := pr in
  if negb (rc =? kSuccess)%Z then
    let '(_, _, resp_buf) := resp_build hit (resp_bad_request resp_new errmsg) [] in
    o ← sock_write wr resp_buf;
    Ok (Served w s1 [resp_buf] o.2 true)
  else
  let content_size := header_get_content_length (rq_header r) in
  if (0 <? content_size)%Z then
    b ← read_string true 0 (Z.to_nat content_size) s1;
    let '(rc, body, s2) := b in
    if (rc <=? 0)%Z then Ok (Served w s2 [] [] true)
    else answer hit wr ro (Req (rq_method r) (rq_version r) (rq_header r) (rq_route r) body) errmsg w s2
  else answer hit wr ro r errmsg w s1.

(** HandleRead for one read event after the other, as long as the connection is
    open; [wrs] are the outcomes of the writes.  The texts written. *)
Fixpoint serve (hit : iter_order) (wrs : list wres) (ro : router U) (errmsg : bytes)
    (w : world U) (s : stream) : outcome (world U * stream * list bytes * bool) :=
  match wrs with
  | [] => Ok (w, s, [], false)
  | wr :: wrs' =>
      v ← handle_read hit wr ro errmsg w s;
      if sv_closed v then Ok (sv_world v, sv_rest v, sv_wrote v, true)
      else
        t ← serve hit wrs' ro errmsg (sv_world v) (sv_rest v);
        let '(w', s', texts, cl) := t in Ok (w', s', sv_wrote v ++ texts, cl)
  end.
End server.
Arguments served : clear implicits.
