(** Model of HttpServer::HandleRead (src/cppnet/http/server/http_server.cpp) on an
    SSLSocket; see Server.v for a plain socket.  Simplification: like send(2) in
    Server.v, SSL_write has any of the outcomes [wres] (in fact it does not write
    parts). *)
From Verif.Model Require Export Server Ssl.
From Verif.Spec Require Import SslSpec.

Section https.
Context {U : Type}.

(** http_server.cpp:279-411 with [ssl_context_] set and the connection in the map
    (lines 284-286).  What happened, with what the connection will deliver, and
    the connection. *)
Definition handle_read_tls (hit : iter_order) (wr : wres) (ro : router U) (errmsg : bytes)
    (w : world U) (s : tls) : outcome (served U * tls) :=
  u ← ssl_read_until [] CRLFCRLF s;
  let '(len, buf, s1) := u in
  if (len <=? 0)%Z then Ok (Served w (tls_stream s1) [] [] true, s1)
  else
  pr ← req_parse req_new buf;
  let '(rc, r) := pr in
  if negb (rc =? kSuccess)%Z then
    let '(_, _, resp_buf) := resp_build hit (resp_bad_request resp_new errmsg) [] in
    o ← sock_write wr resp_buf;
    Ok (Served w (tls_stream s1) [resp_buf] o.2 true, s1)
  else
  let content_size := header_get_content_length (rq_header r) in
  if (0 <? content_size)%Z then
    b ← ssl_read_string true (Z.to_N content_size) s1;
    let '(rc, body, s2) := b in
    if (rc <=? 0)%Z then Ok (Served w (tls_stream s2) [] [] true, s2)
    else v ← answer hit wr ro (Req (rq_method r) (rq_version r) (rq_header r) (rq_route r) body) errmsg w (tls_stream s2); Ok (v, s2)
  else v ← answer hit wr ro r errmsg w (tls_stream s1); Ok (v, s1).
End https.
