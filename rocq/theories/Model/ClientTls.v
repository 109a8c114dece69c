(** Model of HttpClient::Send (src/cppnet/http/client/http_client.cpp) after InitSSL:
    [soc_] is an SSLSocket, and the same lines read and write through OpenSSL; see
    Client.v for a plain connection.  [err_msg_] is not modelled. *)
From Verif.Model Require Export Client Ssl.
From Verif.Spec Require Import SslSpec.

(** SSL_write writes everything, fails with [rc] <= 0, or the process gets SIGPIPE. *)
Inductive swres : Type := SwAll | SwFail (rc : Z) | SwSig.
Definition ssl_sock_write (wr : swres) (buf : bytes) : outcome (Z * bytes) :=
  match wr with
  | SwAll => Ok (ssl_iowrite None buf)
  | SwFail rc => Ok (ssl_iowrite (Some rc) buf)
  | SwSig => Terminate
  end.

(** http_client.cpp:22-66 [HttpClient::Send]; what Send leaves behind, with what the
    connection will deliver, and the connection. *)
Definition client_send_tls (hit rit : iter_order) (wr : swres) (q : req) (p : resp) (s : tls)
    : outcome (sent * tls) :=
  let '(rc, q', req_str) := req_build hit rit q [] in
  if negb (rc =? kSuccess)%Z then Ok (Sent rc q' p (tls_stream s) [], s)
  else
  o ← ssl_sock_write wr req_str;
  let '(len, out) := o in
  if (len <=? 0)%Z then Ok (Sent rc q' p (tls_stream s) out, s)
  else
  u ← ssl_read_until [] CRLFCRLF s;
  let '(len, resp_str, s1) := u in
  if (len <=? 0)%Z then Ok (Sent kLogicErr q' p (tls_stream s1) out, s1)
  else
  pr ← resp_parse p resp_str;
  let '(rc, p1) := pr in
  if negb (rc =? kSuccess)%Z then Ok (Sent rc q' p1 (tls_stream s1) out, s1)
  else
  let len := header_get_content_length (rs_header p1) in
  if (0 <? len)%Z then
    b ← ssl_read_string true (Z.to_N len) s1;
    let '(rec_len, body, s2) := b in
    if negb (rec_len =? len)%Z then Ok (Sent kLogicErr q' p1 (tls_stream s2) out, s2)
    else Ok (Sent 0 q' (Resp (rs_status p1) (rs_version p1) (rs_header p1) body) (tls_stream s2) out, s2)
  else Ok (Sent 0 q' (Resp (rs_status p1) (rs_version p1) (rs_header p1) []) (tls_stream s1) out, s1).
