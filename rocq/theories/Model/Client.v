(** Model of src/cppnet/http/client/http_client.cpp (plain connections;
    [err_msg_] is not modelled). *)
From Verif.Model Require Export Server.

Local Open Scope N_scope.

(** What Send leaves behind: return code, the two objects, the rest of the
    stream, the bytes that reached the server. *)
Record sent : Type := Sent {
  st_rc : Z; st_req : req; st_resp : resp; st_rest : stream; st_bytes : bytes }.

(** http_client.cpp:22-66 [HttpClient::Send]; [open] is false when [soc_] is
    nullptr. *)
Definition client_send (open : bool) (hit rit : iter_order) (wr : wres) (q : req) (p : resp) (s : stream)
    : outcome sent :=
  if negb open then Ok (Sent kLogicErr q p s [])
  else
  let '(rc, q', req_str) := req_build hit rit q [] in
  if negb (rc =? kSuccess)%Z then Ok (Sent rc q' p s [])
  else
  o ← sock_write wr req_str;
  let '(len, out) := o in
  if (len <=? 0)%Z then Ok (Sent rc q' p s out)
  else
  u ← read_until [] CRLFCRLF s;
  let '(len, resp_str, s1) := u in
  if (len <=? 0)%Z then Ok (Sent kLogicErr q' p s1 out)
  else
  pr ← resp_parse p resp_str;
  let '(rc, p1) := pr in
  if negb (rc =? kSuccess)%Z then Ok (Sent rc q' p1 s1 out)
  else
  let len := header_get_content_length (rs_header p1) in
  if (0 <? len)%Z then
    b ← read_string true 0 (Z.to_nat len) s1;
    let '(rec_len, body, s2) := b in
    if negb (rec_len =? len)%Z then Ok (Sent kLogicErr q' p1 s2 out)
    else Ok (Sent 0 q' (Resp (rs_status p1) (rs_version p1) (rs_header p1) body) s2 out)
  else Ok (Sent 0 q' (Resp (rs_status p1) (rs_version p1) (rs_header p1) []) s1 out).
