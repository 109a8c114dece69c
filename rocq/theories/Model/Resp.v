(** Model of src/cppnet/http/resp/http_resp.cpp.
    Simplification: [err_msg_] is not modelled. *)
From Verif.Model Require Export Req.

Local Open Scope N_scope.

(** http_resp.hpp:67-72, the members and their initial values. *)
Record resp : Type := Resp {
  rs_status : status_code; rs_version : http_version; rs_header : header; rs_body : bytes }.
Definition resp_new : resp := Resp sUNKNOWN v1_1 ∅ [].

(** http_resp.cpp:9-64 [HttpResp::Parse]. *)
Definition resp_parse (r : resp) (s : bytes) : outcome (Z * resp) :=
  match s with
  | [] => Ok (kLogicErr, r)
  | _ =>
    let pos := str_find s CRLF 0 in
    let header_end_pos := str_find s CRLFCRLF 0 in
    if pos =? npos then Ok (kLogicErr, r)
    else
    first_line ← substr s 0 pos;
    hdr ← substr s (szadd pos 2) (szsub (szsub header_end_pos pos) 2);
    body ← substr_from s (szadd header_end_pos 4);
    let r1 := Resp (rs_status r) (rs_version r) (rs_header r) body in
    let sp1 := str_find first_line (B " ") 0 in
    if sp1 =? npos then Ok (kLogicErr, r1)
    else
    let sp2 := str_find first_line (B " ") (szadd sp1 1) in
    if sp2 =? npos then Ok (kLogicErr, r1)
    else
    ver ← substr first_line 0 sp1;
    code ← substr first_line (szadd sp1 1) (szsub (szsub sp2 sp1) 1);
    _reason ← substr_from first_line (szadd sp2 1);
    match stoi code with
    | Ok n =>
        let st := status_of_num n in
        let v := to_version ver in
        hp ← header_parse (rs_header r) hdr;
        let '(hrc, h) := hp in
        Ok (if (hrc =? kSuccess)%Z then kSuccess else hrc, Resp st v h body)
    | _ => Ok (kLogicErr, r1)
    end
  end.

(** http_resp.cpp:66-90 [HttpResp::Build]. *)
Definition resp_build (hit : iter_order) (r : resp) (out : bytes) : Z * resp * bytes :=
  if decide (rs_status r = sUNKNOWN) then (kLogicErr, r, out)
  else
    let h := header_set_content_length (rs_header r) (to_int32 (Z.of_N (size (rs_body r)))) in
    (kSuccess, Resp (rs_status r) (rs_version r) h (rs_body r),
     version_str (rs_version r) ++ B " " ++ int_to_string (status_num (rs_status r)) ++ B " "
       ++ status_str (rs_status r) ++ CRLF ++ header_to_string hit h ++ rs_body r).

(** http_resp.cpp:92-96 [HttpResp::Clear]. *)
Definition resp_clear (r : resp) : resp := Resp sUNKNOWN (rs_version r) ∅ [].

(** [header_.SetContentType(t)] for the built-in types used below; these do not
    touch the static map of custom types. *)
Definition resp_type (h : header) (ct : content_type) : header := (header_set_content_type ∅ h ct).1.

(** http_resp.cpp:98-102 [HttpResp::NotFound]. *)
Definition resp_not_found (r : resp) : resp :=
  Resp sNOT_FOUND (rs_version r) (resp_type (rs_header r) kTextHtml)
       (B "<html><body><h1>404 Not Found</h1></body></html>").

(** http_resp.cpp:104-114 [HttpResp::Redirect]. *)
Definition resp_redirect (r : resp) (location : bytes) (forever : bool) : resp :=
  Resp (if forever then sMOVED_PERMANENTLY else sFOUND) (rs_version r)
       (header_add (resp_type (rs_header r) kTextHtml) (B "Location") location)
       (if forever then B "<html><body><h1>301 Moved Permanently</h1></body></html>"
        else B "<html><body><h1>302 Found</h1></body></html>").

(** http_resp.cpp:116-120 [HttpResp::SuccessWithBinary]. *)
Definition resp_success_binary (r : resp) (body : bytes) : resp :=
  Resp sOK (rs_version r) (resp_type (rs_header r) kApplicationOctetStream) body.

(** http_resp.cpp:122-126 [HttpResp::SuccessWithJson]. *)
Definition resp_success_json (r : resp) (body : bytes) : resp :=
  Resp sOK (rs_version r) (resp_type (rs_header r) kApplicationJson) body.

(** http_resp.cpp:128-135 [HttpResp::Success(content_type, body)]; the static
    map of custom types is threaded through (kCustom inserts into it). *)
Definition resp_success (custom : smap) (r : resp) (ct : content_type) (body : bytes) : resp * smap :=
  let '(h, custom') := header_set_content_type custom (rs_header r) ct in
  (Resp sOK (rs_version r) h (match body with [] => rs_body r | _ => body end), custom').

(** http_resp.hpp:53 [HttpResp::Success()]. *)
Definition resp_success0 (r : resp) : resp := Resp sOK (rs_version r) (rs_header r) (rs_body r).

(** http_resp.cpp:137-141 [HttpResp::BadRequest]. *)
Definition resp_bad_request (r : resp) (body : bytes) : resp :=
  Resp sBAD_REQUEST (rs_version r) (resp_type (rs_header r) kTextHtml) body.

(** http_resp.cpp:143-147 [HttpResp::InternalServerError]. *)
Definition resp_internal_error (r : resp) (body : bytes) : resp :=
  Resp sINTERNAL_SERVER_ERROR (rs_version r) (resp_type (rs_header r) kTextHtml) body.

(** http_resp.cpp:149-153 [HttpResp::Json]. *)
Definition resp_json (r : resp) (st : status_code) (body : bytes) : resp :=
  Resp st (rs_version r) (resp_type (rs_header r) kApplicationJson) body.

(** http_resp.cpp:155-159 [HttpResp::Text]. *)
Definition resp_text (r : resp) (st : status_code) (body : bytes) : resp :=
  Resp st (rs_version r) (resp_type (rs_header r) kTextPlain) body.
