(** Model of src/cppnet/http/req/http_req.cpp.
    Simplification: [err_msg_] is not modelled. *)
From Verif.Model Require Export Route Enums.

Local Open Scope N_scope.

(** http_req.hpp:50-56, the members and their initial values. *)
Record req : Type := Req {
  rq_method : http_method; rq_version : http_version; rq_header : header;
  rq_route : route; rq_body : bytes }.
Definition req_new : req := Req mUNKNOWN v1_1 ∅ route_new [].

(** http_req.cpp:9-60 [HttpReq::Parse]: the return code and the object
    afterwards (members are assigned one after the other, also when a later
    step fails).  Line 28 tests [!header_.Parse(...)], i.e. it gives up when
    the header parser reports success, and the second argument of substr is the
    position of the blank line, not a length; both are modelled as written. *)
Definition req_parse (r : req) (s : bytes) : outcome (Z * req) :=
  match s with
  | [] => Ok (kLogicErr, r)
  | _ =>
    let header_end_pos := str_find s CRLFCRLF 0 in
    if header_end_pos =? npos then Ok (kLogicErr, r)
    else
    let line_end_pos := str_find s CRLF 0 in
    if line_end_pos =? npos then Ok (kLogicErr, r)
    else
    block ← substr s (szadd line_end_pos 2) header_end_pos;
    hp ← header_parse (rq_header r) block;
    let '(hrc, h) := hp in
    let r1 := Req (rq_method r) (rq_version r) h (rq_route r) (rq_body r) in
    if (hrc =? 0)%Z then Ok (kLogicErr, r1)
    else
    body ← substr_from s (szadd (szadd header_end_pos 2) 2);
    let r2 := Req (rq_method r) (rq_version r) h (rq_route r) body in
    first_line ← substr s 0 line_end_pos;
    single ← str_split first_line (B " ") [] false;
    match single with
    | [m; target; v] =>
        let meth := to_method m in
        let r3 := Req meth (rq_version r) h (rq_route r) body in
        if decide (meth = mUNKNOWN) then Ok (kLogicErr, r3)
        else
        rp ← route_parse (rq_route r) target;
        let '(rrc, rt) := rp in
        let r4 := Req meth (rq_version r) h rt body in
        if negb (rrc =? kSuccess)%Z then Ok (kLogicErr, r4)
        else
        let ver := to_version v in
        let r5 := Req meth ver h rt body in
        if decide (ver = vUNKNOWN) then Ok (kLogicErr, r5) else Ok (kSuccess, r5)
    | _ => Ok (kLogicErr, r2)
    end
  end.

(** http_req.cpp:62-77 [HttpReq::Build]: the return code, the object afterwards
    and the new value of the output string ([out] is its old value).  [hit] and
    [rit] are the iteration orders of the header and parameter maps.  Line 70
    passes [body_.size()] to an int parameter. *)
Definition req_build (hit rit : iter_order) (r : req) (out : bytes) : Z * req * bytes :=
  if decide (rq_method r = mUNKNOWN) then (kLogicErr, r, out)
  else if decide (rq_version r = vUNKNOWN) then (kLogicErr, r, out)
  else
    let h1 := match header_get (rq_header r) (B "Host") with
              | [] => header_add (rq_header r) (B "Host") (B "localhost")
              | _ => rq_header r
              end in
    let h2 := header_set_content_length h1 (to_int32 (Z.of_N (size (rq_body r)))) in
    let r' := Req (rq_method r) (rq_version r) h2 (rq_route r) (rq_body r) in
    (kSuccess, r',
     method_str (rq_method r) ++ B " " ++ route_to_string rit (rq_route r) ++ B " "
       ++ version_str (rq_version r) ++ CRLF ++ header_to_string hit h2 ++ rq_body r).

(** http_req.cpp:79-86 [HttpReq::Clear]. *)
Definition req_clear (r : req) : req := Req mUNKNOWN vUNKNOWN ∅ route_new [].

(** http_req.cpp:96-98, 107-109, 121-123: adding the extra headers, and
    93-95: adding the parameters; the argument is the map in iteration order. *)
Definition add_headers (h : header) (l : list (bytes * bytes)) : header :=
  foldl (fun h kv => header_add h kv.1 kv.2) h l.
Definition add_params (rt : route) (l : list (bytes * bytes)) : route :=
  foldl (fun rt kv => route_add_param rt kv.1 kv.2) rt l.

(** http_req.cpp:88-99 [HttpReq::GET]. *)
Definition req_GET (it : iter_order) (r : req) (url : bytes) (params extra : smap) : req :=
  Req mGET v1_1 (add_headers (rq_header r) (it extra))
      (add_params (route_set_path (rq_route r) url) (it params)) (rq_body r).

(** http_req.cpp:101-110 [HttpReq::POST] with a body. *)
Definition req_POST (it : iter_order) (r : req) (url body : bytes) (extra : smap) : req :=
  Req mPOST v1_1 (add_headers (rq_header r) (it extra)) (route_set_path (rq_route r) url) body.

(** http_req.cpp:112-124 [HttpReq::POST] with form parameters.  Line 120:
    [body_.size() - 1] wraps for an empty body, substr then keeps it all. *)
Definition req_POST_form (it : iter_order) (r : req) (url : bytes) (params extra : smap) : outcome req :=
  let body := rq_body r ++ params_text (it params) in
  body' ← substr body 0 (szsub (size body) 1);
  Ok (Req mPOST v1_1 (add_headers (rq_header r) (it extra)) (route_set_path (rq_route r) url) body').
