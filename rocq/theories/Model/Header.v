(** Model of src/cppnet/http/header/http_header.cpp.
    Simplification: [err_msg_] is not modelled. *)
From Verif.Model Require Export Const StringUtil.

Local Open Scope N_scope.

(** http_header.hpp:110: the member [headers_] is the whole state of a header
    object. *)
Notation header := (gmap bytes bytes) (only parsing).

(** http_header.cpp:32-34 [HttpHeader::Add]. *)
Definition header_add (h : header) (k v : bytes) : header := <[k := v]> h.

(** http_header.cpp:19-27: one line.  [None]: the line has no ':' (line 20-23).
    The position of line 26 is computed in size_t, so a value of spaces only
    (find_first_not_of = npos) wraps around to [pos]. *)
Definition header_line (it : bytes) : outcome (option (bytes * bytes)) :=
  let pos := str_find it (B ":") 0 in
  if pos =? npos then Ok None
  else
    key ← substr it 0 pos;
    after ← substr_from it (szadd pos 1);
    value ← substr_from it (szadd (szadd pos 1) (find_first_not_of after SP));
    Ok (Some (key, value)).

(** http_header.cpp:18-29: the loop over the lines. *)
Fixpoint header_lines (h : header) (l : list bytes) : outcome (Z * header) :=
  match l with
  | [] => Ok (kSuccess, h)
  | it :: l' =>
      o ← header_line it;
      match o with
      | None => Ok (kLogicErr, h)
      | Some (k, v) => header_lines (header_add h k v) l'
      end
  end.

(** http_header.cpp:8-30 [HttpHeader::Parse]. *)
Definition header_parse (h : header) (s : bytes) : outcome (Z * header) :=
  match s with
  | [] => Ok (kLogicErr, h)
  | _ => single ← str_split s CRLF [] false; header_lines h single
  end.

(** http_header.cpp:36-42 [HttpHeader::Get]. *)
Definition header_get (h : header) (k : bytes) : bytes := default [] (h !! k).

(** http_header.cpp:46-48: the lines, without the final blank line. *)
Definition header_text (l : list (bytes * bytes)) : bytes :=
  flat_map (fun kv => kv.1 ++ B ": " ++ kv.2 ++ CRLF) l.

(** http_header.cpp:44-51 [HttpHeader::ToString]; [it] is the iteration order. *)
Definition header_to_string (it : iter_order) (h : header) : bytes :=
  header_text (it h) ++ CRLF.

(** http_header.cpp:53-55 [HttpHeader::operator[]]: inserts an empty value when
    the key is missing.  Reading: the value and the new map; writing through the
    returned reference: [header_index_set]. *)
Definition header_index (h : header) (k : bytes) : bytes * header :=
  match h !! k with
  | Some v => (v, h)
  | None => ([], <[k := []]> h)
  end.
Definition header_index_set (h : header) (k v : bytes) : header := <[k := v]> (header_index h k).2.

(** http_header.cpp:57 [HttpHeader::Clear]. *)
Definition header_clear (h : header) : header := ∅.

(** http_header.hpp:13-26 [enum class ContentType]. *)
Inductive content_type : Type :=
| kTextPlain | kTextHtml | kTextCss | kTextJavascript | kApplicationJson
| kApplicationOctetStream | kImagePng | kImageJpeg | kImageGif | kImageWebp
| kCustom | kUnknown.
Global Instance content_type_eq_dec : EqDecision content_type.
Proof. solve_decision. Defined.

(** std::string operator== *)
Definition streq (a b : bytes) : bool := bool_decide (a = b).

(** http_header.cpp:59-83 [HttpHeader::ConvertToContentType]. *)
Definition convert_to_content_type (s : bytes) : content_type :=
  if streq s (B "text/html") then kTextHtml
  else if streq s (B "text/plain") then kTextPlain
  else if streq s (B "text/css") then kTextCss
  else if streq s (B "text/javascript") then kTextJavascript
  else if streq s (B "application/octet-stream") then kApplicationOctetStream
  else if streq s (B "application/json") then kApplicationJson
  else if streq s (B "image/png") then kImagePng
  else if streq s (B "image/jpeg") then kImageJpeg
  else if streq s (B "image/gif") then kImageGif
  else if streq s (B "image/webp") then kImageWebp
  else kUnknown.

(** http_header.cpp:85-110 [HttpHeader::ConvertFileType]; [custom] is the static
    map [custom_content_type_] (line 157). *)
Definition convert_file_type (custom : smap) (ft : bytes) : content_type :=
  if streq ft (B "html") || streq ft (B "htm") then kTextHtml
  else if streq ft (B "txt") then kTextPlain
  else if streq ft (B "css") || streq ft (B "less") then kTextCss
  else if streq ft (B "js") || streq ft (B "mjs") then kTextJavascript
  else if streq ft (B "json") then kApplicationJson
  else if streq ft (B "png") then kImagePng
  else if streq ft (B "jpg") || streq ft (B "jpeg") then kImageJpeg
  else if streq ft (B "gif") then kImageGif
  else if streq ft (B "webp") then kImageWebp
  else match custom !! ft with Some _ => kCustom | None => kApplicationOctetStream end.

(** http_header.cpp:112-141 [HttpHeader::ConvertToStr]: the string and the new
    value of the static map (operator[] on line 137 inserts missing keys). *)
Definition convert_to_str (custom : smap) (ct : content_type) (ft : bytes) : bytes * smap :=
  match ct with
  | kTextPlain => (B "text/plain", custom)
  | kTextHtml => (B "text/html", custom)
  | kTextCss => (B "text/css", custom)
  | kTextJavascript => (B "text/javascript", custom)
  | kApplicationJson => (B "application/json", custom)
  | kApplicationOctetStream => (B "application/octet-stream", custom)
  | kImagePng => (B "image/png", custom)
  | kImageJpeg => (B "image/jpeg", custom)
  | kImageGif => (B "image/gif", custom)
  | kImageWebp => (B "image/webp", custom)
  | kCustom => match custom !! ft with
               | Some v => (v, custom)
               | None => ([], <[ft := []]> custom)
               end
  | kUnknown => (B "unknown", custom)
  end.

(** http_header.cpp:143-150 [HttpHeader::GetContentType]. *)
Definition header_get_content_type (h : header) : content_type :=
  match h !! B "Content-Type" with
  | None => kUnknown
  | Some v => convert_to_content_type v
  end.

(** http_header.cpp:152-155 [HttpHeader::SetCustomContentType]. *)
Definition set_custom_content_type (custom : smap) (ft ct : bytes) : smap := <[ft := ct]> custom.

(** http_header.cpp:159-171 [HttpHeader::GetContentLength]. *)
Definition header_get_content_length (h : header) : Z :=
  match h !! B "Content-Length" with
  | None => -1
  | Some v => match stoi v with Ok n => n | _ => -1 end
  end%Z.

(** http_header.cpp:173-180 [HttpHeader::GetHost]. *)
Definition header_get_host (h : header) : bytes :=
  match h !! B "Host" with None => [] | Some v => v end.

(** http_header.cpp:182-184 [HttpHeader::SetContentLength]; the argument is an
    int. *)
Definition header_set_content_length (h : header) (n : Z) : header :=
  <[B "Content-Length" := int_to_string n]> h.

(** http_header.cpp:186-188 [HttpHeader::SetContentType(ContentType)]: the new
    headers and the new static map. *)
Definition header_set_content_type (custom : smap) (h : header) (ct : content_type) : header * smap :=
  let '(s, custom') := convert_to_str custom ct [] in
  (<[B "Content-Type" := s]> h, custom').

(** http_header.cpp:190-192 [HttpHeader::SetContentType(std::string)]. *)
Definition header_set_content_type_str (h : header) (ct : bytes) : header :=
  <[B "Content-Type" := ct]> h.

(** http_header.cpp:194 [HttpHeader::SetHost]. *)
Definition header_set_host (h : header) (host : bytes) : header := <[B "Host" := host]> h.

(** http_header.cpp:196-202 [HttpHeader::SetLongConnection]. *)
Definition header_set_long_connection (h : header) (long : bool) : header :=
  <[B "Connection" := if long then B "keep-alive" else B "close"]> h.

(** http_header.hpp:97-105 [struct Cookie]. *)
Record cookie : Type := Cookie {
  ck_key : bytes; ck_value : bytes; ck_expires : bytes; ck_path : bytes;
  ck_domain : bytes; ck_secure : bool; ck_http_only : bool }.

(** http_header.cpp:205-220. *)
Definition cookie_str (c : cookie) : bytes :=
  ck_key c ++ B "=" ++ ck_value c
  ++ (match ck_expires c with [] => [] | e => B "; expires=" ++ e end)
  ++ (match ck_path c with [] => [] | e => B "; path=" ++ e end)
  ++ (match ck_domain c with [] => [] | e => B "; domain=" ++ e end)
  ++ (if ck_secure c then B "; secure" else [])
  ++ (if ck_http_only c then B "; HttpOnly" else []).

(** http_header.cpp:204-226 [HttpHeader::SetCookie]. *)
Definition header_set_cookie (h : header) (c : cookie) : header :=
  match h !! B "Set-Cookie" with
  | None => <[B "Set-Cookie" := cookie_str c]> h
  | Some v => <[B "Set-Cookie" := v ++ B "; " ++ cookie_str c]> h
  end.

(** http_header.cpp:235-247: the loop of [GetCookieVal]. *)
Fixpoint cookie_loop (key : bytes) (l : list bytes) : outcome bytes :=
  match l with
  | [] => Ok []
  | c :: l' =>
      let pos := str_find c (B "=") 0 in
      if pos =? npos then cookie_loop key l'
      else
        let off := find_first_not_of c SP in
        k ← substr c off (szsub pos off);
        v ← substr_from c (szadd pos 1);
        if streq k key then Ok v else cookie_loop key l'
  end.

(** http_header.cpp:228-248 [HttpHeader::GetCookieVal]. *)
Definition header_get_cookie_val (h : header) (key : bytes) : outcome bytes :=
  match h !! B "Cookie" with
  | None => Ok []
  | Some v => cookies ← str_split v (B ";") [] false; cookie_loop key cookies
  end.

(** The mutators of a header object, for histories of calls. *)
Inductive header_op : Type :=
| HAdd (k v : bytes)
| HIndex (k : bytes)             (* h[k]; *)
| HIndexSet (k v : bytes)        (* h[k] = v; *)
| HClear
| HSetContentLength (n : Z)
| HSetContentTypeStr (s : bytes)
| HSetHost (s : bytes)
| HSetLongConnection (b : bool)
| HSetCookie (c : cookie).

(** One call of the mutators above. *)
Definition header_step (h : header) (o : header_op) : header :=
  match o with
  | HAdd k v => header_add h k v
  | HIndex k => (header_index h k).2
  | HIndexSet k v => header_index_set h k v
  | HClear => header_clear h
  | HSetContentLength n => header_set_content_length h n
  | HSetContentTypeStr s => header_set_content_type_str h s
  | HSetHost s => header_set_host h s
  | HSetLongConnection b => header_set_long_connection h b
  | HSetCookie c => header_set_cookie h c
  end.
Definition header_run (h : header) (ops : list header_op) : header := foldl header_step h ops.
