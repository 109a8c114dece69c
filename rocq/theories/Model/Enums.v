(** Model of src/cppnet/http/req/method/http_method.cpp,
    src/cppnet/http/version/http_version.cpp and
    src/cppnet/http/resp/status_code/http_status_code.cpp. *)
From Verif.Model Require Export Header.

(** req/method/http_method.hpp:12-23. *)
Inductive http_method : Type :=
| mGET | mPOST | mPUT | mDELETE | mHEAD | mOPTIONS | mPATCH | mTRACE | mCONNECT | mUNKNOWN.
Global Instance http_method_eq_dec : EqDecision http_method.
Proof. solve_decision. Defined.

(** http_method.cpp:5-28 [HttpMethodUtil::ConvertToStr]. *)
Definition method_str (m : http_method) : bytes :=
  match m with
  | mGET => B "GET" | mPOST => B "POST" | mPUT => B "PUT" | mDELETE => B "DELETE"
  | mHEAD => B "HEAD" | mOPTIONS => B "OPTIONS" | mPATCH => B "PATCH"
  | mTRACE => B "TRACE" | mCONNECT => B "CONNECT" | mUNKNOWN => B "UNKNOWN"
  end.

(** http_method.cpp:30-51 [HttpMethodUtil::ConvertToMethod]. *)
Definition to_method (s : bytes) : http_method :=
  if streq s (B "GET") then mGET
  else if streq s (B "POST") then mPOST
  else if streq s (B "PUT") then mPUT
  else if streq s (B "DELETE") then mDELETE
  else if streq s (B "HEAD") then mHEAD
  else if streq s (B "OPTIONS") then mOPTIONS
  else if streq s (B "PATCH") then mPATCH
  else if streq s (B "TRACE") then mTRACE
  else if streq s (B "CONNECT") then mCONNECT
  else mUNKNOWN.

(** version/http_version.hpp:6. *)
Inductive http_version : Type := v1_0 | v1_1 | v2_0 | vUNKNOWN.
Global Instance http_version_eq_dec : EqDecision http_version.
Proof. solve_decision. Defined.

(** http_version.cpp:6-17 [HttpVersionUtil::ConvertToStr]. *)
Definition version_str (v : http_version) : bytes :=
  match v with
  | v1_0 => B "HTTP/1.0" | v1_1 => B "HTTP/1.1" | v2_0 => B "HTTP/2.0" | vUNKNOWN => B "UNKNOWN"
  end.

(** http_version.cpp:19-28 [HttpVersionUtil::ConvertToVersion]. *)
Definition to_version (s : bytes) : http_version :=
  if streq s (B "HTTP/1.0") then v1_0
  else if streq s (B "HTTP/1.1") then v1_1
  else if streq s (B "HTTP/2.0") then v2_0
  else vUNKNOWN.

(** resp/status_code/http_status_code.hpp:6-21. *)
Inductive status_code : Type :=
| sOK | sCREATED | sACCEPTED | sNO_CONTENT | sPARTIAL_CONTENT | sMOVED_PERMANENTLY | sFOUND
| sBAD_REQUEST | sUNAUTHORIZED | sFORBIDDEN | sNOT_FOUND | sMETHOD_NOT_ALLOWED
| sINTERNAL_SERVER_ERROR | sUNKNOWN.
Global Instance status_code_eq_dec : EqDecision status_code.
Proof. solve_decision. Defined.

(** The numeric values of the enumerators (http_status_code.hpp:7-20),
    i.e. [(int)status_code]. *)
Definition status_num (c : status_code) : Z :=
  match c with
  | sOK => 200 | sCREATED => 201 | sACCEPTED => 202 | sNO_CONTENT => 204
  | sPARTIAL_CONTENT => 206 | sMOVED_PERMANENTLY => 301 | sFOUND => 302
  | sBAD_REQUEST => 400 | sUNAUTHORIZED => 401 | sFORBIDDEN => 403 | sNOT_FOUND => 404
  | sMETHOD_NOT_ALLOWED => 405 | sINTERNAL_SERVER_ERROR => 500 | sUNKNOWN => -1
  end.

(** http_status_code.cpp:5-36 [HttpStatusCodeUtil::ConvertToStr]. *)
Definition status_str (c : status_code) : bytes :=
  match c with
  | sOK => B "OK" | sCREATED => B "Created" | sACCEPTED => B "Accepted"
  | sNO_CONTENT => B "No Content" | sPARTIAL_CONTENT => B "Partial Content"
  | sBAD_REQUEST => B "Bad Request" | sUNAUTHORIZED => B "Unauthorized"
  | sFORBIDDEN => B "Forbidden" | sNOT_FOUND => B "Not Found"
  | sMETHOD_NOT_ALLOWED => B "Method Not Allowed"
  | sINTERNAL_SERVER_ERROR => B "Internal Server Error"
  | sMOVED_PERMANENTLY => B "Moved Permanently" | sFOUND => B "Found" | sUNKNOWN => B "Unknown"
  end.

(** http_status_code.cpp:38-68 [HttpStatusCodeUtil::ConvertToCode(std::string)]. *)
Definition status_of_str (s : bytes) : status_code :=
  if streq s (B "OK") then sOK
  else if streq s (B "Created") then sCREATED
  else if streq s (B "Accepted") then sACCEPTED
  else if streq s (B "No Content") then sNO_CONTENT
  else if streq s (B "Partial Content") then sPARTIAL_CONTENT
  else if streq s (B "Bad Request") then sBAD_REQUEST
  else if streq s (B "Unauthorized") then sUNAUTHORIZED
  else if streq s (B "Forbidden") then sFORBIDDEN
  else if streq s (B "Not Found") then sNOT_FOUND
  else if streq s (B "Method Not Allowed") then sMETHOD_NOT_ALLOWED
  else if streq s (B "Internal Server Error") then sINTERNAL_SERVER_ERROR
  else if streq s (B "Moved Permanently") then sMOVED_PERMANENTLY
  else if streq s (B "Found") then sFOUND
  else sUNKNOWN.

(** http_status_code.cpp:70-101 [HttpStatusCodeUtil::ConvertToCode(int)]. *)
Definition status_of_num (n : Z) : status_code :=
  (if n =? 200 then sOK
   else if n =? 201 then sCREATED
   else if n =? 202 then sACCEPTED
   else if n =? 204 then sNO_CONTENT
   else if n =? 206 then sPARTIAL_CONTENT
   else if n =? 301 then sMOVED_PERMANENTLY
   else if n =? 302 then sFOUND
   else if n =? 400 then sBAD_REQUEST
   else if n =? 401 then sUNAUTHORIZED
   else if n =? 403 then sFORBIDDEN
   else if n =? 404 then sNOT_FOUND
   else if n =? 405 then sMETHOD_NOT_ALLOWED
   else if n =? 500 then sINTERNAL_SERVER_ERROR
   else sUNKNOWN)%Z.
