(** What a server should read from a connection and write to it. *)
From Verif.Spec Require Export HttpSpec RouterSpec SocketSpec.

(** ASCII lower case. *)
Definition lower_char (c : ascii) : ascii :=
  let n := nat_of_ascii c in
  if (65 <=? n) && (n <=? 90) then ascii_of_nat (n + 32) else c.
Definition lower (s : bytes) : bytes := map lower_char s.

(** How the length of a body is declared by header fields [kvs]: a field whose
    name satisfies [named] holds it in decimal, or there is no such field and no
    body. *)
Definition declares_length (named : bytes -> Prop) (kvs : list (bytes * bytes)) (n : nat) : Prop :=
  (exists k, named k /\ last_val kvs k = Some (int_to_string (Z.of_nat n)) /\
     forall k' v, (k', v) ∈ kvs -> named k' -> k' = k) \/
  (n = 0 /\ forall k v, (k, v) ∈ kvs -> ~ named k).

(** [text] is the request [r]: request line, header fields, blank line, body. *)
Definition request_text (named : bytes -> Prop) (text : bytes) (r : req) : Prop :=
  exists first hdrs kvs target params,
    message text first hdrs (rq_body r) /\
    request_line first (method_str (rq_method r)) target (version_str (rq_version r)) /\
    rq_method r <> mUNKNOWN /\ rq_version r <> vUNKNOWN /\ target <> [] /\
    url target (rt_path (rq_route r)) params /\
    (forall k, rt_params (rq_route r) !! k = last_val params k) /\
    Forall2 header_field hdrs kvs /\ Forall (fun kv => kv.2 <> []) kvs /\
    (forall k, rq_header r !! k = last_val kvs k) /\
    declares_length named kvs (length (rq_body r)).

(** The field name as the library spells it, and as HTTP wants it. *)
Definition exact_name (k : bytes) : Prop := k = B "Content-Length".
Definition any_case_name (k : bytes) : Prop := lower k = B "content-length".

(** [text] is a response with the given status and body. *)
Definition response_text (text : bytes) (st : status_code) (body : bytes) : Prop :=
  exists first hdrs ver,
    message text first hdrs body /\
    status_line first ver (int_to_string (status_num st)) (status_str st) /\ ver ∈ known_versions /\
    B "Content-Length: " ++ int_to_string (Z.of_nat (length body)) ∈ hdrs.
