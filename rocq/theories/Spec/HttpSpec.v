(** Independent descriptions of URL and header texts. *)
From Verif.Spec Require Export StringSpec.

(** The value of the last pair with key [k]. *)
Fixpoint last_val {V} (kvs : list (bytes * V)) (k : bytes) : option V :=
  match kvs with
  | [] => None
  | (k', v) :: kvs' =>
      match last_val kvs' k with
      | Some w => Some w
      | None => if decide (k' = k) then Some v else None
      end
  end.

(** ** Query strings *)

(** One '&'-separated piece of a query and the parameter it stands for. *)
Inductive query_piece : bytes -> bytes * bytes -> Prop :=
| qp_bare k : "="%char ∉ k -> query_piece k (k, [])
| qp_pair k w v : "="%char ∉ k -> form_decodes w v ->
    query_piece (k ++ "="%char :: w) (k, v).

(** [url u path params]: [u] is path[?piece&piece...]. *)
Inductive url : bytes -> bytes -> list (bytes * bytes) -> Prop :=
| url_plain_path path : "?"%char ∉ path -> url path path []
| url_query path pcs params :
    "?"%char ∉ path -> pcs <> [] -> Forall (fun p => "&"%char ∉ p) pcs ->
    Forall2 query_piece pcs params ->
    url (path ++ "?"%char :: join (B "&") pcs) path params.

(** ** Header blocks *)

(** A header line [name: value] with any number of spaces after the colon. *)
Definition header_field (line : bytes) (kv : bytes * bytes) : Prop :=
  exists n, ":"%char ∉ kv.1 /\ head kv.2 <> Some SP /\
    line = kv.1 ++ ":"%char :: replicate n SP ++ kv.2.

(** One line: no CRLF inside. *)
Definition one_line (s : bytes) : Prop := ~ contains CRLF s.

(** The text of a header block: each field [name: value], ended by CRLF. *)
Definition field_lines (kvs : list (bytes * bytes)) : list bytes :=
  map (fun kv => kv.1 ++ B ": " ++ kv.2) kvs.

(** ** Cookies *)

(** The value of the first pair with key [k]. *)
Fixpoint first_val (kvs : list (bytes * bytes)) (k : bytes) : option bytes :=
  match kvs with
  | [] => None
  | (k', v) :: kvs' => if decide (k' = k) then Some v else first_val kvs' k
  end.

(** One ';'-separated piece of a Cookie header: name=value after some spaces. *)
Definition cookie_piece (p : bytes) (kv : bytes * bytes) : Prop :=
  exists n, p = replicate n SP ++ kv.1 ++ "="%char :: kv.2 /\
    head kv.1 <> Some SP /\ "="%char ∉ kv.1 /\ ";"%char ∉ kv.1 /\ ";"%char ∉ kv.2.

(** RFC 6265, 5.2: the cookie a browser stores for one Set-Cookie header: the
    text before the first ';' is name=value; everything else is attributes. *)
Definition browser_cookie (header_value : bytes) (kv : bytes * bytes) : Prop :=
  "="%char ∉ kv.1 /\ ";"%char ∉ kv.1 /\ ";"%char ∉ kv.2 /\
  exists attrs, header_value = kv.1 ++ "="%char :: kv.2 ++ attrs /\
    (attrs = [] \/ head attrs = Some ";"%char).

(** ** Messages *)

(** What is stored for a line with a colon: the field; a blank value is (wrongly)
    stored as the colon and the spaces. *)
Inductive stored_field : bytes -> bytes * bytes -> Prop :=
| sf_value line kv : header_field line kv -> kv.2 <> [] -> stored_field line kv
| sf_blank n k : ":"%char ∉ n ->
    stored_field (n ++ ":"%char :: replicate k SP) (n, ":"%char :: replicate k SP).

(** The fields of the lines before the first line without a colon. *)
Inductive leading_fields : list bytes -> list (bytes * bytes) -> Prop :=
| lf_nil : leading_fields [] []
| lf_bad l ls : ":"%char ∉ l -> leading_fields (l :: ls) []
| lf_good l ls kv kvs :
    stored_field l kv -> leading_fields ls kvs -> leading_fields (l :: ls) (kv :: kvs).

(** [s] is a message: a first line, header lines, a blank line, a body. *)
Definition crlf_lines (ls : list bytes) : bytes := concat (map (fun l => l ++ CRLF) ls).
Definition message (s first : bytes) (hdrs : list bytes) (body : bytes) : Prop :=
  s = first ++ CRLF ++ crlf_lines hdrs ++ CRLF ++ body /\
  one_line first /\ Forall (fun l => one_line l /\ l <> []) hdrs.

(** The first line of a request: three words separated by single spaces. *)
Definition request_line (first meth target ver : bytes) : Prop :=
  first = meth ++ SP :: target ++ SP :: ver /\ SP ∉ meth /\ SP ∉ target /\ SP ∉ ver.

Definition known_methods : list bytes :=
  map B ["GET"; "POST"; "PUT"; "DELETE"; "HEAD"; "OPTIONS"; "PATCH"; "TRACE"; "CONNECT"]%string.
Definition known_versions : list bytes := map B ["HTTP/1.0"; "HTTP/1.1"; "HTTP/2.0"]%string.

(** The first line of a response: version, code and the rest of the line. *)
Definition status_line (first ver code reason : bytes) : Prop :=
  first = ver ++ SP :: code ++ SP :: reason /\ SP ∉ ver /\ SP ∉ code.
