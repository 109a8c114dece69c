(** What a TLS connection delivers. *)
From Verif.Model Require Export Ssl.

(** The bytes in the order in which they come, wherever the records are cut. *)
Definition flat (l : list sitem) : list item := l ≫= λ i, match i with Rec b => map Byte b | SGap => [Gap] end.
Definition tls_stream (s : tls) : stream := Stream (map Byte (tl_buf s) ++ flat (tl_items s)) (tl_tail s).
(** A connection that delivers these records. *)
Definition of_records (bs : list bytes) (t : tail) : tls := Tls [] (Rec <$> bs) t.
(** The result of an operation, with the connection seen as a stream. *)
Definition seen {A B : Type} (r : outcome (A * B * tls)) : outcome (A * B * stream) :=
  x ← r; let '(a, b, s) := x in Ok (a, b, tls_stream s).
(** The descriptor becomes readable again without the peer doing anything: the
    kernel (and not only OpenSSL's buffer) has something. *)
Definition kernel_has (s : tls) : Prop := tl_items s ≠ [] ∨ tl_tail s = Eof ∨ tl_tail s = Err.
