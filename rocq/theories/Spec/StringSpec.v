(** Independent specifications for the string utilities. *)
From Verif.Lib Require Export CxxStringFacts.

(** ** Glob patterns: '*' stands for any byte string, '?' for any one byte. *)
Inductive glob : bytes -> bytes -> Prop :=
| glob_nil : glob [] []
| glob_star p block s : glob p s -> glob ("*"%char :: p) (block ++ s)
| glob_any p c s : glob p s -> glob ("?"%char :: p) (c :: s)
| glob_lit p c s : c <> "*"%char -> glob p s -> glob (c :: p) (c :: s).

(** ** application/x-www-form-urlencoded decoding, as a relation.
    It only relates inputs in which every '%' is followed by two hex digits. *)
Definition hex_digits : list (ascii * N) :=
  zip (B "0123456789abcdefABCDEF")
      [0;1;2;3;4;5;6;7;8;9;10;11;12;13;14;15;10;11;12;13;14;15]%N.

Inductive form_decodes : bytes -> bytes -> Prop :=
| fd_nil : form_decodes [] []
| fd_plus s t : form_decodes s t -> form_decodes ("+"%char :: s) (" "%char :: t)
| fd_hex h l hv lv s t :
    (h, hv) ∈ hex_digits -> (l, lv) ∈ hex_digits -> form_decodes s t ->
    form_decodes ("%"%char :: h :: l :: s) (ascii_of_N (16 * hv + lv) :: t)
| fd_other c s t :
    c <> "+"%char -> c <> "%"%char -> form_decodes s t -> form_decodes (c :: s) (c :: t).

(** ** URL-safe text: what may appear in a request target. *)
Definition unreserved : bytes :=
  B "ABCDEFGHIJKLMNOPQRSTUVWXYZabcdefghijklmnopqrstuvwxyz0123456789-_.~/=?&+".
Definition upper_hex : bytes := B "0123456789ABCDEF".

Inductive url_safe : bytes -> Prop :=
| us_nil : url_safe []
| us_char c s : c ∈ unreserved -> url_safe s -> url_safe (c :: s)
| us_escape h l s :
    h ∈ upper_hex -> l ∈ upper_hex -> url_safe s -> url_safe ("%"%char :: h :: l :: s).

(** ** Splitting. *)
Fixpoint join (d : bytes) (l : list bytes) : bytes :=
  match l with
  | [] => []
  | [x] => x
  | x :: l' => x ++ d ++ join d l'
  end.

(** [pieces d s l]: [l] is the way to cut [s] at the successive (leftmost,
    non-overlapping) occurrences of [d]. *)
Inductive pieces (d : bytes) : bytes -> list bytes -> Prop :=
| pieces_last s : ~ contains d s -> pieces d s [s]
| pieces_cut a rest l :
    (forall j, j < length a -> ~ d `prefix_of` drop j (a ++ d ++ rest)) ->
    pieces d rest l -> pieces d (a ++ d ++ rest) (a :: l).
