(** What file names and line counts mean. *)
From Verif.Spec Require Export StringSpec.

(** [c] is the last component of the path [p]. *)
Definition last_component (p c : bytes) : Prop :=
  "/"%char ∉ c /\ (p = c \/ exists dir, p = dir ++ "/"%char :: c).

(** [x] is the extension of the file name [c]: what follows the last dot. *)
Definition extension (c x : bytes) : Prop :=
  (exists base, c = base ++ "."%char :: x /\ "."%char ∉ x) \/ ("."%char ∉ c /\ x = []).

(** The lines of a text: LF ends a line; a last line without LF counts. *)
Inductive text_lines : bytes -> list bytes -> Prop :=
| tl_nil : text_lines [] []
| tl_last l : l <> [] -> LF ∉ l -> text_lines l [l]
| tl_cons l s ls : LF ∉ l -> text_lines s ls -> text_lines (l ++ LF :: s) (l :: ls).
