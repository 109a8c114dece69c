(** What reading from a byte stream should do. *)
From Verif.Spec Require Export StringSpec.

(** [s] is cut into [pre] and [rest] right after the first place where [d] ends. *)
Definition shortest_until (d s pre rest : bytes) : Prop :=
  s = pre ++ rest /\ d `suffix_of` pre /\
  forall p, p `prefix_of` pre -> d `suffix_of` p -> p = pre.

(** The last byte of [d] is among the first |d|-1 bytes of [s], so early that [d]
    cannot have ended there. *)
Definition early_end (d s : bytes) : Prop :=
  exists i c, last d = Some c /\ s !! i = Some c /\ S i < length d.
