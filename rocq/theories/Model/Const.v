(** Return codes and string maps. *)
From Verif.Lib Require Export CxxString.

(** utils/const.hpp:7-12 [enum RC]. *)
Definition kSuccess : Z := 0.
Definition kSysErr : Z := -1.
Definition kLogicErr : Z := -2.
Definition kNotSupport : Z := -3.

(** [std::unordered_map<std::string, std::string>].  The map is a finite map;
    the order in which [for (auto &it : map)] visits the entries is unspecified,
    so every operation that iterates takes the order as an argument, and the
    theorems quantify over all valid orders. *)
Notation smap := (gmap bytes bytes) (only parsing).

Definition iter_order : Type := gmap bytes bytes -> list (bytes * bytes).
(** Every entry is visited exactly once. *)
Definition valid_order (it : iter_order) : Prop := forall m, it m ≡ₚ map_to_list m.
