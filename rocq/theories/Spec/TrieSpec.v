(** What a user may expect of a key-value store with prefix search. *)
From Verif.Lib Require Export Bytes.

Section spec.
Context {V : Type}.

(** A history of updates, oldest first: [Some (k, v)] stores, [None] resets. *)
Definition history : Type := list (option (bytes * V)).

(** The value most recently stored under [k] since the last reset. *)
Fixpoint latest_from (acc : option V) (h : history) (k : bytes) : option V :=
  match h with
  | [] => acc
  | None :: h' => latest_from None h' k
  | Some (k', v) :: h' => latest_from (if decide (k' = k) then Some v else acc) h' k
  end.
Definition latest (h : history) (k : bytes) : option V := latest_from None h k.

(** All keys ever stored are ASCII. *)
Definition ascii_history (h : history) : Prop :=
  Forall (fun o => match o with Some (k, _) => ascii_only k | None => True end) h.

(** [v] is the value of a stored key [c] that extends [k] and through which
    every stored extension of [k] passes (for a stored [k] this is [k] itself). *)
Definition resolves (f : bytes -> option V) (k : bytes) (v : V) : Prop :=
  exists c, k `prefix_of` c /\ f c = Some v /\
    forall c', is_Some (f c') -> k `prefix_of` c' -> c `prefix_of` c'.

(** The stored prefixes of [q], shortest first, each with "is it all of [q]?". *)
Definition stored_prefixes (m : bytes -> option V) (q : bytes) : list (V * bool) :=
  omap (fun i => v ← m (take i q); Some (v, bool_decide (i = length q)))
       (seq 0 (S (length q))).

(** Calling [cb] on each element until it says stop. *)
Fixpoint call_until_stop {S} (cb : S -> V -> bool -> outcome (S * bool))
    (l : list (V * bool)) (st : S) : outcome S :=
  match l with
  | [] => Ok st
  | (v, last) :: l' =>
      r ← cb st v last;
      if r.2 : bool then call_until_stop cb l' r.1 else Ok r.1
  end.
End spec.
Arguments history : clear implicits.
