(** Byte strings and the result type of modelled C++ code. *)
From stdpp Require Export prelude strings list gmap.
From Coq Require Export Ascii NArith ZArith Lia ZifyBool ZifyNat ZifyN.

(** A C++ [char] / byte: all 256 values.  [std::string] is a list of bytes
    (embedded NUL bytes are allowed). *)
Notation byte := ascii (only parsing).
Notation bytes := (list ascii) (only parsing).

(** C++ string literal. *)
Definition B (s : string) : bytes := String.list_ascii_of_string s.
Arguments B _%string_scope.

Definition CR : ascii := ascii_of_nat 13.
Definition LF : ascii := ascii_of_nat 10.
Definition NUL : ascii := ascii_of_nat 0.
Definition SP : ascii := " "%char.
Definition CRLF : bytes := [CR; LF].
Definition CRLFCRLF : bytes := [CR; LF; CR; LF].

(** Unsigned value of a byte. *)
Definition byteN (c : ascii) : N := N_of_ascii c.

(** Value of a byte as an array index when [char] is signed (x86-64 gcc):
    bytes 128..255 are negative and convert to a huge [size_t]. *)
Definition is_ascii (c : ascii) : bool := (byteN c <? 128)%N.

Definition ascii_only (s : bytes) : Prop := Forall (fun c => is_ascii c = true) s.

(** Results of running a piece of C++ code. *)
Inductive exn : Type :=
| OutOfRange        (* std::out_of_range *)
| InvalidArgument   (* std::invalid_argument *)
| BadAnyCast        (* std::bad_any_cast *)
| FsError           (* std::filesystem::filesystem_error *)
| IosFailure        (* std::ios_base::failure *).

Inductive outcome (A : Type) : Type :=
| Ok (a : A)        (* returns normally *)
| Throw (e : exn)   (* an exception escapes *)
| UB                (* undefined behaviour *)
| Diverge           (* the loop does not end (or the fuel given was too small) *)
| Blocked           (* blocked in a system call that never returns *)
| Terminate.        (* std::terminate / abort *)
Arguments Ok {A} a.
Arguments Throw {A} e.
Arguments UB {A}.
Arguments Diverge {A}.
Arguments Blocked {A}.
Arguments Terminate {A}.

Global Instance outcome_ret : MRet outcome := fun A a => Ok a.
Global Instance outcome_bind : MBind outcome := fun A B f m =>
  match m with
  | Ok a => f a
  | Throw e => Throw e
  | UB => UB
  | Diverge => Diverge
  | Blocked => Blocked
  | Terminate => Terminate
  end.

Definition is_ok {A} (o : outcome A) : Prop := exists a, o = Ok a.

(** Prove a decidable closed statement by evaluation. *)
Ltac by_compute :=
  match goal with |- ?P => apply (bool_decide_unpack P) end; vm_compute; exact I.
