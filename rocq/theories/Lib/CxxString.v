(** The part of the C++ standard library used by cppnet's text code:
    size_t arithmetic, std::string members, std::stoi, std::to_string.
    Follows the C++17 standard on a 64-bit platform with 32-bit int. *)
From Verif.Lib Require Export Bytes.

Local Open Scope N_scope.

(** ** size_t : unsigned arithmetic modulo 2^64 *)
Definition size_mod : N := 2 ^ 64.
Definition npos : N := size_mod - 1.              (* std::string::npos *)
Definition szadd (a b : N) : N := (a + b) mod size_mod.
Definition szsub (a b : N) : N := (a + size_mod - b) mod size_mod.

(** libstdc++'s std::string::max_size on 64 bit is below 2^63. *)
Definition fits (s : bytes) : Prop := N.of_nat (length s) < 2 ^ 63.

Definition size (s : bytes) : N := N.of_nat (length s).

(** ** int : 32-bit two's complement, conversion wraps *)
Definition to_int32 (z : Z) : Z := ((z + 2 ^ 31) mod 2 ^ 32 - 2 ^ 31)%Z.
(** Conversion of an int to size_t: modulo 2^64. *)
Definition int_to_size (z : Z) : N := Z.to_N (z mod 2 ^ 64)%Z.

(** ** std::string searching *)
Fixpoint starts_with (p s : bytes) : bool :=
  match p, s with
  | [], _ => true
  | _ :: _, [] => false
  | a :: p', b :: s' => Ascii.eqb a b && starts_with p' s'
  end.

(** Smallest index at which [needle] occurs in [hay]. *)
Fixpoint find_idx (needle hay : bytes) : option nat :=
  if starts_with needle hay then Some 0%nat
  else match hay with
       | [] => None
       | _ :: t => option_map S (find_idx needle t)
       end.

(** s.find(needle, pos) *)
Definition str_find (hay needle : bytes) (pos : N) : N :=
  if size hay <? pos then npos
  else match find_idx needle (drop (N.to_nat pos) hay) with
       | Some i => pos + N.of_nat i
       | None => npos
       end.

(** Index of the first byte satisfying [f]. *)
Fixpoint index_of (f : ascii -> bool) (s : bytes) : option nat :=
  match s with
  | [] => None
  | c :: t => if f c then Some 0%nat else option_map S (index_of f t)
  end.

(** Index of the last byte satisfying [f]. *)
Fixpoint last_index_of (f : ascii -> bool) (s : bytes) : option nat :=
  match s with
  | [] => None
  | c :: t => match last_index_of f t with
              | Some i => Some (S i)
              | None => if f c then Some 0%nat else None
              end
  end.

Definition opt_pos (o : option nat) : N :=
  match o with Some i => N.of_nat i | None => npos end.

(** s.find_first_not_of(c) for a one-character set, from position 0 *)
Definition find_first_not_of (s : bytes) (c : ascii) : N :=
  opt_pos (index_of (fun x => negb (Ascii.eqb x c)) s).

(** s.rfind(c) / s.find_last_of(c) for a one-character set *)
Definition find_last_of (s : bytes) (c : ascii) : N :=
  opt_pos (last_index_of (fun x => Ascii.eqb x c) s).

(** s.substr(pos, count): throws out_of_range when pos > size() *)
Definition substr (s : bytes) (pos count : N) : outcome bytes :=
  if size s <? pos then Throw OutOfRange
  else Ok (take (N.to_nat (N.min count (size s - pos))) (drop (N.to_nat pos) s)).

(** s.substr(pos) *)
Definition substr_from (s : bytes) (pos : N) : outcome bytes := substr s pos npos.

(** s[i] for i <= size(): s[size()] is the NUL byte; beyond is undefined *)
Definition str_at (s : bytes) (i : N) : outcome ascii :=
  if i <? size s then
    match s !! N.to_nat i with Some c => Ok c | None => UB end
  else if i =? size s then Ok NUL else UB.

(** ** Decimal conversions *)
Definition is_digit (c : ascii) : bool := (48 <=? byteN c) && (byteN c <=? 57).
(** isspace in the "C" locale *)
Definition is_space (c : ascii) : bool :=
  (byteN c =? 32) || ((9 <=? byteN c) && (byteN c <=? 13)).

Fixpoint digits_prefix (s : bytes) : bytes :=
  match s with
  | c :: t => if is_digit c then c :: digits_prefix t else []
  | [] => []
  end.

Fixpoint drop_space (s : bytes) : bytes :=
  match s with
  | c :: t => if is_space c then drop_space t else s
  | [] => []
  end.

Definition digit_val (c : ascii) : Z := Z.of_N (byteN c) - 48.

Definition dec_value (s : bytes) : Z :=
  fold_left (fun acc c => (acc * 10 + digit_val c)%Z) s 0%Z.

Definition int_min : Z := (- 2 ^ 31)%Z.
Definition int_max : Z := (2 ^ 31 - 1)%Z.
(** [z + 1] on int: overflow is undefined behaviour. *)
Definition int_succ (z : Z) : outcome Z := if (z =? int_max)%Z then UB else Ok (z + 1)%Z.

Definition stoi_range (z : Z) : outcome Z :=
  if ((int_min <=? z) && (z <=? int_max))%Z then Ok z else Throw OutOfRange.

(** std::stoi(s): strtol in base 10: leading white space, optional sign,
    digits; anything after the digits is ignored. *)
Definition stoi (s : bytes) : outcome Z :=
  let s1 := drop_space s in
  let '(neg, s2) :=
    match s1 with
    | c :: t => if Ascii.eqb c "-"%char then (true, t)
                else if Ascii.eqb c "+"%char then (false, t) else (false, s1)
    | [] => (false, s1)
    end in
  let ds := digits_prefix s2 in
  match ds with
  | [] => Throw InvalidArgument
  | _ => stoi_range (if neg : bool then (- dec_value ds)%Z else dec_value ds)
  end.

Definition digit_char (n : N) : ascii := ascii_of_N (48 + n).

Fixpoint dec_digits (fuel : nat) (n : N) : bytes :=
  match fuel with
  | O => []
  | S f => if n <? 10 then [digit_char n]
           else dec_digits f (n / 10) ++ [digit_char (n mod 10)]
  end.

(** Decimal digits of a non-negative number. *)
Definition dec_of_N (n : N) : bytes := dec_digits (S (N.to_nat (N.log2 n))) n.

(** std::to_string(int) *)
Definition int_to_string (z : Z) : bytes :=
  if (z <? 0)%Z then "-"%char :: dec_of_N (Z.to_N (- z)) else dec_of_N (Z.to_N z).
