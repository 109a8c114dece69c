(** Model of src/cppnet/utils/string.cpp. *)
From Verif.Lib Require Export CxxString.

Local Open Scope N_scope.

(** utils/string.cpp:12-19, the loop of [StringUtil::Split] and the final
    push_back.  [fuel] bounds the number of iterations; running out of fuel is
    [Diverge].  [arr] is the output vector so far. *)
Fixpoint split_loop (fuel : nat) (s d : bytes) (keep : bool)
    (arr : list bytes) (pos : N) : outcome (list bytes) :=
  match fuel with
  | O => Diverge
  | S f =>
      let found := str_find s d pos in
      if found =? npos then
        tl ← substr_from s pos;
        Ok (arr ++ [tl])
      else
        piece ← substr s pos (if keep then szadd (szsub found pos) (size d)
                              else szsub found pos);
        split_loop f s d keep (arr ++ [piece]) (szadd found (size d))
  end.

(** utils/string.cpp:7-20 [StringUtil::Split].  Simplification: the number of
    iterations is bounded by length + 1; [Spec/StringSpec.v] shows this is no
    restriction for a non-empty delimiter, and that no bound suffices for the
    empty one. *)
Definition str_split (s d : bytes) (arr : list bytes) (keep : bool) : outcome (list bytes) :=
  split_loop (S (length s)) s d keep arr 0.

(** utils/string.cpp:25-35, lambda [FromHex] (arithmetic on unsigned char). *)
Definition from_hex (c : ascii) : N :=
  let ch := byteN c in
  if (65 <=? ch) && (ch <=? 90) then (ch - 65 + 10) mod 256
  else if (97 <=? ch) && (ch <=? 122) then (ch - 97 + 10) mod 256
  else if (48 <=? ch) && (ch <=? 57) then ch - 48
  else 0.

(** utils/string.cpp:45: [strTemp += high * 16 + low] converts int to char. *)
Definition hex_byte (high low : ascii) : ascii :=
  ascii_of_N ((from_hex high * 16 + from_hex low) mod 256).

(** utils/string.cpp:36-48, the loop of [UrlDecode]; the list is the rest of
    [src] from index i.  The test [i + 2 > length] (line 40) is true exactly
    when nothing follows the '%'.  [src[length]] is the NUL byte (legal for
    std::string), so a '%' followed by a single byte reads NUL as second digit. *)
Fixpoint url_decode_loop (acc rest : bytes) : bytes :=
  match rest with
  | [] => acc
  | c :: t =>
      if Ascii.eqb c "+" then url_decode_loop (acc ++ [SP]) t
      else if Ascii.eqb c "%" then
        match t with
        | [] => []                                    (* line 41: return "" *)
        | [h] => acc ++ [hex_byte h NUL]              (* src[length] = NUL *)
        | h :: l :: t' => url_decode_loop (acc ++ [hex_byte h l]) t'
        end
      else url_decode_loop (acc ++ [c]) t
  end.

(** utils/string.cpp:22-50 [StringUtil::UrlDecode]. *)
Definition url_decode (src : bytes) : bytes := url_decode_loop [] src.

(** utils/string.cpp:55-60, lambda [ToHex]. *)
Definition to_hex (n : N) : ascii :=
  if n <? 10 then ascii_of_N (n + 48) else ascii_of_N (n - 10 + 65).

(** isalnum in the "C" locale. *)
Definition is_alnum (c : ascii) : bool :=
  let n := byteN c in
  ((48 <=? n) && (n <=? 57)) || ((65 <=? n) && (n <=? 90)) || ((97 <=? n) && (n <=? 122)).

(** utils/string.cpp:62-64, characters copied unchanged. *)
Definition url_plain (c : ascii) : bool :=
  is_alnum c || Ascii.eqb c "-" || Ascii.eqb c "_" || Ascii.eqb c "."
  || Ascii.eqb c "~" || Ascii.eqb c "/" || Ascii.eqb c "=" || Ascii.eqb c "?"
  || Ascii.eqb c "&".

(** utils/string.cpp:62-72, one iteration of [UrlEncode]. *)
Definition url_encode_byte (c : ascii) : bytes :=
  if url_plain c then [c]
  else if Ascii.eqb c " " then B "+"
  else ["%"%char; to_hex (N.shiftr (byteN c) 4); to_hex (byteN c mod 16)].

(** utils/string.cpp:52-75 [StringUtil::UrlEncode]. *)
Definition url_encode (src : bytes) : bytes := flat_map url_encode_byte src.

(** utils/string.cpp:82-89: row 0 of the table: dp[0][0] = true, then true for
    the leading '*'s of the pattern (the loop breaks at the first other byte),
    the remaining cells keep their initial value 0. *)
Fixpoint wild_row0_tail (p : bytes) : list bool :=
  match p with
  | [] => []
  | c :: p' => if Ascii.eqb c "*" then true :: wild_row0_tail p'
               else replicate (length p) false
  end.
Definition wild_row0 (p : bytes) : list bool := true :: wild_row0_tail p.

(** utils/string.cpp:91-97: cells dp[i][j..n] of row i for source byte [c];
    [p] is the pattern from index j-1, [left] is dp[i][j-1] and [prev] is row
    i-1 from column j-1. *)
Fixpoint wild_row_from (p : bytes) (c : ascii) (left : bool) (prev : list bool) : list bool :=
  match p, prev with
  | pc :: p', diag :: ((up :: _) as prev') =>
      let cell :=
        if Ascii.eqb pc "*" then left || up
        else if Ascii.eqb pc "?" || Ascii.eqb c pc then diag
        else false in
      cell :: wild_row_from p' c cell prev'
  | _, _ => []
  end.
(** Row i: dp[i][0] keeps its initial value 0. *)
Definition wild_row (p : bytes) (c : ascii) (prev : list bool) : list bool :=
  false :: wild_row_from p c false prev.

(** utils/string.cpp:90-98: all rows, for the source [s]. *)
Definition wild_table (p s : bytes) : list bool :=
  fold_left (fun row c => wild_row p c row) s (wild_row0 p).

(** utils/string.cpp:77-100 [StringUtil::WildCardMatch]: dp[m][n].
    Simplification: m and n are mathematical integers (the code uses int, so
    strings of 2^31 bytes or more are outside the model). *)
Definition wildcard_match (pattern source : bytes) : bool :=
  List.last (wild_table pattern source) false.
