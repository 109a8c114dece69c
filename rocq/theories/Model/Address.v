(** Model of src/cppnet/socket/address.cpp.

    A sockaddr_in is its port and its address as they are in memory: two and four
    bytes, most significant first (this is what htons and inet_addr produce on
    every platform).  inet_addr follows glibc's inet_aton.  Not modelled: the
    static variable behind GetAddrLen, GetPeerAddr (one system call), more than
    the first address of a domain. *)
From Verif.Model Require Export Socket.

Local Open Scope N_scope.

Definition ip4 : Type := N * N * N * N.
Record address : Type := Addr { ad_port : N * N; ad_ip : ip4 }.

(** ** strtoul(s, &end, 0) on a text that begins with a digit: value and rest *)
Definition digit_in (base : N) (c : ascii) : option N :=
  let v := byteN c in
  let d := if (48 <=? v) && (v <=? 57) then Some (v - 48)
           else if (97 <=? v) && (v <=? 102) then Some (v - 87)
           else if (65 <=? v) && (v <=? 70) then Some (v - 55)
           else None in
  match d with Some x => if x <? base then Some x else None | None => None end.
Fixpoint num_run (base acc : N) (s : bytes) : N * bytes :=
  match s with
  | [] => (acc, [])
  | c :: t => match digit_in base c with
              | Some d => num_run base (acc * base + d) t
              | None => (acc, s)
              end
  end.
Definition is_x (c : ascii) : bool := Ascii.eqb c "x" || Ascii.eqb c "X".
Definition strtoul0 (s : bytes) : N * bytes :=
  match s with
  | z :: x :: h :: t =>
      if Ascii.eqb z "0" then
        if is_x x && (match digit_in 16 h with Some _ => true | None => false end) then num_run 16 0 (h :: t)
        else num_run 8 0 s
      else num_run 10 0 s
  | z :: _ => if Ascii.eqb z "0" then num_run 8 0 s else num_run 10 0 s
  | [] => (0, [])
  end.

(** The last number of the text fills the bytes that are left. *)
Definition last_part (parts : list N) (v : N) : option ip4 :=
  match parts with
  | [] => Some (v / 2 ^ 24 mod 256, v / 2 ^ 16 mod 256, v / 2 ^ 8 mod 256, v mod 256)
  | [a] => if v <? 2 ^ 24 then Some (a, v / 2 ^ 16 mod 256, v / 2 ^ 8 mod 256, v mod 256) else None
  | [a; b] => if v <? 2 ^ 16 then Some (a, b, v / 2 ^ 8 mod 256, v mod 256) else None
  | [a; b; c] => if v <? 2 ^ 8 then Some (a, b, c, v) else None
  | _ => None
  end.
(** inet_aton: [more] is how many dots may still come. *)
Fixpoint inet_aton (more : nat) (parts : list N) (s : bytes) : option ip4 :=
  match s with
  | [] => None
  | c :: _ =>
      if negb (is_digit c) then None
      else
        let '(v, r) := strtoul0 s in
        if 2 ^ 32 <=? v then None
        else match r with
             | [] => last_part parts v
             | x :: r' =>
                 if Ascii.eqb x "." then
                   match more with
                   | O => None
                   | S m => if 255 <? v then None else inet_aton m (parts ++ [v]) r'
                   end
                 else if is_space x then last_part parts v else None
             end
  end.
(** inet_addr: INADDR_NONE is 255.255.255.255. *)
Definition inet_addr (s : bytes) : ip4 :=
  match inet_aton 3 [] (cstr s) with Some a => a | None => (255, 255, 255, 255) end.

(** htons / ntohs *)
Definition htons (p : N) : N * N := (p / 256, p mod 256).
Definition ntohs (b : N * N) : N := b.1 * 256 + b.2.
(** inet_ntoa *)
Definition inet_ntoa (i : ip4) : bytes :=
  let '(a, b, c, d) := i in
  dec_of_N a ++ B "." ++ dec_of_N b ++ B "." ++ dec_of_N c ++ B "." ++ dec_of_N d.

(** address.cpp:13-17 [Address::Address()] *)
Definition addr_new : address := Addr (htons 0) (inet_addr (B "0.0.0.0")).
(** address.cpp:21-26 [Address::Init]: return code and object; 19 [Address::Address(ip, port)] *)
Definition addr_init (ip : bytes) (port : N) : Z * address := (0%Z, Addr (htons port) (inet_addr ip)).
(** address.cpp:28-42 [Address::InitWithDomain]; [res] is the first address that
    gethostbyname finds. *)
Definition addr_init_domain (res : option ip4) (port : N) (a : address) : Z * address :=
  match res with
  | None => ((-1)%Z, Addr (htons port) (ad_ip a))
  | Some i => (0%Z, Addr (htons port) (inet_addr (inet_ntoa i)))
  end.
(** address.cpp:49 [GetPort], 51 [GetIP], 44-47 [GetIPAndPort] *)
Definition addr_port (a : address) : N := ntohs (ad_port a).
Definition addr_ip (a : address) : bytes := inet_ntoa (ad_ip a).
(** address.cpp:53-58 [ToString] *)
Definition addr_to_string (a : address) : bytes := addr_ip a ++ B ":" ++ int_to_string (Z.of_N (addr_port a)).
