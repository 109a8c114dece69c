(** Model of the datagram functions of src/cppnet/socket/socket.cpp: InitUdp, Bind,
    ReadUdp, WriteUdp and Close of several sockets on a network.

    The network may lose, delay, reorder and duplicate datagrams.  What a program
    does with its sockets and what the network does is a list of labels.
    Simplifications: sockets are bound to single addresses (not to 0.0.0.0); no
    SO_REUSEADDR; each descriptor has one Socket object; receive calls that have
    nothing to return are not made ([UReadFail]: those that fail). *)
From Verif.Model Require Export Address.

Local Open Scope Z_scope.

Global Instance address_eq_dec : EqDecision address.
Proof. solve_decision. Defined.

(** ** Member functions *)

(** recvfrom(fd, buf, len, 0, addr, ..) with the datagram [p] from [from]: what does
    not fit is lost. *)
Definition recvfrom (len : nat) (p : bytes) : Z * bytes := (rc_of (take len p), take len p).

(** socket.cpp:166-191 [Socket::ReadUdp(std::string &, size_t, Address &)]; [ans] is
    the next datagram, [None] if the system call fails.  Return code, [buf] and
    [addr] afterwards. *)
Definition read_udp (s : sock) (len : nat) (ans : option (address * bytes)) (buf : bytes) (addr : address)
    : Z * bytes * address :=
  if decide (so_status s = kInit) then
    match ans with
    | Some (from, p) => let '(rc, b) := recvfrom len p in (rc, cstr b, from)
    | None => (-1, [], addr)
    end
  else (-1, buf, addr).

(** socket.cpp:204-218 [Socket::WriteUdp]; [ok]: the system call succeeds, which it
    does not for more than 65507 bytes.  Return code, and what is sent. *)
Definition write_udp (s : sock) (ok : bool) (buf : bytes) : Z * option bytes :=
  if decide (so_status s = kInit) then
    if ok && (size buf <=? 65507)%N then (rc_of buf, Some buf) else (-1, None)
  else (-1, None).

(** ** Sockets and the network *)

(** A Socket object, the address it is bound to, the datagrams that have arrived. *)
Record usock : Type := USock { us_sock : sock; us_addr : option address; us_queue : list (address * bytes) }.
(** What has happened; [i], [j] are sockets. *)
Inductive uev : Type :=
| ESent (i : nat) (from to : address) (p : bytes)
| EArrived (i : nat) (from to : address) (p : bytes)
| EGot (i : nat) (len : nat) (rc : Z) (buf : bytes) (from : address).
Record net : Type := Net { n_socks : list usock; n_flight : list (address * address * bytes); n_log : list uev }.

(** Sockets after InitUdp (socket.cpp:28-35). *)
Definition net_new (n : nat) : net :=
  Net ((λ i, USock (Sock (Z.of_nat i + 3) kInit) None []) <$> seq 0 n) [] [].

Definition is_open (s : usock) : bool := bool_decide (so_status (us_sock s) = kInit).
Definition owns (a : address) (s : usock) : bool := is_open s && bool_decide (us_addr s = Some a).
Definition in_use (a : address) (n : net) : bool := existsb (owns a) (n_socks n).

Definition set_sock (i : nat) (s : usock) (n : net) : net := Net (<[i := s]> (n_socks n)) (n_flight n) (n_log n).

(** The datagram arrives at the sockets that are bound to its destination. *)
Definition arrive1 (from to : address) (p : bytes) (s : usock) : usock :=
  if owns to s then USock (us_sock s) (us_addr s) (us_queue s ++ [(from, p)]) else s.
Definition arrivals (from to : address) (p : bytes) (l : list usock) : list uev :=
  (λ i, EArrived i from to p) <$> filter (λ i, from_option (owns to) false (l !! i) = true) (seq 0 (length l)).

Inductive ulabel : Type :=
| UBind (i : nat) (a : address)                       (* Bind *)
| USend (i : nat) (p : bytes) (to eph : address) (ok : bool)
    (* WriteUdp; [eph]: the address the kernel gives to a socket without one *)
| UArrive (k : nat) (keep : bool)                     (* [keep]: it will arrive once more *)
| ULose (k : nat)
| URead (i : nat) (len : nat)                         (* ReadUdp *)
| UReadFail (i : nat)
| UClose (i : nat).                                   (* Close *)

(** address.cpp:13-17, the address of a new Address object *)
Definition no_addr : address := Addr (0, 0)%N (0, 0, 0, 0)%N.

Definition udp_step (l : ulabel) (n : net) : net :=
  match l with
  | UBind i a =>
      match n_socks n !! i with
      | Some s =>
          if is_open s && bool_decide (us_addr s = None) && negb (in_use a n)
          then set_sock i (USock (us_sock s) (Some a) (us_queue s)) n else n
      | None => n
      end
  | USend i p to eph ok =>
      match n_socks n !! i with
      | Some s =>
          match us_addr s with
          | None =>
              if in_use eph n then n
              else match (write_udp (us_sock s) ok p).2 with
                   | Some b => Net (<[i := USock (us_sock s) (Some eph) (us_queue s)]> (n_socks n))
                                   (n_flight n ++ [(eph, to, b)]) (n_log n ++ [ESent i eph to b])
                   | None => n
                   end
          | Some from =>
              match (write_udp (us_sock s) ok p).2 with
              | Some b => Net (n_socks n) (n_flight n ++ [(from, to, b)]) (n_log n ++ [ESent i from to b])
              | None => n
              end
          end
      | None => n
      end
  | UArrive k keep =>
      match n_flight n !! k with
      | Some (from, to, p) =>
          Net (arrive1 from to p <$> n_socks n)
              (if keep then n_flight n else delete k (n_flight n))
              (n_log n ++ arrivals from to p (n_socks n))
      | None => n
      end
  | ULose k => Net (n_socks n) (delete k (n_flight n)) (n_log n)
  | URead i len =>
      match n_socks n !! i with
      | Some s =>
          match us_queue s with
          | (from, p) :: q =>
              let '(rc, buf, a) := read_udp (us_sock s) len (Some (from, p)) [] no_addr in
              if 0 <=? rc then
                Net (<[i := USock (us_sock s) (us_addr s) q]> (n_socks n)) (n_flight n)
                    (n_log n ++ [EGot i len rc buf a])
              else n
          | [] => n
          end
      | None => n
      end
  | UReadFail i => n
  | UClose i =>
      match n_socks n !! i with
      | Some s => set_sock i (USock (sock_call OClose 0 (us_sock s)).1.2 (us_addr s) []) n
      | None => n
      end
  end.
Definition udp_run (ls : list ulabel) (n : net) : net := foldl (λ n l, udp_step l n) n ls.
