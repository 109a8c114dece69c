(** Model of src/cppnet/socket/socket.cpp and socket.hpp.

    What the kernel has for us on a descriptor is a [stream]: the bytes that will
    arrive, in order; a [Gap] where a waiting receive call gives up (receive
    timeout, EAGAIN on a non-blocking descriptor, a signal); and what happens
    after the last byte.  Simplifications: memory allocation ([new char[len+1]])
    succeeds; [errno] and [err_msg] are not modelled; windows branches are not
    modelled. *)
From Verif.Model Require Export Const.

Local Open Scope N_scope.

Inductive item : Type := Byte (c : ascii) | Gap.
Inductive tail : Type := Eof | Err | Wait.   (* peer closed / connection reset / silence *)
Record stream : Type := Stream { sm_items : list item; sm_tail : tail }.

(** A stream that delivers [s] without interruption. *)
Definition of_bytes (s : bytes) (t : tail) : stream := Stream (map Byte s) t.

(** ** recv(2), called at socket.hpp:199-205 [IORead] *)

(** At most [n] bytes up to the next gap: the bytes, what is left, whether a gap
    was hit. *)
Fixpoint grab (n : nat) (l : list item) : bytes * list item * bool :=
  match n, l with
  | O, _ => ([], l, false)
  | S _, [] => ([], [], false)
  | S _, Gap :: l' => ([], l', true)
  | S n', Byte c :: l' => let '(b, r, g) := grab n' l' in (c :: b, r, g)
  end.

Definition rc_of (b : bytes) : Z := Z.of_nat (length b).

(** recv(fd, buf, n, MSG_WAITALL): waits for all [n] bytes; a gap or the end of
    the stream makes it return what it has (or fail when it has nothing). *)
Definition recv_all (n : nat) (s : stream) : outcome (Z * bytes * stream) :=
  let '(b, r, gap) := grab n (sm_items s) in
  let s' := Stream r (sm_tail s) in
  if (length b =? n)%nat then Ok (rc_of b, b, s')
  else if gap : bool then Ok (match b with [] => -1 | _ => rc_of b end, b, s')%Z
  else match sm_tail s with
       | Eof => Ok (rc_of b, b, s')
       | Err => Ok (match b with [] => -1 | _ => rc_of b end, b, s')%Z
       | Wait => Blocked
       end.

(** recv(fd, buf, n, 0): waits for one byte, then returns between 1 and [n]
    bytes; [k] says how many the kernel has ready. *)
Definition recv_some (k n : nat) (s : stream) : outcome (Z * bytes * stream) :=
  if (n =? 0)%nat then Ok (0%Z, [], s)
  else match sm_items s with
       | [] => match sm_tail s with
               | Eof => Ok (0%Z, [], s)
               | Err => Ok ((-1)%Z, [], s)
               | Wait => Blocked
               end
       | Gap :: r => Ok ((-1)%Z, [], Stream r (sm_tail s))
       | Byte c :: r =>
           let '(b, _, _) := grab (Nat.min n (Nat.max 1 k)) (sm_items s) in
           Ok (rc_of b, b, Stream (drop (length b) (sm_items s)) (sm_tail s))
       end.

(** recv(fd, buf, n, MSG_PEEK) *)
Definition recv_peek (k n : nat) (s : stream) : outcome (Z * bytes * stream) :=
  r ← recv_some k n s;
  Ok (match r with (rc, b, s') => (rc, b, if (0 <? rc)%Z then s else s') end).

(** ** Member functions that move data *)

(** [buf = data] where [data] is a zero-filled char array into which [b] was
    received: the text up to the first NUL byte. *)
Fixpoint cstr (b : bytes) : bytes :=
  match b with
  | [] => []
  | c :: t => if Ascii.eqb c NUL then [] else c :: cstr t
  end.

(** socket.cpp:113-135 [Socket::Read(std::string &, size_t, bool)] on an open
    socket: return code, new value of [buf], rest of the stream. *)
Definition read_string (complete : bool) (k n : nat) (s : stream) : outcome (Z * bytes * stream) :=
  r ← (if complete then recv_all n s else recv_some k n s);
  let '(rc, b, s') := r in Ok (rc, cstr b, s').

(** socket.cpp:137-147 [Socket::ReadPeek] on an open socket *)
Definition read_peek (k n : nat) (s : stream) : outcome (Z * bytes * stream) :=
  r ← recv_peek k n s;
  let '(rc, b, s') := r in Ok (rc, cstr b, s').

(** socket.cpp:155-156, the loop condition; [ch] is the last byte read. *)
Definition until_goes_on (delim buf : bytes) (ch : ascii) : outcome bool :=
  last ← str_at delim (szsub (size delim) 1);
  if negb (Ascii.eqb ch last) then Ok true
  else
    t ← substr_from buf (szsub (size buf) (size delim));
    Ok (negb (bool_decide (t = delim))).

(** socket.cpp:155-163, the loop: return code, buffer, rest of the stream. *)
Fixpoint until_loop (delim : bytes) (l : list item) (t : tail) (ch : ascii) (buf : bytes)
    : outcome (Z * bytes * stream) :=
  go ← until_goes_on delim buf ch;
  if go : bool then
    match l with
    | Byte c :: l' => until_loop delim l' t c (buf ++ [c])
    | Gap :: l' => Ok ((-1)%Z, buf, Stream l' t)
    | [] => match t with
            | Eof => Ok (0%Z, buf, Stream [] t)
            | Err => Ok ((-1)%Z, buf, Stream [] t)
            | Wait => Blocked
            end
    end
  else Ok (to_int32 (Z.of_N (size buf)), buf, Stream l t).

(** socket.cpp:149-164 [Socket::ReadUntil] on an open socket *)
Definition read_until (buf delim : bytes) (s : stream) : outcome (Z * bytes * stream) :=
  match delim with
  | [] => Ok ((-1)%Z, buf, s)
  | _ => until_loop delim (sm_items s) (sm_tail s) NUL buf
  end.

(** ** The object: descriptor number and status *)

(** socket.hpp:17-21 *)
Inductive sstatus : Type := kUninit | kInit | kClosed.
Global Instance sstatus_eq_dec : EqDecision sstatus.
Proof. solve_decision. Defined.

(** socket.hpp:217-218 *)
Record sock : Type := Sock { so_fd : Z; so_status : sstatus }.
Definition sock_new : sock := Sock (-1) kUninit.

(** socket.cpp:12-17 [Socket::Socket(int)] *)
Definition sock_of_fd (fd : Z) : sock := if (fd <? 0)%Z then Sock fd kUninit else Sock fd kInit.

(** System calls, with the descriptor they act on. *)
Inductive syscall : Type :=
| SysSocket                      (* socket(2): makes a descriptor *)
| SysAccept (fd : Z) | SysListen (fd : Z) | SysBind (fd : Z) | SysConnect (fd : Z)
| SysClose (fd : Z) | SysFcntl (fd : Z) | SysRecv (fd : Z) | SysSend (fd : Z)
| SysSetsockopt (fd : Z) | SysGetpeername (fd : Z).
Global Instance syscall_eq_dec : EqDecision syscall.
Proof. solve_decision. Defined.

(** The member functions of a Socket. *)
Inductive sop : Type :=
| OInit | OInitUdp | OAccept | OListen | OBind | OConnect | OClose | OSetNoBlock | OSetBlock
| ORead | OReadPeek | OReadUntil (delim : bytes) | OReadUdp | OWrite | OWriteUdp
| OSetReuseAddr | OSetReadTimeout | OSetWriteTimeout | OSetSockOpt | OGetAddr.
Global Instance sop_eq_dec : EqDecision sop.
Proof. solve_decision. Defined.

(** socket.cpp, all member functions, as far as the object and the descriptor
    are concerned: return code, object afterwards, system calls made.  [r] is
    what the kernel answers ([r] of the first call when there are two; for
    ReadUntil, which makes one recv per byte, one [SysRecv] stands for all). *)
Definition sock_call (o : sop) (r : Z) (s : sock) : Z * sock * list syscall :=
  let fd := so_fd s in
  let guarded (c : syscall) : Z * sock * list syscall :=
    if decide (so_status s = kInit) then (r, s, [c]) else ((-1)%Z, s, []) in
  match o with
  | OInit | OInitUdp =>                         (* lines 19-35 *)
      if (r <? 0)%Z then ((-1)%Z, Sock r (so_status s), [SysSocket])
      else (0%Z, Sock r kInit, [SysSocket])
  | OAccept => guarded (SysAccept fd)           (* 37-43 *)
  | OListen => guarded (SysListen fd)           (* 45-50 *)
  | OBind => guarded (SysBind fd)               (* 52-57 *)
  | OConnect => guarded (SysConnect fd)         (* 59-64 *)
  | OClose =>                                   (* 66-76 *)
      if decide (so_status s = kInit) then (r, Sock fd kClosed, [SysClose fd])
      else ((-1)%Z, s, [])
  | OSetNoBlock | OSetBlock =>                  (* 78-94, 96-111 *)
      if (r =? -1)%Z then ((-1)%Z, s, [SysFcntl fd]) else (r, s, [SysFcntl fd; SysFcntl fd])
  | ORead => guarded (SysRecv fd)               (* 113-135 *)
  | OReadPeek => guarded (SysRecv fd)           (* 137-147 *)
  | OReadUntil delim =>                         (* 149-164 *)
      match delim with
      | [] => ((-1)%Z, s, [])
      | _ => guarded (SysRecv fd)
      end
  | OReadUdp => guarded (SysRecv fd)            (* 166-191 *)
  | OWrite => guarded (SysSend fd)              (* 193-202 *)
  | OWriteUdp => guarded (SysSend fd)           (* 204-218 *)
  | OSetReuseAddr | OSetReadTimeout | OSetWriteTimeout | OSetSockOpt =>  (* 220-247 *)
      (r, s, [SysSetsockopt fd])
  | OGetAddr => guarded (SysGetpeername fd)     (* 249-260 *)
  end.

(** A program that holds several Socket objects and copies them (the implicit
    copy constructor copies both members): e.g. http_server.cpp:297,
    tcp_server.cpp passing Sockets by value. *)
Inductive pop : Type :=
| PCopy (i : nat)                (* a new object, copy of object i *)
| PCall (i : nat) (o : sop) (r : Z).

Definition prog_step (st : list sock * list syscall) (p : pop) : list sock * list syscall :=
  let '(objs, tr) := st in
  match p with
  | PCopy i => match objs !! i with Some s => (objs ++ [s], tr) | None => st end
  | PCall i o r =>
      match objs !! i with
      | Some s => let '(_, s', c) := sock_call o r s in (<[i := s']> objs, tr ++ c)
      | None => st
      end
  end.
Definition prog_run (st : list sock * list syscall) (ps : list pop) := foldl prog_step st ps.
