(** Model of src/cppnet/server/io_multiplexing/select.cpp (Windows) and kqueue.cpp
    (macOS); epoll.cpp is in TcpServer.v.

    The user's callback is a function of a state [U] that says which sockets it
    monitors and removes and whether it calls Stop.  What select, kevent and recv
    answer is an argument.

    Simplifications: [err_msg_] and [max_fd_] (which nothing reads) are left out;
    the callback's other effects are in [U]; another thread does not change the
    set while the loop runs. *)
From Verif.Model Require Export TcpServer.

Local Open Scope Z_scope.

(** What a callback does to the multiplexer. *)
Inductive cbop : Type := OMonitor (fd : Z) | ORemove (fd : Z) | OStop.

(** ** Select *)

(** winsock2.h: FD_SETSIZE, FD_SET and FD_CLR on the array of an fd_set *)
Definition FD_SETSIZE : nat := 64.
Definition fd_add (fd : Z) (l : list Z) : list Z :=
  if decide (fd ∈ l) then l else if (length l <? FD_SETSIZE)%nat then l ++ [fd] else l.
Fixpoint fd_clr (fd : Z) (l : list Z) : list Z :=
  match l with [] => [] | x :: l' => if decide (x = fd) then l' else x :: fd_clr fd l' end.

(** select.hpp:18, io_multiplexing_base.hpp:86: the array of [monitor_set_] and [loop_flag_] *)
Record sel : Type := Sel { sl_set : list Z; sl_flag : bool }.
(** select.cpp:11-14 [Init] on a new object *)
Definition sel_new : sel := Sel [] true.
(** select.cpp:16-22 [MonitorSoc] *)
Definition sel_monitor (fd : Z) (s : sel) : Z * sel := (0, Sel (fd_add fd (sl_set s)) (sl_flag s)).
(** select.cpp:24-27 [RemoveSoc] *)
Definition sel_remove (fd : Z) (s : sel) : Z * sel := (0, Sel (fd_clr fd (sl_set s)) (sl_flag s)).
Definition sel_op (s : sel) (o : cbop) : sel :=
  match o with
  | OMonitor fd => (sel_monitor fd s).2
  | ORemove fd => (sel_remove fd s).2
  | OStop => Sel (sl_set s) false         (* io_multiplexing_base.hpp:64 *)
  end.

(** select.cpp:44-50: the notification for what ReadPeek returned *)
Definition peek_event (rc : Z) : ioev := if rc =? 0 then ioLeave else if 0 <? rc then ioRead else ioError.

Section loops.
Context {U : Type}.
Implicit Types (cb : U → Z → ioev → U * list cbop) (u : U).

(** select.cpp:39-53, the for loop from [i = FD_SETSIZE - n]; [ev]: [event_set],
    [peek i]: what ReadPeek returns.  An fd_set has never more than FD_SETSIZE
    entries. *)
Fixpoint sel_scan (n : nat) (ev : list Z) (peek : nat → Z) cb (s : sel) u : list (Z * ioev) * sel * U :=
  match n with
  | O => ([], s, u)
  | S n' =>
      match sl_set s !! (FD_SETSIZE - n)%nat with
      | None => ([], s, u)
      | Some fd =>
          if decide (fd ∈ ev) then
            let e := peek_event (peek (FD_SETSIZE - n)%nat) in
            let '(u1, ops) := cb u fd e in
            let '(notes, s', u') := sel_scan n' ev peek cb (foldl sel_op s ops) u1 in
            ((fd, e) :: notes, s', u')
          else sel_scan n' ev peek cb s u
      end
  end.
Definition sel_pass := sel_scan FD_SETSIZE.

(** What select(2) answers: failure, or the sockets that are ready. *)
Inductive sround : Type := SFail | SReady (ev : list Z) (peek : nat → Z).

(** select.cpp:31-56 [Loop], for the answers [rs]: what was reported in each round,
    and the return value if the loop has ended. *)
Fixpoint sel_loop (rs : list sround) cb (s : sel) u : list (list (Z * ioev)) * sel * U * option Z :=
  if sl_flag s then
    match rs with
    | [] => ([], s, u, None)
    | SFail :: _ => ([], s, u, Some (-1))
    | SReady ev peek :: rs' =>
        let '(notes, s1, u1) := sel_pass ev peek cb s u in
        let '(more, s2, u2, rc) := sel_loop rs' cb s1 u1 in
        (notes :: more, s2, u2, rc)
    end
  else ([], s, u, Some 0).

(** ** KQueue *)

(** kqueue.cpp:50-55: the time-out given to kevent; [None] is a null pointer *)
Definition kq_timeout (wait_timeout : Z) : option (Z * Z) :=
  if 0 <? wait_timeout then Some (Z.quot wait_timeout 1000, Z.rem wait_timeout 1000 * 1000000) else None.

(** The three bits of a kevent that the code looks at. *)
Record kev : Type := KEv { ke_eof : bool; ke_error : bool; ke_read : bool }.
(** kqueue.cpp:70-76 *)
Definition kq_decode (k : kev) : option ioev :=
  if ke_eof k then Some ioLeave else if ke_error k then Some ioError else if ke_read k then Some ioRead else None.

(** What kevent answers: failure (by a signal or not), or events. *)
Inductive kround : Type := KFail (intr : bool) | KEvents (evs : list (Z * kev)).

(** kqueue.cpp:69-77; only OStop changes the object: the set is in the kernel *)
Fixpoint kq_batch (evs : list (Z * kev)) cb (flag : bool) u : list (Z * ioev) * bool * U :=
  match evs with
  | [] => ([], flag, u)
  | (fd, k) :: evs' =>
      match kq_decode k with
      | None => kq_batch evs' cb flag u
      | Some e =>
          let '(u1, ops) := cb u fd e in
          let '(notes, f', u') := kq_batch evs' cb (flag && negb (existsb (λ o, match o with OStop => true | _ => false end) ops)) u1 in
          ((fd, e) :: notes, f', u')
      end
  end.

(** kqueue.cpp:42-80 [Loop] *)
Fixpoint kq_loop (rs : list kround) cb (flag : bool) u : list (list (Z * ioev)) * bool * U * option Z :=
  if flag then
    match rs with
    | [] => ([], flag, u, None)
    | KFail _ :: _ => ([], flag, u, Some kSysErr)
    | KEvents evs :: rs' =>
        let '(notes, f1, u1) := kq_batch evs cb flag u in
        let '(more, f2, u2, rc) := kq_loop rs' cb f1 u1 in
        (notes :: more, f2, u2, rc)
    end
  else ([], flag, u, Some 0).

(** epoll.cpp:43-72 [Loop] in the same style (TcpServer.v has the same loop with the
    kernel and other threads) *)
Inductive eround : Type := EFail (intr : bool) | EEvents (evs : list (Z * mask)).
Fixpoint ep_batch (evs : list (Z * mask)) cb (flag : bool) u : list (Z * ioev) * bool * U :=
  match evs with
  | [] => ([], flag, u)
  | (fd, k) :: evs' =>
      match decode k with
      | None => ep_batch evs' cb flag u
      | Some e =>
          let '(u1, ops) := cb u fd e in
          let '(notes, f', u') := ep_batch evs' cb (flag && negb (existsb (λ o, match o with OStop => true | _ => false end) ops)) u1 in
          ((fd, e) :: notes, f', u')
      end
  end.
Fixpoint ep_loop (rs : list eround) cb (flag : bool) u : list (list (Z * ioev)) * bool * U * option Z :=
  if flag then
    match rs with
    | [] => ([], flag, u, None)
    | EFail true :: rs' => ep_loop rs' cb flag u
    | EFail false :: _ => ([], flag, u, Some kSysErr)
    | EEvents evs :: rs' =>
        let '(notes, f1, u1) := ep_batch evs cb flag u in
        let '(more, f2, u2, rc) := ep_loop rs' cb f1 u1 in
        (notes :: more, f2, u2, rc)
    end
  else ([], flag, u, Some 0).
End loops.
