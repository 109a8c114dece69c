(** Model of an HTTP server with all its connections: HttpServer on a TcpServer in
    mode kIOMultiplexing (tcp_server.cpp:69-149, epoll.cpp:43-72 with level trigger,
    http_server.cpp:230-429 [EventFunc] and the handlers it calls), without TLS.

    One thread waits for events and calls HandleRead (Server.v) for one connection
    at a time.  What has arrived on a connection and was not read yet is a string of
    bytes.  HandleRead reads before it does anything else, so that a call that has
    to wait for bytes is modelled by calling it again, from where it started, when
    more has arrived ([LResume]).

    Simplifications: connections are told apart by an identity, not by a descriptor
    number (see TcpServer.v for numbers that are used again); a connection counts
    from the moment it is accepted; errors pending on a connection (EPOLLERR),
    HandleAccept's time-outs and logging, and Stop are left out; a write does not
    wait. *)
From Verif.Model Require Export Server.

(** A connection: bytes that can be read; the peer has closed its writing side; the
    descriptor is open; the texts given to Write; the bytes that reached the peer. *)
Record hconn : Type := HConn {
  hn_in : bytes; hn_fin : bool; hn_open : bool; hn_out : list bytes; hn_sent : bytes }.
Definition hconn_new : hconn := HConn [] false true [] [].

(** The thread: at epoll_wait or between two events; waiting inside HandleRead for
    connection [i]; gone with the process (uncaught exception, signal, undefined
    behaviour). *)
Inductive thr : Type := TFree | TIn (i : nat) | TDown.
Global Instance thr_eq_dec : EqDecision thr.
Proof. solve_decision. Defined.

(** [LServe]: an event of connection [i] is handled; [leave]: EPOLLRDHUP was set
    when epoll_wait looked (epoll.cpp:60).  [LTimeout]: the receive time-out of
    SetReadTimeout ends the waiting.  [wr]: what send(2) does. *)
Inductive hlab : Type :=
| LOpen (i : nat) | LSend (i : nat) (bs : bytes) | LFin (i : nat)
| LServe (i : nat) (leave : bool) (wr : wres) | LResume (i : nat) (wr : wres) | LTimeout (i : nat) (wr : wres).

Fixpoint bytes_of (l : list item) : bytes :=
  match l with [] => [] | Byte c :: l' => c :: bytes_of l' | Gap :: l' => bytes_of l' end.

Section system.
Context {U : Type}.
Record hsys : Type := HSys { sy_world : world U; sy_thr : thr; sy_conns : gmap nat hconn }.

Definition with_conn (s : hsys) (i : nat) (c : hconn) : hsys :=
  HSys (sy_world s) (sy_thr s) (<[i := c]> (sy_conns s)).

(** http_server.cpp:279-411 for connection [i]; [more]: what comes after the bytes
    that have arrived. *)
Definition read_event (hit : iter_order) (ro : router U) (errmsg : bytes) (wr : wres) (more : list item)
    (i : nat) (c : hconn) (s : hsys) : hsys :=
  match handle_read hit wr ro errmsg (sy_world s)
          (Stream (map Byte (hn_in c) ++ more) (if hn_fin c then Eof else Wait)) with
  | Ok v =>
      HSys (sv_world v) TFree
        (<[i := HConn (bytes_of (sm_items (sv_rest v))) (hn_fin c) (negb (sv_closed v))
                      (hn_out c ++ sv_wrote v) (hn_sent c ++ sv_sent v)]> (sy_conns s))
  | Blocked => HSys (sy_world s) (TIn i) (sy_conns s)
  | _ => HSys (sy_world s) TDown (sy_conns s)
  end.

Definition sys_step (hit : iter_order) (ro : router U) (errmsg : bytes) (s : hsys) (l : hlab) : option hsys :=
  match l with
  | LOpen i =>                                    (* tcp_server.cpp:69-97 *)
      if decide (sy_thr s = TFree ∧ sy_conns s !! i = None) then Some (with_conn s i hconn_new) else None
  | LSend i bs =>
      c ← sy_conns s !! i;
      if hn_open c && negb (hn_fin c)
      then Some (with_conn s i (HConn (hn_in c ++ bs) (hn_fin c) (hn_open c) (hn_out c) (hn_sent c))) else None
  | LFin i =>
      c ← sy_conns s !! i;
      if hn_open c then Some (with_conn s i (HConn (hn_in c) true (hn_open c) (hn_out c) (hn_sent c))) else None
  | LServe i leave wr =>
      c ← sy_conns s !! i;
      if decide (sy_thr s = TFree ∧ hn_open c = true ∧ (hn_in c ≠ [] ∨ hn_fin c = true)) then
        if leave : bool then                      (* tcp_server.cpp:104-109, http_server.cpp:265-277 *)
          if hn_fin c then Some (with_conn s i (HConn (hn_in c) true false (hn_out c) (hn_sent c))) else None
        else Some (read_event hit ro errmsg wr [] i c s)
      else None
  | LResume i wr =>
      c ← sy_conns s !! i;
      if decide (sy_thr s = TIn i) then
        let s' := read_event hit ro errmsg wr [] i c s in
        if decide (sy_thr s' = TIn i) then None else Some s'
      else None
  | LTimeout i wr =>                              (* http_server.cpp:244-246 *)
      c ← sy_conns s !! i;
      if decide (sy_thr s = TIn i) then Some (read_event hit ro errmsg wr [Gap] i c s) else None
  end.

Fixpoint sys_run (hit : iter_order) (ro : router U) (errmsg : bytes) (s : hsys) (ls : list hlab) : option hsys :=
  match ls with
  | [] => Some s
  | l :: ls' => s' ← sys_step hit ro errmsg s l; sys_run hit ro errmsg s' ls'
  end.
Definition sys_new (w : world U) : hsys := HSys w TFree ∅.
End system.
Arguments hsys : clear implicits.
