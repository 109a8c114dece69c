(** Model of an HTTPS server with all its connections: HttpServer after InitSSL on a
    TcpServer in mode kIOMultiplexing (tcp_server.cpp:69-149, epoll.cpp:43-72 with
    level trigger, http_server.cpp:230-429 and the handlers it calls).

    As HttpSystem.v, with two differences.  HandleAccept waits for the handshake
    (http_server.cpp:252-261, ssl_context.cpp:183-199).  What has arrived is a list of
    TLS records; a record is taken from the kernel as a whole, and the part that was
    not asked for stays in OpenSSL's buffer, which epoll does not see.

    Simplifications: those of HttpSystem.v; what the peer does for the handshake is
    one message, good or bad; SSL_accept does not return 0 (see C105); a connection is
    told apart by its identity (see HttpLife.v for the map of sessions). *)
From Verif.Model Require Export Https HttpSystem.

(** A connection: the part of the last record that was not asked for; records in the
    kernel; the peer has closed its side; its handshake message, if it has come; the
    session is established; the descriptor is open; texts given to Write; bytes that
    reached the peer. *)
Record tconn : Type := TConn {
  tn_buf : bytes; tn_wire : list bytes; tn_fin : bool; tn_hello : option bool; tn_est : bool; tn_open : bool;
  tn_out : list bytes; tn_sent : bytes }.
Definition tconn_new : tconn := TConn [] [] false None false true [] [].

(** The thread: free, waiting in SSL_accept for connection [i], waiting inside
    HandleRead for [i], gone. *)
Inductive xthr : Type := XFree | XHand (i : nat) | XIn (i : nat) | XDown.
Global Instance xthr_eq_dec : EqDecision xthr.
Proof. solve_decision. Defined.

(** [XHello]: the peer does its part of the handshake ([false]: something else than
    that).  [XShake]: SSL_accept comes back.  The others as in HttpSystem.v. *)
Inductive xlab : Type :=
| XOpen (i : nat) | XHello (i : nat) (good : bool) | XSend (i : nat) (bs : bytes) | XFin (i : nat)
| XShake (i : nat) | XServe (i : nat) (leave : bool) (wr : wres) | XResume (i : nat) (wr : wres)
| XTimeout (i : nat) (wr : wres).

Definition records_of (l : list sitem) : list bytes := l ≫= λ x, match x with Rec b => [b] | SGap => [] end.

Section system.
Context {U : Type}.
Record xsys : Type := XSys { xs_world : world U; xs_thr : xthr; xs_conns : gmap nat tconn }.

Definition xwith (s : xsys) (t : xthr) (i : nat) (c : tconn) : xsys := XSys (xs_world s) t (<[i := c]> (xs_conns s)).
Definition tn_closed (c : tconn) : tconn :=
  TConn (tn_buf c) (tn_wire c) (tn_fin c) (tn_hello c) (tn_est c) false (tn_out c) (tn_sent c).

(** http_server.cpp:279-411 for connection [i]; [more]: what comes after the records
    that have arrived. *)
Definition xread (hit : iter_order) (ro : router U) (errmsg : bytes) (wr : wres) (more : list sitem)
    (i : nat) (c : tconn) (s : xsys) : xsys :=
  match handle_read_tls hit wr ro errmsg (xs_world s)
          (Tls (tn_buf c) ((Rec <$> tn_wire c) ++ more) (if tn_fin c then Eof else Wait)) with
  | Ok (v, t) =>
      XSys (sv_world v) XFree
        (<[i := TConn (tl_buf t) (records_of (tl_items t)) (tn_fin c) (tn_hello c) (tn_est c) (negb (sv_closed v))
                      (tn_out c ++ sv_wrote v) (tn_sent c ++ sv_sent v)]> (xs_conns s))
  | Blocked => XSys (xs_world s) (XIn i) (xs_conns s)
  | _ => XSys (xs_world s) XDown (xs_conns s)
  end.

Definition xstep (hit : iter_order) (ro : router U) (errmsg : bytes) (s : xsys) (l : xlab) : option xsys :=
  match l with
  | XOpen i =>                                    (* tcp_server.cpp:69-97, http_server.cpp:232-253 *)
      if decide (xs_thr s = XFree ∧ xs_conns s !! i = None) then Some (xwith s (XHand i) i tconn_new) else None
  | XHello i good =>
      c ← xs_conns s !! i;
      if decide (tn_open c = true ∧ tn_fin c = false ∧ tn_hello c = None)
      then Some (xwith s (xs_thr s) i (TConn (tn_buf c) (tn_wire c) (tn_fin c) (Some good) (tn_est c) (tn_open c) (tn_out c) (tn_sent c)))
      else None
  | XSend i bs =>
      c ← xs_conns s !! i;
      if decide (tn_open c = true ∧ tn_fin c = false ∧ tn_hello c = Some true)
      then Some (xwith s (xs_thr s) i (TConn (tn_buf c) (tn_wire c ++ [bs]) (tn_fin c) (tn_hello c) (tn_est c) (tn_open c) (tn_out c) (tn_sent c)))
      else None
  | XFin i =>
      c ← xs_conns s !! i;
      if tn_open c
      then Some (xwith s (xs_thr s) i (TConn (tn_buf c) (tn_wire c) true (tn_hello c) (tn_est c) (tn_open c) (tn_out c) (tn_sent c)))
      else None
  | XShake i =>                                   (* http_server.cpp:253-260 *)
      c ← xs_conns s !! i;
      if decide (xs_thr s = XHand i) then
        match tn_hello c with
        | Some true =>
            Some (xwith s XFree i (TConn (tn_buf c) (tn_wire c) (tn_fin c) (tn_hello c) true (tn_open c) (tn_out c) (tn_sent c)))
        | Some false => Some (xwith s XFree i (tn_closed c))
        | None => if tn_fin c then Some (xwith s XFree i (tn_closed c)) else None
        end
      else None
  | XServe i leave wr =>
      c ← xs_conns s !! i;
      if decide (xs_thr s = XFree ∧ tn_open c = true ∧ (tn_wire c ≠ [] ∨ tn_fin c = true)) then
        if leave : bool then                      (* tcp_server.cpp:104-109, http_server.cpp:265-277 *)
          if tn_fin c then Some (xwith s XFree i (tn_closed c)) else None
        else Some (xread hit ro errmsg wr [] i c s)
      else None
  | XResume i wr =>
      c ← xs_conns s !! i;
      if decide (xs_thr s = XIn i) then
        let s' := xread hit ro errmsg wr [] i c s in
        if decide (xs_thr s' = XIn i) then None else Some s'
      else None
  | XTimeout i wr =>                              (* http_server.cpp:244-246 *)
      c ← xs_conns s !! i;
      if decide (xs_thr s = XHand i) then Some (xwith s XFree i (tn_closed c))
      else if decide (xs_thr s = XIn i) then Some (xread hit ro errmsg wr [SGap] i c s) else None
  end.

Fixpoint xrun (hit : iter_order) (ro : router U) (errmsg : bytes) (s : xsys) (ls : list xlab) : option xsys :=
  match ls with
  | [] => Some s
  | l :: ls' => s' ← xstep hit ro errmsg s l; xrun hit ro errmsg s' ls'
  end.
Definition xsys_new (w : world U) : xsys := XSys w XFree ∅.
End system.
Arguments xsys : clear implicits.
