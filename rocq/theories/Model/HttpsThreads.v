(** Model of an HTTPS server with worker threads: HttpServer after InitSSL on a
    TcpServer in mode kMultiThread (tcp_server.cpp:166-192, http_server.cpp:232-429,
    ssl_context.cpp:183-199, ssl_socket.cpp; InitSSL refuses only kMixed).

    A worker keeps the number of its connection; [ssl_sockets_map_] is looked up by
    that number each time (http_server.cpp:285-286, 272-274).

    Simplifications: those of HttpsSystem.v and HttpThreads.v, and: reading a request,
    its handlers and the write of the answer are one step, made when all has arrived;
    until then the worker waits inside HandleRead.  The lookups and changes of the map
    are one step each (they are a data race, see C115).  getpeername(2) works.  A
    session whose number stands for another connection or for none by now gets an
    error from reading and writing. *)
From Verif.Model Require Export HttpsSystem.

(** The SSLSocket of a connection: not made; in use; after Close (ssl_socket.cpp:25-33);
    after CloseSSL alone (35-42). *)
Inductive sess : Type := NoSess | Live | Closed | Freed.
Global Instance sess_eq_dec : EqDecision sess.
Proof. solve_decision. Defined.

(** A connection: see [tconn].  [sc_taken]: how many of the records in [sc_wire] have
    been read already by a HandleRead that waits. *)
Record sconn : Type := SConn {
  sc_buf : bytes; sc_wire : list bytes; sc_taken : nat; sc_fin : bool; sc_hello : option bool;
  sc_sess : sess; sc_out : list bytes; sc_sent : bytes }.
Definition sconn_new : sconn := SConn [] [] 0 false None NoSess [] [].

(** A worker: has no task; in SSL_accept (http_server.cpp:253); at ReadPeek
    (tcp_server.cpp:170); ReadPeek has seen a byte; waits inside HandleRead with the
    session of [i]; about to run HandleLeave (tcp_server.cpp:173). *)
Inductive swst : Type := SFree | SAcc (f : nat) | SPeek (f : nat) | SGot (f : nat) | SRead (f i : nat) | SLeave (f : nat).
Global Instance swst_eq_dec : EqDecision swst.
Proof. solve_decision. Defined.
Definition swst_fd (x : swst) : option nat :=
  match x with SFree => None | SAcc f | SPeek f | SGot f | SRead f _ | SLeave f => Some f end.

(** [LAccept]: the main thread accepts connection [i], which gets the number [f].
    [LHello]: the peer does its part of the handshake ([false]: something else).
    [LPop]: worker [w] takes the oldest task.  [LGo]: worker [w] goes on; [wr]: what
    SSL_write does.  [LTime]: its waiting ends with the receive time-out. *)
Inductive slab : Type :=
| LAccept (i f : nat) | LHello (i : nat) (good : bool) | LSend (i : nat) (bs : bytes) | LFin (i : nat)
| LPop (w : nat) | LGo (w : nat) (wr : wres) | LTime (w : nat) (wr : wres).

(** Whether ReadPeek sees a byte: it reads from the socket, not from the session. *)
Definition raw (c : sconn) : bool :=
  match sc_sess c with
  | NoSess => bool_decide (sc_hello c <> None)
  | _ => bool_decide (sc_taken c < length (sc_wire c))
  end.

Definition set_sess (z : sess) (c : sconn) : sconn :=
  SConn (sc_buf c) (sc_wire c) (sc_taken c) (sc_fin c) (sc_hello c) z (sc_out c) (sc_sent c).
Definition set_taken (n : nat) (c : sconn) : sconn :=
  SConn (sc_buf c) (sc_wire c) n (sc_fin c) (sc_hello c) (sc_sess c) (sc_out c) (sc_sent c).

Section threads.
Context {U : Type}.
Record ssys : Type := SSys {
  ss_world : world U; ss_fds : gmap nat nat; ss_conns : gmap nat sconn; ss_map : gmap nat nat;
  ss_queue : list nat; ss_workers : list swst; ss_down : bool }.

Definition sput (s : ssys) (w : nat) (x : swst) : ssys :=
  SSys (ss_world s) (ss_fds s) (ss_conns s) (ss_map s) (ss_queue s) (<[w := x]> (ss_workers s)) (ss_down s).
Definition sconn_put (s : ssys) (i : nat) (c : sconn) : ssys :=
  SSys (ss_world s) (ss_fds s) (<[i := c]> (ss_conns s)) (ss_map s) (ss_queue s) (ss_workers s) (ss_down s).
(** close(2) *)
Definition sclose (s : ssys) (f : nat) : ssys :=
  SSys (ss_world s) (delete f (ss_fds s)) (ss_conns s) (ss_map s) (ss_queue s) (ss_workers s) (ss_down s).
(** [ssl_sockets_map_] *)
Definition smap_put (s : ssys) (f i : nat) : ssys :=
  SSys (ss_world s) (ss_fds s) (ss_conns s) (<[f := i]> (ss_map s)) (ss_queue s) (ss_workers s) (ss_down s).
Definition smap_del (s : ssys) (f : nat) : ssys :=
  SSys (ss_world s) (ss_fds s) (ss_conns s) (delete f (ss_map s)) (ss_queue s) (ss_workers s) (ss_down s).
Definition sdown (s : ssys) : ssys :=
  SSys (ss_world s) (ss_fds s) (ss_conns s) (ss_map s) (ss_queue s) (ss_workers s) true.

(** http_server.cpp:301-411 by worker [w] with the session of connection [i], whose
    number is [f]; [more]: what comes after the records that have arrived.  Where the
    call closes, it closes the number and the session (ssl_socket.cpp:25-33). *)
Definition s_call (hit : iter_order) (ro : router U) (errmsg : bytes) (wr : wres) (more : list sitem)
    (s : ssys) (w f i : nat) (c : sconn) : option ssys :=
  let own := bool_decide (ss_fds s !! f = Some i) in
  match handle_read_tls hit (if own then wr else WFail) ro errmsg (ss_world s)
          (Tls (sc_buf c) (if own then (Rec <$> sc_wire c) ++ more else [SGap]) (if sc_fin c then Eof else Wait)) with
  | Ok (v, t) =>
      let c' := SConn (tl_buf t) (if own then records_of (tl_items t) else sc_wire c) 0 (sc_fin c) (sc_hello c)
                  (if sv_closed v then Closed else sc_sess c) (sc_out c ++ sv_wrote v) (sc_sent c ++ sv_sent v) in
      let s1 := SSys (sv_world v) (ss_fds s) (<[i := c']> (ss_conns s)) (ss_map s) (ss_queue s)
                  (<[w := SPeek f]> (ss_workers s)) false in
      Some (if sv_closed v then sclose s1 f else s1)
  | Blocked =>
      if decide (ss_workers s !! w = Some (SRead f i) ∧ sc_taken c = length (sc_wire c)) then None
      else Some (sconn_put (sput s w (SRead f i)) i (set_taken (length (sc_wire c)) c))
  | _ => Some (sdown s)
  end.

(** A worker other than [w] is inside HandleRead with the session of [i]. *)
Definition inside (s : ssys) (w i : nat) : bool :=
  existsb (fun v => match ss_workers s !! v with Some (SRead _ j) => bool_decide (j = i ∧ v ≠ w) | _ => false end)
    (seq 0 (length (ss_workers s))).

Definition s_go (hit : iter_order) (ro : router U) (errmsg : bytes) (s : ssys) (w : nat) (wr : wres) (x : swst)
    : option ssys :=
  match x with
  | SFree => None
  | SAcc f =>                                     (* http_server.cpp:253-260, ssl_context.cpp:183-199; after
                                                     Close of its own Socket ReadPeek fails, socket.cpp:138-140 *)
      match ss_fds s !! f with
      | None => Some (sput s w (SLeave f))
      | Some j =>
          c ← ss_conns s !! j;
          match sc_sess c, sc_hello c with
          | NoSess, Some true => Some (sput (smap_put (sconn_put s j (set_sess Live c)) f j) w (SPeek f))
          | NoSess, Some false => Some (sput (sclose s f) w (SLeave f))
          | NoSess, None => if sc_fin c then Some (sput (sclose s f) w (SLeave f)) else None
          | _, _ =>                               (* not a handshake message *)
              if raw c || sc_fin c then Some (sput (sclose s f) w (SLeave f)) else None
          end
      end
  | SPeek f =>                                    (* tcp_server.cpp:170 *)
      match ss_fds s !! f with
      | None => Some (sput s w (SLeave f))
      | Some j =>
          c ← ss_conns s !! j;
          if raw c then Some (sput s w (SGot f)) else if sc_fin c then Some (sput s w (SLeave f)) else None
      end
  | SGot f =>                                     (* http_server.cpp:284-291 *)
      match ss_map s !! f with
      | None => Some (sput (sclose s f) w (SLeave f))
      | Some i =>
          c ← ss_conns s !! i;
          match sc_sess c with
          | Live => if inside s w i then Some (sdown s) else s_call hit ro errmsg wr [] s w f i c
          | Closed => Some (sput s w (SPeek f))   (* socket.cpp:150-152, ssl_socket.cpp:26-29 *)
          | _ => Some (sdown s)
          end
      end
  | SRead f i =>
      c ← ss_conns s !! i;
      if decide (sc_sess c = Live) then s_call hit ro errmsg wr [] s w f i c
      else Some (sdown s)                         (* the SSL object was freed *)
  | SLeave f =>                                   (* http_server.cpp:265-277; no Close *)
      match ss_map s !! f with
      | None => Some (sput s w SFree)
      | Some i =>
          c ← ss_conns s !! i;
          Some (sput (smap_del (sconn_put s i (if decide (sc_sess c = Live) then set_sess Freed c else c)) f) w SFree)
      end
  end.

(** http_server.cpp:244-246 *)
Definition s_time (hit : iter_order) (ro : router U) (errmsg : bytes) (s : ssys) (w : nat) (wr : wres) (x : swst)
    : option ssys :=
  match x with
  | SAcc f => Some (sput (sclose s f) w (SLeave f))
  | SPeek f => Some (sput s w (SLeave f))
  | SRead f i =>
      c ← ss_conns s !! i;
      if decide (sc_sess c = Live) then s_call hit ro errmsg wr [SGap] s w f i c else Some (sdown s)
  | _ => None
  end.

Definition s_step (hit : iter_order) (ro : router U) (errmsg : bytes) (s : ssys) (l : slab) : option ssys :=
  if ss_down s then None else
  match l with
  | LAccept i f =>                                (* tcp_server.cpp:179-189 *)
      if decide (ss_conns s !! i = None ∧ ss_fds s !! f = None) then
        Some (SSys (ss_world s) (<[f := i]> (ss_fds s)) (<[i := sconn_new]> (ss_conns s)) (ss_map s)
                (ss_queue s ++ [f]) (ss_workers s) false)
      else None
  | LHello i good =>
      c ← ss_conns s !! i;
      if decide (sc_fin c = false ∧ sc_hello c = None) then
        Some (sconn_put s i (SConn (sc_buf c) (sc_wire c) (sc_taken c) (sc_fin c) (Some good) (sc_sess c) (sc_out c) (sc_sent c)))
      else None
  | LSend i bs =>
      c ← ss_conns s !! i;
      if decide (sc_fin c = false ∧ sc_hello c = Some true) then
        Some (sconn_put s i (SConn (sc_buf c) (sc_wire c ++ [bs]) (sc_taken c) (sc_fin c) (sc_hello c) (sc_sess c) (sc_out c) (sc_sent c)))
      else None
  | LFin i =>
      c ← ss_conns s !! i;
      Some (sconn_put s i (SConn (sc_buf c) (sc_wire c) (sc_taken c) true (sc_hello c) (sc_sess c) (sc_out c) (sc_sent c)))
  | LPop w =>
      match ss_workers s !! w, ss_queue s with
      | Some SFree, f :: q =>
          Some (SSys (ss_world s) (ss_fds s) (ss_conns s) (ss_map s) q (<[w := SAcc f]> (ss_workers s)) false)
      | _, _ => None
      end
  | LGo w wr => x ← ss_workers s !! w; s_go hit ro errmsg s w wr x
  | LTime w wr => x ← ss_workers s !! w; s_time hit ro errmsg s w wr x
  end.

Fixpoint s_run (hit : iter_order) (ro : router U) (errmsg : bytes) (s : ssys) (ls : list slab) : option ssys :=
  match ls with
  | [] => Some s
  | l :: ls' => s' ← s_step hit ro errmsg s l; s_run hit ro errmsg s' ls'
  end.
(** [n] threads (threadpool.hpp:34: 10) *)
Definition s_new (n : nat) (w : world U) : ssys := SSys w ∅ ∅ ∅ [] (replicate n SFree) false.
End threads.
Arguments ssys : clear implicits.
