(** Model of an HTTP server with worker threads: HttpServer on a TcpServer in the
    modes kMultiThread and kMixed (tcp_server.cpp:69-197, http_server.cpp:232-429
    [EventFunc] and the handlers it calls, threadpool.cpp), without TLS.

    Several workers may read from one descriptor at the same time, so that reading
    is split into its calls of recv(2), one byte at a time: ReadUntil asks for one
    byte per call (socket.cpp:155-163), and a waiting Read of the body takes bytes as
    they arrive.  Descriptors are numbers; a number that was closed may be given out
    again.

    Simplifications: the queue of the thread pool is a list (ThreadPool.v has its
    locks); the handlers of one request and the write of the answer are one step
    (handlers that share state have to lock it); whether getpeername(2) will work for
    a connection is known when it is accepted; a call of recv(2) that waits while its
    number is closed or given out again goes on as if it were made afterwards; Stop,
    logging, time-outs of writing, and a failing accept(2) or epoll_ctl(2) are left out
    (TcpServer.v has them). *)
From Verif.Model Require Export Server.

(** A connection: bytes that can be read; the peer has closed its writing side; the
    texts given to Write; the bytes that reached the peer. *)
Record tconn : Type := TConn { tn_in : bytes; tn_fin : bool; tn_out : list bytes; tn_sent : bytes }.
Definition tconn_new : tconn := TConn [] false [] [].

(** Where HttpServer::HandleRead is: in ReadUntil, with the bytes so far; in Read of
    a body of [n] bytes, with the bytes so far; about to run the handlers; about to
    answer 400; about to close without an answer. *)
Inductive rst : Type :=
| RHead (buf : bytes) | RBody (r : req) (n : nat) (got : bytes) | RRun (r : req) | RBad | REnd.

(** http_server.cpp:303-340: the head has been read into [buf]. *)
Definition after_head (buf : bytes) : outcome rst :=
  if (to_int32 (Z.of_N (size buf)) <=? 0)%Z then Ok REnd
  else
  pr ← req_parse req_new buf;
  let '(rc, r) := pr in
  if negb (rc =? kSuccess)%Z then Ok RBad
  else
  let content_size := header_get_content_length (rq_header r) in
  if (0 <? content_size)%Z then Ok (RBody r (Z.to_nat content_size) []) else Ok (RRun r).

(** http_server.cpp:357 *)
Definition with_body (r : req) (body : bytes) : req :=
  Req (rq_method r) (rq_version r) (rq_header r) (rq_route r) body.

(** recv(2) has returned the byte [c] (socket.cpp:155-163, 113-135). *)
Definition got_byte (st : rst) (c : ascii) : outcome rst :=
  match st with
  | RHead buf =>
      go ← until_goes_on CRLFCRLF (buf ++ [c]) c;
      if go : bool then Ok (RHead (buf ++ [c])) else after_head (buf ++ [c])
  | RBody r n got =>
      if length (got ++ [c]) =? n then Ok (RRun (with_body r (cstr (got ++ [c])))) else Ok (RBody r n (got ++ [c]))
  | _ => Ok st
  end.

(** recv(2) has returned 0 or -1: a body that has begun is taken as it is
    (http_server.cpp:303-318, 341-357). *)
Definition got_none (st : rst) : rst :=
  match st with
  | RHead _ => REnd
  | RBody r _ got => match got with [] => REnd | _ => RRun (with_body r (cstr got)) end
  | _ => st
  end.

(** A task of the pool: [KConn]: tcp_server.cpp:167-175, [ok]: getpeername(2) will
    work; [KRead]: tcp_server.cpp:99-102, 143. *)
Inductive task : Type := KConn (f : nat) (ok : bool) | KRead (f : nat).
Definition task_fd (k : task) : nat := match k with KConn f _ | KRead f => f end.

(** A worker: has no task; at ReadPeek (tcp_server.cpp:170); in HandleRead ([th]: as
    part of a [KConn] task). *)
Inductive wst : Type := WFree | WPeek (f : nat) | WRead (th : bool) (f : nat) (st : rst).
Definition wst_fd (w : wst) : option nat := match w with WFree => None | WPeek f | WRead _ f _ => Some f end.

(** [TAccept]: the main thread accepts connection [i], which gets the number [f].
    [TNotify], [TLeave]: epoll reports the number [f] (kMixed).  [TPop]: worker [w]
    takes the oldest task.  [TRecv]: a call of recv(2) by [w] returns.  [TTimeout]:
    one ends with the receive time-out, on connection [i].  [TRun]: [w] runs the
    handlers and writes, or closes; [wr]: what send(2) does. *)
Inductive tlab : Type :=
| TAccept (i f : nat) (ok : bool) | TSend (i : nat) (bs : bytes) | TFin (i : nat)
| TNotify (f : nat) | TLeave (f : nat)
| TPop (w : nat) | TRecv (w : nat) | TTimeout (w i : nat) | TRun (w : nat) (wr : wres).

Section threads.
Context {U : Type}.
Record tsys : Type := TSys {
  ts_world : world U; ts_fds : gmap nat nat; ts_conns : gmap nat tconn;
  ts_queue : list task; ts_workers : list wst; ts_down : bool }.

Definition set_worker (s : tsys) (w : nat) (x : wst) : tsys :=
  TSys (ts_world s) (ts_fds s) (ts_conns s) (ts_queue s) (<[w := x]> (ts_workers s)) (ts_down s).
Definition set_tconn (s : tsys) (i : nat) (c : tconn) : tsys :=
  TSys (ts_world s) (ts_fds s) (<[i := c]> (ts_conns s)) (ts_queue s) (ts_workers s) (ts_down s).
Definition add_task (s : tsys) (k : task) : tsys :=
  TSys (ts_world s) (ts_fds s) (ts_conns s) (ts_queue s ++ [k]) (ts_workers s) (ts_down s).
(** RemoveSoc and Close *)
Definition close_fd (s : tsys) (f : nat) : tsys :=
  TSys (ts_world s) (delete f (ts_fds s)) (ts_conns s) (ts_queue s) (ts_workers s) (ts_down s).
Definition go_down (s : tsys) : tsys :=
  TSys (ts_world s) (ts_fds s) (ts_conns s) (ts_queue s) (ts_workers s) true.

(** The connection a number stands for. *)
Definition conn_of (s : tsys) (f : nat) : option (nat * tconn) :=
  i ← ts_fds s !! f; c ← ts_conns s !! i; Some (i, c).

(** http_server.cpp:327-334 (400), 359-411 (handlers), 303-318, 341-356 (close):
    world, texts, bytes sent, closed *)
Definition finish (hit : iter_order) (wr : wres) (ro : router U) (errmsg : bytes) (st : rst) (w : world U)
    : outcome (world U * list bytes * bytes * bool) :=
  match st with
  | RRun r =>
      v ← answer hit wr ro r errmsg w (Stream [] Eof);
      Ok (sv_world v, sv_wrote v, sv_sent v, sv_closed v)
  | RBad =>
      let '(_, _, resp_buf) := resp_build hit (resp_bad_request resp_new errmsg) [] in
      o ← sock_write wr resp_buf;
      Ok (w, [resp_buf], o.2, true)
  | _ => Ok (w, [], [], true)
  end.
Definition finishing (st : rst) : bool := match st with RRun _ | RBad | REnd => true | _ => false end.

(** After HandleRead: tcp_server.cpp:170 again, or the end of the task. *)
Definition after_read (th : bool) (f : nat) : wst := if th then WPeek f else WFree.

(** A call of recv(2) by worker [w], which is in state [x], returns a byte or not. *)
Definition recv_step (s : tsys) (w : nat) (x : wst) (r : option ascii) : tsys :=
  match x, r with
  | WPeek f, Some _ => set_worker s w (WRead true f (RHead []))
  | WPeek _, None => set_worker s w WFree          (* tcp_server.cpp:173, no Close *)
  | WRead th f st, Some c =>
      match got_byte st c with
      | Ok st' => set_worker s w (WRead th f st')
      | _ => go_down s
      end
  | WRead th f st, None => set_worker s w (WRead th f (got_none st))
  | WFree, _ => s
  end.

(** The worker is waiting for a byte. *)
Definition receiving (x : wst) : bool :=
  match x with WPeek _ => true | WRead _ _ st => negb (finishing st) | WFree => false end.
(** Whether the byte is taken out of the stream. *)
Definition takes (x : wst) : bool := match x with WRead _ _ _ => true | _ => false end.

Definition t_step (mixed : bool) (hit : iter_order) (ro : router U) (errmsg : bytes) (s : tsys) (l : tlab)
    : option tsys :=
  if ts_down s then None else
  match l with
  | TAccept i f ok =>
      if decide (ts_conns s !! i = None ∧ ts_fds s !! f = None) then
        let s1 := set_tconn (TSys (ts_world s) (<[f := i]> (ts_fds s)) (ts_conns s) (ts_queue s) (ts_workers s) false)
                    i tconn_new in
        Some (if mixed then (if ok then s1 else close_fd s1 f)    (* tcp_server.cpp:69-97, http_server.cpp:232-241 *)
              else add_task s1 (KConn f ok))                      (* tcp_server.cpp:179-189 *)
      else None
  | TSend i bs =>
      c ← ts_conns s !! i;
      if tn_fin c then None
      else Some (set_tconn s i (TConn (tn_in c ++ bs) (tn_fin c) (tn_out c) (tn_sent c)))
  | TFin i =>
      c ← ts_conns s !! i; Some (set_tconn s i (TConn (tn_in c) true (tn_out c) (tn_sent c)))
  | TNotify f =>                                   (* tcp_server.cpp:141-144, level trigger *)
      ic ← conn_of s f;
      if mixed && (bool_decide (tn_in ic.2 ≠ []) || tn_fin ic.2) then Some (add_task s (KRead f)) else None
  | TLeave f =>                                    (* tcp_server.cpp:104-109, 138-139 *)
      ic ← conn_of s f;
      if mixed && tn_fin ic.2 then Some (close_fd s f) else None
  | TPop w =>
      match ts_workers s !! w, ts_queue s with
      | Some WFree, k :: q =>
          let s1 := TSys (ts_world s) (ts_fds s) (ts_conns s) q (ts_workers s) false in
          Some (match k with
                | KConn f true => set_worker s1 w (WPeek f)
                | KConn f false => close_fd (set_worker s1 w (WPeek f)) f
                | KRead f => set_worker s1 w (WRead false f (RHead []))
                end)
      | _, _ => None
      end
  | TRecv w =>
      x ← ts_workers s !! w; f ← wst_fd x;
      if receiving x then
        match conn_of s f with
        | None => Some (recv_step s w x None)      (* EBADF *)
        | Some (i, c) =>
            match tn_in c with
            | ch :: rest =>
                let s1 := if takes x then set_tconn s i (TConn rest (tn_fin c) (tn_out c) (tn_sent c)) else s in
                Some (recv_step s1 w x (Some ch))
            | [] => if tn_fin c then Some (recv_step s w x None) else None
            end
        end
      else None
  | TTimeout w i =>
      x ← ts_workers s !! w; f ← wst_fd x;
      if receiving x && bool_decide (ts_fds s !! f = Some i) then Some (recv_step s w x None) else None
  | TRun w wr =>
      match ts_workers s !! w with
      | Some (WRead th f st) =>
          if finishing st then
            match finish hit (match ts_fds s !! f with Some _ => wr | None => WFail end) ro errmsg st (ts_world s) with
            | Ok (wo, texts, sent, cl) =>
                let s1 := TSys wo (ts_fds s) (ts_conns s) (ts_queue s) (<[w := after_read th f]> (ts_workers s)) false in
                let s2 := match conn_of s f with
                          | Some (i, c) => set_tconn s1 i (TConn (tn_in c) (tn_fin c) (tn_out c ++ texts) (tn_sent c ++ sent))
                          | None => s1
                          end in
                Some (if cl then close_fd s2 f else s2)
            | Blocked => None                      (* a handler that waits for ever *)
            | _ => Some (go_down s)
            end
          else None
      | _ => None
      end
  end.

Fixpoint t_run (mixed : bool) (hit : iter_order) (ro : router U) (errmsg : bytes) (s : tsys) (ls : list tlab)
    : option tsys :=
  match ls with
  | [] => Some s
  | l :: ls' => s' ← t_step mixed hit ro errmsg s l; t_run mixed hit ro errmsg s' ls'
  end.
(** [n] threads (threadpool.hpp:34: 10) *)
Definition t_new (n : nat) (w : world U) : tsys := TSys w ∅ ∅ [] (replicate n WFree) false.
End threads.
Arguments tsys : clear implicits.
