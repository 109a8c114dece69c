(** Model of src/cppnet/server/tcp_server.cpp and tcp_server.hpp, and of
    src/cppnet/server/io_multiplexing/epoll.cpp, epoll.hpp, io_multiplexing_base.hpp.

    The kernel is a table of open descriptors, the queue of the listening socket
    and the interest list of the epoll instance.  A connection carries an
    identity, so that one can tell connections apart that get the same number.

    The running server is a transition system: the thread in EventLoop, the
    workers of the thread pool, threads that call Stop, WakeUp and Clean, the
    peers, and other parts of the program that open and close descriptors of
    their own.  A system call and an access to a variable that another thread
    changes is a step of its own; while a user callback runs, the user's actions
    on the socket it was given are steps.

    Simplifications: the thread pool is a queue, a set of workers that take tasks
    from its front, and a flag (see ThreadPool.v for the pool itself); reading the
    plain bools [loop_flag_] gives the last value written; the content of
    connections is a number of bytes; writing, socket options, [err_msg_] and
    [errno] are not modelled; a callback acts on its own socket only; epoll, not
    kqueue or select; the accept queue is unbounded. *)
From Verif.Model Require Export Socket Address.

Local Open Scope Z_scope.

(** ** The kernel *)

(** io_multiplexing_base.hpp:27-30 [TriggerType] *)
Inductive trig : Type := kEdge | kLevel.
Global Instance trig_eq_dec : EqDecision trig.
Proof. solve_decision. Defined.

(** A connection: bytes that can be read, whether the peer has closed its writing
    side, whether there is a pending error. *)
Record conn : Type := Conn { cn_id : nat; cn_data : nat; cn_fin : bool; cn_err : bool }.
Global Instance conn_eq_dec : EqDecision conn.
Proof. solve_decision. Defined.

(** What a descriptor is; [DOther]: something of another part of the program. *)
Inductive desc : Type := DSock | DListen | DConn (c : conn) | DEpoll | DOther.
Global Instance desc_eq_dec : EqDecision desc.
Proof. solve_decision. Defined.

Record kern : Type := Kern {
  k_fds : gmap Z desc; k_backlog : list conn; k_watch : gmap Z trig; k_next : nat }.

Definition k_set (k : kern) (fd : Z) (d : desc) : kern :=
  Kern (<[fd := d]> (k_fds k)) (k_backlog k) (k_watch k) (k_next k).
(** close(2) (a closed descriptor leaves the interest list) *)
Definition k_close (k : kern) (fd : Z) : kern :=
  Kern (delete fd (k_fds k)) (k_backlog k) (delete fd (k_watch k)) (k_next k).
(** epoll_ctl(2), EPOLL_CTL_ADD and EPOLL_CTL_DEL *)
Definition k_add (k : kern) (fd : Z) (t : trig) : kern :=
  Kern (k_fds k) (k_backlog k) (<[fd := t]> (k_watch k)) (k_next k).
Definition k_del (k : kern) (fd : Z) : kern :=
  Kern (k_fds k) (k_backlog k) (delete fd (k_watch k)) (k_next k).
Definition k_queue (k : kern) (l : list conn) : kern := Kern (k_fds k) l (k_watch k) (k_next k).
(** A new connection waits to be accepted. *)
Definition k_connect (k : kern) (fin : bool) : kern :=
  Kern (k_fds k) (k_backlog k ++ [Conn (k_next k) 0 fin false]) (k_watch k) (S (k_next k)).
(** Something happens to connection [id]. *)
Definition on_conn (f : conn → conn) (id : nat) (c : conn) : conn := if decide (cn_id c = id) then f c else c.
Definition on_desc (f : conn → conn) (id : nat) (d : desc) : desc :=
  match d with DConn c => DConn (on_conn f id c) | _ => d end.
Definition k_update (k : kern) (f : conn → conn) (id : nat) : kern :=
  Kern (on_desc f id <$> k_fds k) (on_conn f id <$> k_backlog k) (k_watch k) (k_next k).

(** Events of epoll (the three bits that the code looks at). *)
Record mask : Type := Mask { m_in : bool; m_rdhup : bool; m_err : bool }.
Definition mask_of (k : kern) (fd : Z) : mask :=
  match k_fds k !! fd with
  | Some (DConn c) => Mask ((0 <? cn_data c)%nat || cn_fin c || cn_err c) (cn_fin c) (cn_err c)
  | Some DListen => Mask (match k_backlog k with [] => false | _ => true end) false false
  | _ => Mask false false false
  end.
Definition ready (m : mask) : bool := m_in m || m_rdhup m || m_err m.

(** ** Epoll *)

(** io_multiplexing_base.hpp:85-89, epoll.hpp:21, and the static member epoll.hpp:24,
    epoll.cpp:10 that hides the inherited [trigger_type_]. *)
Record epoll : Type := Epoll { ep_fd : sock; ep_flag : bool; ep_base_trigger : trig; ep_static_trigger : trig }.
Definition epoll_new : epoll := Epoll sock_new true kLevel kLevel.
(** io_multiplexing_base.hpp:82 [set_trigger_type] *)
Definition set_trigger_type (t : trig) (e : epoll) : epoll := Epoll (ep_fd e) (ep_flag e) t (ep_static_trigger e).
(** epoll.cpp:12-19 [Epoll::Init], 74 [CreateEpoll]; [r]: what epoll_create1 returns *)
Definition epoll_init (r : Z) (e : epoll) (k : kern) : Z * epoll * kern :=
  let s := sock_of_fd r in
  (if decide (so_status s = kInit) then kSuccess else kSysErr,
   Epoll s (ep_flag e) (ep_base_trigger e) (ep_static_trigger e),
   if r <? 0 then k else k_set k r DEpoll).
(** epoll.cpp:21-35 [Epoll::MonitorSoc]; [ok]: epoll_ctl (and fcntl) succeed *)
Definition epoll_monitor (ok : bool) (e : epoll) (fd : Z) (k : kern) : Z * kern :=
  if ok then (0, k_add k fd (ep_static_trigger e)) else (-1, k).
(** epoll.cpp:60-68: which notification, if any, is made for an event *)
Inductive ioev : Type := ioRead | ioLeave | ioError.
Global Instance ioev_eq_dec : EqDecision ioev.
Proof. solve_decision. Defined.
Definition decode (m : mask) : option ioev :=
  if m_rdhup m then Some ioLeave else if m_err m then Some ioError else if m_in m then Some ioRead else None.

(** ** The server object *)

(** tcp_server.hpp:27-31 *)
Inductive mode : Type := kIOMultiplexing | kMultiThread | kMixed.
Global Instance mode_eq_dec : EqDecision mode.
Proof. solve_decision. Defined.

(** A user callback, by name; [None]: an empty std::function; [Some None]: the
    callback that does nothing (tcp_server.cpp:319). *)
Definition callback : Type := option (option nat).

(** tcp_server.hpp:104-122; [sv_pool]: the thread pool exists *)
Record srv : Type := Srv {
  sv_mode : mode; sv_addr : address; sv_lis : sock; sv_flag : bool; sv_cb : callback;
  sv_io : option epoll; sv_pool : bool }.
(** tcp_server.cpp:10-12, tcp_server.hpp:80 [set_mode] *)
Definition srv_new (m : mode) (a : address) : srv := Srv m a sock_new true None None false.
(** tcp_server.cpp:52 [Register] *)
Definition srv_register (cb : callback) (v : srv) : srv :=
  Srv (sv_mode v) (sv_addr v) (sv_lis v) (sv_flag v) cb (sv_io v) (sv_pool v).

(** What the kernel answers during Init: the results of socket and epoll_create1
    (negative, or a descriptor that is not open), and whether setsockopt, bind,
    listen and epoll_ctl succeed. *)
Record answers : Type := Answers {
  an_socket : Z; an_reuse : bool; an_bind : bool; an_listen : bool; an_epoll : Z; an_ctl : bool }.

(** tcp_server.cpp:19-50 [CreateSocket]; returning kSysErr or kLogicErr makes a
    Socket from the number (socket.cpp:12). *)
Definition create_socket (a : answers) (v : srv) (k : kern) : sock * kern :=
  if an_socket a <? 0 then (sock_of_fd kSysErr, k)
  else
    let k1 := k_set k (an_socket a) DSock in
    if negb (an_reuse a) then (sock_of_fd kSysErr, k1)
    else if match addr_ip (sv_addr v) with [] => true | _ => false end || (addr_port (sv_addr v) =? 0)%N
         then (sock_of_fd kLogicErr, k1)
    else if negb (an_bind a) then (sock_of_fd kSysErr, k1)
    else (Sock (an_socket a) kInit, k1).

(** socket.cpp:66-76 [Socket::Close] *)
Definition close_sock (s : sock) (k : kern) : sock * kern :=
  if decide (so_status s = kInit) then (Sock (so_fd s) kClosed, k_close k (so_fd s)) else (s, k).

(** tcp_server.cpp:277-322 [InitMode] *)
Definition init_mode (a : answers) (v : srv) (k : kern) : Z * srv * kern :=
  let dflt (v : srv) : srv := srv_register (Some None) v in
  match sv_mode v with
  | kMultiThread =>
      (kSuccess, dflt (Srv (sv_mode v) (sv_addr v) (sv_lis v) (sv_flag v) (sv_cb v) (sv_io v) true), k)
  | m =>
      let pool := match m with kMixed => true | _ => sv_pool v end in
      let '(rc, e, k1) := epoll_init (an_epoll a) epoll_new k in
      let with_lis (l : sock) : srv := Srv m (sv_addr v) l (sv_flag v) (sv_cb v) (Some e) pool in
      if rc <? 0 then let '(l, k2) := close_sock (sv_lis v) k1 in (kSysErr, with_lis l, k2)
      else
        let '(rc2, k2) := epoll_monitor (an_ctl a) e (so_fd (sv_lis v)) k1 in
        if rc2 <? 0 then let '(l, k3) := close_sock (sv_lis v) k2 in (kSysErr, with_lis l, k3)
        else (kSuccess, dflt (with_lis (sv_lis v)), k2)
  end.

(** tcp_server.cpp:260-275 [Init] *)
Definition srv_init (a : answers) (v : srv) (k : kern) : Z * srv * kern :=
  let '(l, k1) := create_socket a v k in
  let v1 := Srv (sv_mode v) (sv_addr v) l true (sv_cb v) (sv_io v) (sv_pool v) in
  if decide (so_status l = kInit) then
    if negb (an_listen a) then
      let '(l', k2) := close_sock l k1 in
      (kSysErr, Srv (sv_mode v) (sv_addr v) l' true (sv_cb v) (sv_io v) (sv_pool v), k2)
    else init_mode a v1 (k_set k1 (so_fd l) DListen)
  else (kSysErr, v1, k1).

(** tcp_server.cpp:218-225 [Clean] *)
Definition srv_clean (v : srv) (k : kern) : srv * kern :=
  let '(l, k1) := close_sock (sv_lis v) k in
  match sv_io v with
  | None => (Srv (sv_mode v) (sv_addr v) l (sv_flag v) (sv_cb v) None (sv_pool v), k1)
  | Some e =>
      let '(s, k2) := close_sock (ep_fd e) k1 in
      (Srv (sv_mode v) (sv_addr v) l (sv_flag v) (sv_cb v)
         (Some (Epoll s (ep_flag e) (ep_base_trigger e) (ep_static_trigger e))) (sv_pool v), k2)
  end.

(** tcp_server.cpp:201-216 [Stop] (with io_multiplexing_base.hpp:64) *)
Definition srv_stop (v : srv) : srv :=
  if decide (so_status (sv_lis v) = kInit) then
    Srv (sv_mode v) (sv_addr v) (sv_lis v) false (sv_cb v)
        (match sv_mode v, sv_io v with
         | kMultiThread, io => io
         | _, Some e => Some (Epoll (ep_fd e) false (ep_base_trigger e) (ep_static_trigger e))
         | _, None => None          (* not reached: see the theorem on Init *)
         end) (sv_pool v)
  else v.

(** tcp_server.cpp:61-67 [AddSoc]; the member function of a null pointer is called
    when there is no epoll object. *)
Definition srv_add_soc (ok : bool) (s : sock) (v : srv) (k : kern) : outcome (Z * kern) :=
  if decide (so_status s = kInit) then
    match sv_io v with Some e => Ok (epoll_monitor ok e (so_fd s) k) | None => UB end
  else Ok (kLogicErr, k).

(** tcp_server.cpp:227-258 [WakeUp]; [r]: what socket(2) returns, [ok]: connect
    succeeds (the connection is closed at once, so it arrives with its end). *)
Definition srv_wakeup (r : Z) (ok : bool) (v : srv) (k : kern) : Z * kern :=
  if sv_flag v then (kLogicErr, k)
  else match sv_mode v with
       | kIOMultiplexing => (kSuccess, k)
       | _ =>
           if r <? 0 then (kSysErr, k)
           else if ok then (kSuccess, k_connect k true)
           else (kSysErr, k_set k r DSock)
       end.

(** ** The event loop *)

(** tcp_server.hpp:16-21 *)
Inductive event : Type := kAccept | kRead | kLeave | kError.
Global Instance event_eq_dec : EqDecision event.
Proof. solve_decision. Defined.

(** What happened, in order.  [TCall]: the user callback is called with an event
    and a socket; [id] is the connection this socket refers to at that moment.
    [TClose]: close(2) was called on a number that referred to [d]. *)
Inductive entry : Type :=
| TAccepted (fd : Z) (id : nat)
| TBatch (evs : list (Z * mask))
| TNotify (fd : Z) (e : ioev)
| TCall (e : event) (s : sock) (id : option nat)
| TClose (fd : Z) (d : option desc).

(** What the thread in EventLoop does when the callback returns: goes on with the
    events that are left; lines 107-108 and 114-115; line 87; line 186. *)
Inductive cont : Type :=
| KBatch (evs : list (Z * mask)) | KDrop (fd : Z) (evs : list (Z * mask))
| KShut (fd : Z) (evs : list (Z * mask)) | KQuit.

(** Where the thread in EventLoop is. *)
Inductive lpc : Type :=
| LTop                                         (* epoll.cpp:49, tcp_server.cpp:177 *)
| LWait                                        (* epoll.cpp:51, tcp_server.cpp:179, before the call *)
| LSleep                                       (* inside epoll_wait or accept *)
| LBatch (evs : list (Z * mask))               (* epoll.cpp:59 *)
| LMonitor (s : sock) (evs : list (Z * mask))  (* tcp_server.cpp:83 *)
| LIn (e : event) (own : sock) (k : cont)      (* inside the user callback, which has the socket [own] *)
| LDrop (fd : Z) (evs : list (Z * mask))       (* 107, 114 *)
| LShut (fd : Z) (evs : list (Z * mask))       (* 108, 115, 87 *)
| LGot (s : sock)                              (* 180 *)
| LJoin                                        (* 162, 191: inside ThreadPool::Stop *)
| LRet (rc : Z).

(** Tasks: line 189 and line 143. *)
Inductive job : Type := JConn (s : sock) | JRead (fd : Z).
(** Where a worker is; [s] is the worker's own socket object (lines 167-173),
    [own] the copy that the callback got; [once]: the task is HandleRead (99-102). *)
Inductive wst : Type :=
| VIdle | VPeek (s : sock) | VIn (e : event) (own s : sock) (once : bool).

Record st : Type := St {
  s_v : srv; s_k : kern; s_loop : lpc;
  s_queue : list job; s_run : bool; s_workers : list wst; s_trace : list entry }.

Definition upd (s : st) (k : kern) (l : lpc) (tr : list entry) : st :=
  St (s_v s) k l (s_queue s) (s_run s) (s_workers s) (s_trace s ++ tr).
Definition upd_w (s : st) (k : kern) (i : nat) (w : wst) (tr : list entry) : st :=
  St (s_v s) k (s_loop s) (s_queue s) (s_run s) (<[i := w]> (s_workers s)) (s_trace s ++ tr).
Definition add_job (s : st) (j : job) (l : lpc) (tr : list entry) : st :=
  St (s_v s) (s_k s) l (s_queue s ++ [j]) (s_run s) (s_workers s) (s_trace s ++ tr).

Definition ep_of (s : st) : epoll := match sv_io (s_v s) with Some e => e | None => epoll_new end.
Definition id_at (k : kern) (s : sock) : option nat :=
  if decide (so_status s = kInit) then
    match k_fds k !! so_fd s with Some (DConn c) => Some (cn_id c) | _ => None end
  else None.
Definition call (k : kern) (e : event) (s : sock) : entry := TCall e s (id_at k s).

(** What the kernel answers to the step: epoll_wait returns these descriptors; a
    signal; accept returns this descriptor; success; failure. *)
Inductive ans : Type := AFds (l : list Z) | AIntr | AFd (fd : Z) | AOk | AFail.

(** accept(2) with a connection waiting: the number is one that is not in use. *)
Definition accept_as (k : kern) (fd : Z) : option (conn * kern) :=
  match k_backlog k with
  | [] => None
  | c :: r =>
      if decide (0 <= fd) then
        match k_fds k !! fd with
        | None => Some (c, k_set (k_queue k r) fd (DConn c))
        | Some _ => None
        end
      else None
  end.

(** epoll.cpp:51: what epoll_wait may return: up to 1024 different descriptors
    with their events, at least one. *)
Definition batch_ok (k : kern) (l : list Z) : bool :=
  negb (bool_decide (l = [])) && bool_decide (NoDup l) && (length l <=? 1024)%nat &&
  forallb (λ fd, match k_watch k !! fd with Some _ => ready (mask_of k fd) | None => false end) l.

Definition no_sock : sock := sock_of_fd (-1).

(** One step of the thread in EventLoop (tcp_server.cpp:69-199, epoll.cpp:43-72). *)
Definition loop_step (s : st) (x : ans) : option st :=
  let v := s_v s in
  let k := s_k s in
  let lis := sv_lis v in
  match s_loop s with
  | LTop =>
      match sv_mode v with
      | kMultiThread =>
          if sv_flag v then Some (upd s k LWait [])
          else Some (St v k LJoin (s_queue s) false (s_workers s) (s_trace s))
      | m =>
          if ep_flag (ep_of s) then Some (upd s k LWait [])
          else match m with
               | kMixed => Some (St v k LJoin (s_queue s) false (s_workers s) (s_trace s))
               | _ => Some (upd s k (LRet kSuccess) [])
               end
      end
  | LWait =>
      match sv_mode v with
      | kMultiThread =>
          if decide (so_status lis = kInit ∧ k_fds k !! so_fd lis = Some DListen) then Some (upd s k LSleep [])
          else Some (upd s k (LGot no_sock) [])
      | _ =>
          if decide (k_fds k !! so_fd (ep_fd (ep_of s)) = Some DEpoll) then Some (upd s k LSleep [])
          else Some (upd s k (LRet kSysErr) [])
      end
  | LSleep =>
      match sv_mode v with
      | kMultiThread =>
          match x with
          | AFd fd =>
              match accept_as k fd with
              | Some (c, k') => Some (upd s k' (LGot (sock_of_fd fd)) [TAccepted fd (cn_id c)])
              | None => None
              end
          | AFail => Some (upd s k (LGot no_sock) [])
          | _ => None
          end
      | _ =>
          match x with
          | AFds l =>
              if batch_ok k l then
                let evs := map (λ fd, (fd, mask_of k fd)) l in Some (upd s k (LBatch evs) [TBatch evs])
              else None
          | AIntr => Some (upd s k LTop [])
          | _ => None
          end
      end
  | LBatch [] => Some (upd s k LTop [])
  | LBatch ((fd, m) :: evs) =>
      match decode m with
      | None => Some (upd s k (LBatch evs) [])
      | Some e =>
          let note := TNotify fd e in
          if decide (fd = so_fd lis) then
            if decide (so_status lis = kInit ∧ k_fds k !! so_fd lis = Some DListen) then
              match x with
              | AFd fd' =>
                  match accept_as k fd' with
                  | Some (c, k') =>
                      Some (upd s k' (LMonitor (sock_of_fd fd') evs) [note; TAccepted fd' (cn_id c)])
                  | None => None
                  end
              | AFail => Some (upd s k (LIn kError no_sock (KBatch evs)) [note; call k kError no_sock])
              | _ => None
              end
            else Some (upd s k (LIn kError no_sock (KBatch evs)) [note; call k kError no_sock])
          else
            let soc := sock_of_fd fd in
            match e with
            | ioLeave => Some (upd s k (LIn kLeave soc (KDrop fd evs)) [note; call k kLeave soc])
            | ioError => Some (upd s k (LIn kError soc (KDrop fd evs)) [note; call k kError soc])
            | ioRead =>
                match sv_mode v with
                | kMixed => Some (add_job s (JRead fd) (LBatch evs) [note])
                | _ => Some (upd s k (LIn kRead soc (KBatch evs)) [note; call k kRead soc])
                end
            end
      end
  | LMonitor soc evs =>
      match x with
      | AOk =>
          if decide (k_fds k !! so_fd (ep_fd (ep_of s)) = Some DEpoll) then
            let k' := (epoll_monitor true (ep_of s) (so_fd soc) k).2 in
            Some (upd s k' (LIn kAccept soc (KBatch evs)) [call k' kAccept soc])
          else None
      | AFail => Some (upd s k (LIn kError soc (KShut (so_fd soc) evs)) [call k kError soc])
      | _ => None
      end
  | LIn _ _ _ => None
  | LDrop fd evs => Some (upd s (k_del k fd) (LShut fd evs) [])
  | LShut fd evs => Some (upd s (k_close k fd) (LBatch evs) [TClose fd (k_fds k !! fd)])
  | LGot soc =>
      if sv_flag v then
        if decide (so_status soc = kInit) then Some (add_job s (JConn soc) LTop [])
        else Some (upd s k (LIn kError soc KQuit) [call k kError soc])
      else Some (St v k LJoin (s_queue s) false (s_workers s) (s_trace s))
  | LJoin =>
      if forallb (λ w, match w with VIdle => true | _ => false end) (s_workers s)
      then Some (upd s k (LRet kSuccess) []) else None
  | LRet _ => None
  end.

(** One step of worker [i] outside the user callback. *)
Definition worker_step (s : st) (i : nat) : option st :=
  let k := s_k s in
  match s_workers s !! i with
  | Some VIdle =>
      if s_run s then
        match s_queue s with
        | [] => None
        | j :: q =>
            let '(e, soc, once) :=
              match j with JConn soc => (kAccept, soc, false) | JRead fd => (kRead, sock_of_fd fd, true) end in
            Some (St (s_v s) k (s_loop s) q (s_run s) (<[i := VIn e soc soc once]> (s_workers s))
                     (s_trace s ++ [call k e soc]))
        end
      else None
  | Some (VPeek soc) =>
      let next e := Some (upd_w s k i (VIn e soc soc false) [call k e soc]) in
      match k_fds k !! so_fd soc with
      | Some (DConn c) =>
          if (0 <? cn_data c)%nat then next kRead
          else if cn_fin c || cn_err c then next kLeave else None
      | _ => next kLeave
      end
  | Some (VIn _ _ _ _) | None => None
  end.

(** What a callback does with the socket it was given. *)
Inductive act : Type := ARead (n : nat) | ARemove | AClose | AStop | AReturn.

Definition do_act (a : act) (own : sock) (v : srv) (k : kern) : sock * srv * kern * list entry :=
  match a with
  | ARead n =>
      match id_at k own with
      | Some id => (own, v, k_update k (λ c, Conn (cn_id c) (cn_data c - n) (cn_fin c) (cn_err c)) id, [])
      | None => (own, v, k, [])
      end
  | ARemove => (own, v, k_del k (so_fd own), [])
  | AClose =>
      if decide (so_status own = kInit) then
        (Sock (so_fd own) kClosed, v, k_close k (so_fd own), [TClose (so_fd own) (k_fds k !! so_fd own)])
      else (own, v, k, [])
  | AStop => (own, srv_stop v, k, [])
  | AReturn => (own, v, k, [])
  end.

Definition loop_act (s : st) (a : act) : option st :=
  match s_loop s with
  | LIn e own kk =>
      match a with
      | AReturn =>
          Some (upd s (s_k s)
            match kk with
            | KBatch evs => LBatch evs | KDrop fd evs => LDrop fd evs | KShut fd evs => LShut fd evs
            | KQuit => LRet kSysErr
            end [])
      | _ =>
          let '(own', v', k', tr) := do_act a own (s_v s) (s_k s) in
          Some (St v' k' (LIn e own' kk) (s_queue s) (s_run s) (s_workers s) (s_trace s ++ tr))
      end
  | _ => None
  end.
Definition worker_act (s : st) (i : nat) (a : act) : option st :=
  match s_workers s !! i with
  | Some (VIn e own soc once) =>
      match a with
      | AReturn =>
          Some (upd_w s (s_k s) i
            (if once then VIdle else match e with kLeave => VIdle | _ => VPeek soc end) [])
      | _ =>
          let '(own', v', k', tr) := do_act a own (s_v s) (s_k s) in
          Some (St v' k' (s_loop s) (s_queue s) (s_run s) (<[i := VIn e own' soc once]> (s_workers s))
                   (s_trace s ++ tr))
      end
  | _ => None
  end.

(** The listening socket still takes connections (a thread inside accept keeps
    it alive). *)
Definition listening (s : st) : bool :=
  bool_decide (k_fds (s_k s) !! so_fd (sv_lis (s_v s)) = Some DListen) ||
  (bool_decide (sv_mode (s_v s) = kMultiThread) && match s_loop s with LSleep => true | _ => false end).

Inductive label : Type :=
| GLoop (x : ans) | ALoop (a : act) | GWork (i : nat) | AWork (i : nat) (a : act)
| EConn                                     (* a peer connects *)
| EData (id n : nat) | EFin (id : nat) | EErr (id : nat)   (* a peer sends, closes, fails *)
| XOpen (fd : Z) | XShut (fd : Z)           (* another part of the program opens, closes a descriptor *)
| XStop | XWake (r : Z) | XClean.                   (* another thread calls Stop, WakeUp, Clean *)

(** The calls of close(2) that Clean makes. *)
Definition clean_closes (x : sock) (k : kern) : list entry :=
  if decide (so_status x = kInit) then [TClose (so_fd x) (k_fds k !! so_fd x)] else [].
Definition with_k (s : st) (v : srv) (k : kern) : st :=
  St v k (s_loop s) (s_queue s) (s_run s) (s_workers s) (s_trace s).

Definition step (s : st) (l : label) : option st :=
  let v := s_v s in
  let k := s_k s in
  match l with
  | GLoop x => loop_step s x
  | ALoop a => loop_act s a
  | GWork i => worker_step s i
  | AWork i a => worker_act s i a
  | EConn => if listening s then Some (with_k s v (k_connect k false)) else None
  | EData id n =>
      Some (with_k s v (k_update k (λ c, if cn_fin c then c else Conn (cn_id c) (cn_data c + n) (cn_fin c) (cn_err c)) id))
  | EFin id => Some (with_k s v (k_update k (λ c, Conn (cn_id c) (cn_data c) true (cn_err c)) id))
  | EErr id => Some (with_k s v (k_update k (λ c, Conn (cn_id c) (cn_data c) (cn_fin c) true) id))
  | XOpen fd =>
      if decide (0 <= fd) then
        match k_fds k !! fd with None => Some (with_k s v (k_set k fd DOther)) | Some _ => None end
      else None
  | XShut fd => if decide (k_fds k !! fd = Some DOther) then Some (with_k s v (k_close k fd)) else None
  | XStop => Some (with_k s (srv_stop v) k)
  | XWake r =>
      if decide (r < 0 ∨ k_fds k !! r = None) then Some (with_k s v (srv_wakeup r (listening s) v k).2) else None
  | XClean =>
      let '(v', k') := srv_clean v k in
      Some (St v'
        (if bool_decide (sv_mode v = kMultiThread) && match s_loop s with LSleep => true | _ => false end
         then k' else k_queue k' [])
        (s_loop s) (s_queue s) (s_run s) (s_workers s)
        (s_trace s ++ clean_closes (sv_lis v) k ++
         match sv_io v with Some e => clean_closes (ep_fd e) (close_sock (sv_lis v) k).2 | None => [] end))
  end.

Fixpoint run (s : st) (ls : list label) : option st :=
  match ls with
  | [] => Some s
  | l :: ls' => match step s l with Some s' => run s' ls' | None => None end
  end.

(** tcp_server.cpp:118-127: where EventLoop begins, with [n] workers in the pool. *)
Definition loop_start (v : srv) (n : nat) (k : kern) : st :=
  St v k
     (if decide (so_status (sv_lis v) = kInit) then
        if decide (sv_io v = None ∧ sv_mode v ≠ kMultiThread) then LRet kLogicErr else LTop
      else LRet kLogicErr)
     [] true (replicate n VIdle) [].
