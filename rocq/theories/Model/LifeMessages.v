(** Model of the texts for people of TcpServer, HttpServer (Init, InitSSL, Run, AddSoc,
    WakeUp) and HttpClient (Init, InitSSL): [err_msg_] after a call.

    Each function says what the text is after a call; what the call returns and does
    otherwise is in TcpServer.v, HttpLife.v and Ssl.v.  [E c] is what strerror(errno) says
    after system call [c] has failed; a call that succeeds leaves errno as it is. *)
From Verif.Model Require Export HttpLife.

Local Open Scope Z_scope.

Inductive syscall : Type := cSocket | cReuse | cBind | cListen | cEpoll | cCtl | cConnect | cHandshake.
Global Instance syscall_eq_dec : EqDecision syscall.
Proof. solve_decision. Defined.

(** ** TcpServer *)

(** tcp_server.cpp:19-50 [CreateSocket] *)
Definition create_socket_text (E : syscall → bytes) (a : answers) (v : srv) (old : bytes) : bytes :=
  if an_socket a <? 0 then B "[syserr]:" ++ E cSocket
  else if negb (an_reuse a) then B "[syserr]:" ++ E cReuse
  else if match addr_ip (sv_addr v) with [] => true | _ => false end || (addr_port (sv_addr v) =? 0)%N
       then B "[logicerr]:ip or port is invalid"
  else if negb (an_bind a) then B "[syserr]:" ++ E cBind
  else old.
(** epoll.cpp:12-19 [Epoll::Init]; 21-35 [MonitorSoc] says nothing when epoll_ctl fails *)
Definition epoll_init_text (E : syscall → bytes) (r : Z) (old : bytes) : bytes :=
  if r <? 0 then B "[syserr]:" ++ E cEpoll else old.
(** tcp_server.cpp:277-322 [InitMode]; the Epoll object is new (line 287) *)
Definition init_mode_text (E : syscall → bytes) (a : answers) (m : mode) (old : bytes) : bytes :=
  match m with
  | kMultiThread => old
  | _ =>
      let io := epoll_init_text E (an_epoll a) [] in
      if an_epoll a <? 0 then B "[syserr]:" ++ io
      else if negb (an_ctl a) then B "[syserr]:" ++ io
      else old
  end.
(** tcp_server.cpp:260-275 [Init] *)
Definition srv_init_text (E : syscall → bytes) (a : answers) (v : srv) (k : kern) (old : bytes) : bytes :=
  let t := create_socket_text E a v old in
  if decide (so_status (create_socket a v k).1 = kInit) then
    if negb (an_listen a) then B "[syserr]:" ++ E cListen else init_mode_text E a (sv_mode v) t
  else t.
(** tcp_server.cpp:61-67 [AddSoc] *)
Definition srv_add_soc_text (s : sock) (old : bytes) : bytes :=
  if decide (so_status s = kInit) then old else B "[logicerr]:soc is not init".
(** tcp_server.cpp:227-258 [WakeUp]; close(2) does not fail *)
Definition srv_wakeup_text (E : syscall → bytes) (r : Z) (ok : bool) (v : srv) (old : bytes) : bytes :=
  if sv_flag v then B "[logicerr]:server is running"
  else match sv_mode v with
       | kIOMultiplexing => old
       | _ => if r <? 0 then B "[syserr]:" ++ E cSocket
              else if ok then old else B "[syserr]:" ++ E cConnect
       end.
(** tcp_server.cpp:119-128, the beginning of [EventLoop] *)
Definition loop_start_text (v : srv) (old : bytes) : bytes :=
  if decide (so_status (sv_lis v) = kInit) then
    if decide (sv_io v = None ∧ sv_mode v ≠ kMultiThread) then B "[logicerr]:io multiplexing not init" else old
  else B "[logicerr]:epfd or listenfd not init".

(** ** HttpServer *)

(** [err_msg_] of the HttpServer and of its TcpServer *)
Record srv_text : Type := SrvText { vt_http : bytes; vt_tcp : bytes }.
(** http_server.cpp:182-194 [Init] *)
Definition http_init_text (E : syscall → bytes) (ad : address) (a : answers) (h : hsrv) (k : kern) (t : srv_text) : srv_text :=
  let tcp := srv_init_text E a (set_addr ad (hs_tcp h)) k (vt_tcp t) in
  if negb ((srv_init a (set_addr ad (hs_tcp h)) k).1.1 =? kSuccess) then SrvText tcp tcp else SrvText (vt_http t) tcp.
(** http_server.cpp:440-456 [InitSSL] *)
Definition http_init_ssl_text (E : syscall → bytes) (ad : address) (c : option (option nat)) (a : answers) (h : hsrv) (k : kern)
    (t : srv_text) : srv_text :=
  if decide (sv_mode (hs_tcp h) = kMixed) then SrvText (B "[logicerr]:mixed mode not support ssl") (vt_tcp t)
  else if decide (c = None) then SrvText (B "[logicerr]:ssl context is nullptr") (vt_tcp t)
  else http_init_text E ad a h k t.
(** http_server.cpp:196-216 [Run], if EventLoop returns at once *)
Definition http_run_text (h : hsrv) (k : kern) (t : srv_text) : srv_text :=
  if negb (hs_go h) then SrvText (B "[logicerr]:server status stop,not init") (vt_tcp t)
  else let tcp := loop_start_text (hs_tcp h) (vt_tcp t) in
       match s_loop (loop_start (hs_tcp h) 0 k) with LRet _ => SrvText tcp tcp | _ => SrvText (vt_http t) tcp end.

(** ** SSLContext and HttpClient *)

(** ssl_context.cpp:22-40 [InitCli] of a new object *)
Definition ctx_init_cli_text (m : memory) (old : bytes) : bytes :=
  if negb (me_method m) then B "[syserr]:create ssl method failed"
  else if negb (me_ctx m) then B "[syserr]:create ssl context failed"
  else old.
(** ssl_context.cpp:168-181 and 153-166 [CreateSSLSocket] *)
Definition create_ssl_socket_text (E : syscall → bytes) (m : memory) (r : Z) (x : option nat) (old : bytes) : bytes :=
  match x with
  | None => B "[loginerr]:ssl context is null"
  | Some _ => if r <? 0 then E cSocket else if me_ssl m then old else B "[syserr]:create ssl failed"
  end.
(** http_client.cpp:7-20 [Init]: if socket(2) has failed, connect(2) is not called
    (socket.cpp:60) and errno is still that of socket(2). *)
Definition client_init_text (E : syscall → bytes) (r rc : Z) (old : bytes) : bytes :=
  if r <? 0 then B "[soc.Connect]:" ++ E cSocket
  else if negb (rc =? 0) then B "[soc.Connect]:" ++ E cConnect
  else old.
(** http_client.cpp:83-102 [InitSSL].  [soc_] is a pointer to Socket, so that line 98 asks
    Socket::err_msg, strerror(errno), not SSLSocket::err_msg; [E cHandshake]: what it says
    when SSL_connect has failed. *)
Definition client_init_ssl_text (E : syscall → bytes) (m : memory) (r rc rc2 : Z) (old : bytes) : bytes :=
  let '(_, x, h1) := ctx_init_cli m None heap0 in
  let '(s, _, _) := create_ssl_socket m r x h1 in
  match s with
  | None => B "[ssl_soc.CreateSSLSocket]:" ++ create_ssl_socket_text E m r x (ctx_init_cli_text m [])
  | Some z =>
      if negb ((ssock_connect rc rc2 z).1 =? kSuccess) then
        B "[ssl_soc.Connect]:" ++ E (if rc <? 0 then cConnect else cHandshake)
      else old
  end.
