(** Model of the life cycle of HttpServer (src/cppnet/http/server/http_server.cpp:
    Init, InitSSL, Run, Stop; HandleAccept, HandleLeave and HandleError as far as
    TLS sessions are concerned) and of HttpClient
    (src/cppnet/http/client/http_client.cpp: Init, InitSSL, Close).

    Simplifications: logging, time-outs and [err_msg_] are not modelled; the
    SSLContext given to InitSSL is [ssl_ctx_] and belongs to the caller; the entry
    of the map for a connection is changed by the thread that runs the callback,
    one callback at a time (kIOMultiplexing). *)
From Verif.Model Require Export TcpServer Ssl.

Local Open Scope Z_scope.

(** ** HttpServer *)

(** http_server.hpp:227 and the members [is_continue_], [server_]; [hs_ctx]: the
    pointer [ssl_context_], and [ssl_ctx_] of the object it points to. *)
Record hsrv : Type := Hsrv { hs_go : bool; hs_tcp : srv; hs_ctx : option (option nat) }.
Definition hsrv_new (m : mode) : hsrv := Hsrv false (srv_new m addr_new) None.
(** tcp_server.hpp [set_addr] *)
Definition set_addr (ad : address) (v : srv) : srv :=
  Srv (sv_mode v) ad (sv_lis v) (sv_flag v) (sv_cb v) (sv_io v) (sv_pool v).

(** http_server.cpp:182-194 [Init]; callback 0 stands for EventFunc *)
Definition http_init (ad : address) (a : answers) (h : hsrv) (k : kern) : Z * hsrv * kern :=
  let '(rc, v, k1) := srv_init a (set_addr ad (hs_tcp h)) k in
  if negb (rc =? kSuccess) then (rc, Hsrv true v (hs_ctx h), k1)
  else (kSuccess, Hsrv true (srv_register (Some (Some 0%nat)) v) (hs_ctx h), k1).
(** http_server.cpp:440-456 [InitSSL]; [c]: the second argument *)
Definition http_init_ssl (ad : address) (c : option (option nat)) (a : answers) (h : hsrv) (k : kern)
    : Z * hsrv * kern :=
  if decide (sv_mode (hs_tcp h) = kMixed) then (kNotSupport, h, k)
  else if decide (c = None) then (kLogicErr, h, k)
  else
    let '(rc, h1, k1) := http_init ad a h k in
    if negb (rc =? kSuccess) then (rc, h1, k1) else (kSuccess, Hsrv (hs_go h1) (hs_tcp h1) c, k1).
(** http_server.cpp:196-216 [Run]: refuses, or enters TcpServer::EventLoop *)
Definition http_run (n : nat) (h : hsrv) (k : kern) : Z + st :=
  if negb (hs_go h) then inl kLogicErr else inr (loop_start (hs_tcp h) n k).
(** http_server.cpp:218-226 [Stop] by a thread while no other uses the server;
    [r]: socket(2), [ok]: connect(2) in WakeUp *)
Definition http_stop (r : Z) (ok : bool) (h : hsrv) (k : kern) : hsrv * kern :=
  if negb (hs_go h) then (h, k)
  else
    let v1 := srv_stop (hs_tcp h) in
    let '(_, k1) := srv_wakeup r ok v1 k in
    let '(v2, k2) := srv_clean v1 k1 in
    (Hsrv false v2 (hs_ctx h), k2).

(** A caller's calls. *)
Inductive hop : Type :=
| HInit (ad : address) (a : answers) | HInitSSL (ad : address) (c : option (option nat)) (a : answers)
| HStop (r : Z) (ok : bool).
Definition hop_step (o : hop) (h : hsrv) (k : kern) : Z * hsrv * kern :=
  match o with
  | HInit ad a => http_init ad a h k
  | HInitSSL ad c a => http_init_ssl ad c a h k
  | HStop r ok => let '(h', k') := http_stop r ok h k in (kSuccess, h', k')
  end.

(** ** TLS sessions of the server *)

(** [ssl_sockets_map_] (http_server.hpp:228) and OpenSSL's objects. *)
Record tstate : Type := Tst { t_map : gmap Z ssock; t_heap : heap }.
(** Callbacks for the descriptor [fd] of a connection.  [VAcc]: GetAddr succeeds or
    not, memory, the result of SSL_accept; [VRead]: HandleRead ends by closing the
    connection or not. *)
Inductive tev : Type :=
| VAcc (fd : Z) (addr_ok : bool) (m : memory) (rc : Z) | VRead (fd : Z) (closes : bool) | VLeave (fd : Z) | VError (fd : Z).
(** What a callback did: the state, the session it read from, whether it closed
    the descriptor. *)
Record tdone : Type := Tdone { td_st : tstate; td_used : option (option nat); td_closed : bool }.

(** [x]: [ssl_ctx_] of the server's context.
    http_server.cpp:232-263 [HandleAccept]; 283-296 and the closing paths of
    [HandleRead] (299-411); 265-277 [HandleLeave]; 228-230 [HandleError] *)
Definition tls_step (x : option nat) (s : tstate) (e : tev) : tdone :=
  match e with
  | VAcc fd addr_ok m rc =>
      if negb addr_ok then Tdone s None true
      else
        match accept_ssl m rc (sock_of_fd fd) x (t_heap s) with
        | (None, h') => Tdone (Tst (t_map s) h') None true
        | (Some z, h') => Tdone (Tst (<[fd := z]> (t_map s)) h') None false
        end
  | VRead fd closes =>
      match t_map s !! fd with
      | None => Tdone s None true
      | Some z =>
          if closes then
            let '(_, z', h', _) := ssock_close z (t_heap s) in Tdone (Tst (<[fd := z']> (t_map s)) h') (Some (ss_ssl z)) true
          else Tdone s (Some (ss_ssl z)) false
      end
  | VLeave fd =>
      match t_map s !! fd with
      | None => Tdone s None false
      | Some z => let '(_, _, h', _) := close_ssl z (t_heap s) in Tdone (Tst (delete fd (t_map s)) h') None false
      end
  | VError fd => Tdone s None false
  end.

(** ** HttpClient *)

(** What [soc_] points to. *)
Inductive csoc : Type := CPlain (s : sock) | CTls (s : ssock).
(** http_client.hpp: [soc_] and [ssl_context_] with its [ssl_ctx_] *)
Record hcli : Type := Hcli { hc_soc : option csoc; hc_ctx : option (option nat) }.
Definition hcli_new : hcli := Hcli None None.
(** The system calls. *)
Inductive cact : Type := JSocket (fd : Z) | JConnect (fd : Z) (a : address) | JClose (fd : Z).
Global Instance ip4_eq_dec : EqDecision ip4.
Proof. unfold ip4. apply _. Defined.
Global Instance address_eq_dec : EqDecision address.
Proof. solve_decision. Defined.
Global Instance cact_eq_dec : EqDecision cact.
Proof. solve_decision. Defined.

(** http_client.cpp:8-11, 85-88 *)
Definition default_port (p : N) (a : address) : address :=
  if (addr_port a =? 0)%N then (addr_init (addr_ip a) p).2 else a.
(** http_client.cpp:7-20 [Init]: return code, the caller's address, the object, the
    system calls; [r]: socket(2) (its result is not looked at), [rc]: connect(2) *)
Definition client_init (r rc : Z) (a : address) (c : hcli) : Z * address * hcli * list cact :=
  let a' := default_port 80 a in
  let '(_, s, _) := sock_call OInit r sock_new in
  let '(rc', s', _) := sock_call OConnect rc s in
  (if negb (rc' =? kSuccess) then rc' else 0, a', Hcli (Some (CPlain s')) (hc_ctx c),
   (if r <? 0 then [] else [JSocket r]) ++ (if decide (so_status s = kInit) then [JConnect (so_fd s) a'] else [])).
(** http_client.cpp:83-102 [InitSSL]; [rc]: connect(2), [rc2]: SSL_connect.  The
    SSLContext of an earlier call is destroyed in line 89. *)
Definition client_init_ssl (m : memory) (r rc rc2 : Z) (a : address) (c : hcli) (h : heap)
    : Z * address * hcli * heap * list cact :=
  let a' := default_port 443 a in
  let h0 := match hc_ctx c with Some x => (ctx_close x h).2 | None => h end in
  let '(_, x, h1) := ctx_init_cli m None h0 in
  let '(s, h2, tr) := create_ssl_socket m r x h1 in
  let made := match tr with [] => [] | _ => [JSocket r] end in
  match s with
  | None => (kLogicErr, a', Hcli None (Some x), h2, made)
  | Some z =>
      let '(rc', t) := ssock_connect rc rc2 z in
      (if negb (rc' =? kSuccess) then rc' else 0, a', Hcli (Some (CTls z)) (Some x), h2,
       made ++ (match t with [] => [] | _ => [JConnect (so_fd (ss_base z)) a'] end))
  end.
(** http_client.cpp:68-80 [Close]; line 76 casts [soc_] to SSLSocket, line 77 calls
    a member function of the result, which is null for a Socket. *)
Definition client_close (c : hcli) (h : heap) : outcome (hcli * heap * list cact) :=
  match hc_soc c with
  | None => Ok (c, h, [])
  | Some (CPlain s) =>
      let '(_, s', sc) := sock_call OClose 0 s in
      let tr := if decide (sc = []) then [] else [JClose (so_fd s)] in
      match hc_ctx c with
      | None => Ok (Hcli (Some (CPlain s')) None, h, tr)
      | Some _ => UB
      end
  | Some (CTls z) =>
      let '(_, z', h1, t) := ssock_close z h in
      let tr := match t with [] => [] | _ => [JClose (so_fd (ss_base z))] end in
      match hc_ctx c with
      | None => Ok (Hcli (Some (CTls z')) None, h1, tr)
      | Some x =>
          let '(_, x', h2) := ctx_close x h1 in
          let '(_, z2, h3, _) := close_ssl z' h2 in
          Ok (Hcli (Some (CTls z2)) (Some x'), h3, tr)
      end
  end.

(** A caller's calls, and the destructor (http_client.hpp:17): Close, then the
    members are destroyed, which closes the SSLContext. *)
Inductive ccop : Type :=
| CInit (r rc : Z) (a : address) | CInitSSL (m : memory) (r rc rc2 : Z) (a : address) | CClose.
Definition ccop_step (o : ccop) (c : hcli) (h : heap) : outcome (hcli * heap * list cact) :=
  match o with
  | CInit r rc a => let '(_, _, c', tr) := client_init r rc a c in Ok (c', h, tr)
  | CInitSSL m r rc rc2 a => let '(_, _, c', h', tr) := client_init_ssl m r rc rc2 a c h in Ok (c', h', tr)
  | CClose => client_close c h
  end.
Fixpoint client_run (ops : list ccop) (c : hcli) (h : heap) : outcome (hcli * heap * list cact) :=
  match ops with
  | [] => Ok (c, h, [])
  | o :: ops' =>
      r ← ccop_step o c h;
      let '(c1, h1, t1) := r in
      r' ← client_run ops' c1 h1;
      let '(c2, h2, t2) := r' in Ok (c2, h2, t1 ++ t2)
  end.
Definition client_destroy (c : hcli) (h : heap) : outcome (heap * list cact) :=
  r ← client_close c h;
  let '(c1, h1, tr) := r in
  Ok (match hc_ctx c1 with Some x => (ctx_close x h1).2 | None => h1 end, tr).
