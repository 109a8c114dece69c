(** C205, C206: the error texts of servers that do not start and of clients that do not
    connect (tcp_server.cpp, http_server.cpp, http_client.cpp). *)
From Verif.Model Require Import LifeMessages.
From Verif.Props Require Import ServerInitProps.

Local Open Scope Z_scope.

(** ** Statements *)

(** Why something did not work: a system call; a wrong use; TLS. *)
Inductive reason : Type := Sys (c : syscall) | Wrong (m : string) | Tls (m : string).
Global Instance reason_eq_dec : EqDecision reason.
Proof. solve_decision. Defined.
(** The text ends with what the system says about that call, after one or two tags; or it
    is the sentence about the wrong use. *)
Definition told (E : syscall → bytes) (r : reason) (t : bytes) : Prop :=
  match r with
  | Sys c => t = B "[syserr]:" ++ E c ∨ t = B "[syserr]:[syserr]:" ++ E c
  | Wrong m => t = B "[logicerr]:" ++ B m
  | Tls m => False
  end.

(** What goes wrong first in TcpServer::Init: the steps in their order. *)
Definition init_steps (m : mode) (ad : address) (a : answers) : list (bool * reason) :=
  [(an_socket a <? 0, Sys cSocket); (negb (an_reuse a), Sys cReuse);
   ((addr_port ad =? 0)%N, Wrong "ip or port is invalid"); (negb (an_bind a), Sys cBind); (negb (an_listen a), Sys cListen)] ++
  match m with kMultiThread => [] | _ => [(an_epoll a <? 0, Sys cEpoll); (negb (an_ctl a), Sys cCtl)] end.
Definition first_wrong (l : list (bool * reason)) : option reason := snd <$> head (filter (fun x => x.1 = true) l).

(** A failed Init says what went wrong. *)
Definition init_says_why_full : Prop := forall E ad a h k t rc h' k', http_init ad a h k = (rc, h', k') ->
  match first_wrong (init_steps (sv_mode (hs_tcp h)) ad a) with
  | None => rc = kSuccess
  | Some r => rc <> kSuccess /\ told E r (vt_http (http_init_text E ad a h k t))
  end.

(** The client: the tags differ. *)
Definition cli_told (E : syscall → bytes) (r : reason) (t : bytes) : Prop :=
  match r with
  | Sys c => t = B "[soc.Connect]:" ++ E c \/ t = B "[ssl_soc.CreateSSLSocket]:" ++ E c \/ t = B "[ssl_soc.Connect]:" ++ E c
  | Wrong m => False
  | Tls m => t = B "[ssl_soc.CreateSSLSocket]:[syserr]:" ++ B m
  end.
Definition cli_steps (r rc : Z) : list (bool * reason) := [(r <? 0, Sys cSocket); (negb (rc =? 0), Sys cConnect)].
Definition cli_ssl_steps (m : memory) (r rc rc2 : Z) : list (bool * reason) :=
  [(negb (me_method m), Tls "create ssl method failed"); (negb (me_ctx m), Tls "create ssl context failed");
   (r <? 0, Sys cSocket); (negb (me_ssl m), Tls "create ssl failed");
   (rc <? 0, Sys cConnect); (rc2 <=? 0, Tls "ssl connect failed")].
Definition client_says_why_full : Prop := forall E m r rc rc2 a c h t rc' a' c' h' tr,
  client_init_ssl m r rc rc2 a c h = (rc', a', c', h', tr) ->
  match first_wrong (cli_ssl_steps m r rc rc2) with
  | None => rc' = kSuccess
  | Some x => rc' <> kSuccess /\ cli_told E x (client_init_ssl_text E m r rc rc2 t)
  end.

(** ** Proofs *)


Lemma ip_given ad : match addr_ip ad with [] => true | _ => false end = false.
Proof. pose proof (ip_not_empty ad). by destruct (addr_ip ad). Qed.

(** ** Theorems *)

(** C205.  Missing: when epoll_ctl fails there is a tag and nothing else. *)
Theorem init_says_why_partial : forall E ad a h k t rc h' k', http_init ad a h k = (rc, h', k') ->
  match first_wrong (init_steps (sv_mode (hs_tcp h)) ad a) with
  | None => rc = kSuccess /\ vt_http (http_init_text E ad a h k t) = vt_http t
  | Some r => rc <> kSuccess /\
      if decide (r = Sys cCtl) then vt_http (http_init_text E ad a h k t) = B "[syserr]:"
      else told E r (vt_http (http_init_text E ad a h k t))
  end.
Proof.
  intros E ad a h k t rc h' k' H. unfold http_init_text. unfold http_init in H.
  unfold srv_init, srv_init_text, create_socket, create_socket_text in *. cbn [set_addr sv_addr sv_mode sv_cb sv_io sv_pool] in *.
  rewrite ip_given in *. unfold first_wrong, init_steps.
  destruct (an_socket a <? 0) eqn:Es.
  { cbn in H |- *. injection H as <- _ _. split; [done|]. by left. }
  destruct (an_reuse a).
  2: { cbn in H |- *. injection H as <- _ _. split; [done|]. by left. }
  destruct (addr_port ad =? 0)%N eqn:Ep.
  { cbn in H |- *. injection H as <- _ _. by split. }
  destruct (an_bind a).
  2: { cbn in H |- *. injection H as <- _ _. split; [done|]. by left. }
  cbn [orb negb fst so_status] in *. rewrite decide_True in * by done.
  destruct (an_listen a).
  2: { cbn in H |- *. injection H as <- _ _. split; [done|]. by left. }
  cbn [negb] in *. unfold init_mode, init_mode_text, epoll_init_text in *. cbn [sv_mode sv_addr sv_lis sv_flag sv_cb sv_io sv_pool] in *.
  unfold epoll_init, sock_of_fd in *.
  destruct (sv_mode (hs_tcp h)); cycle 1; [by cbn in H |- *; injection H as <- _ _|..];
    (destruct (an_epoll a <? 0) eqn:Ee;
     [cbn in H |- *; injection H as <- _ _; split; [done|]; by right|]);
    (destruct (an_ctl a); cbn in H |- *; injection H as <- _ _; by split).
Qed.
(** epoll_ctl fails, for instance with ENOSPC. *)
Definition some_texts (c : syscall) : bytes := match c with cCtl => B "No space left on device" | _ => B "Bad file descriptor" end.
Definition kern0 : kern := Kern ∅ [] ∅ 0.
Theorem init_says_why_refuted : ~ init_says_why_full.
Proof.
  intros H. specialize (H some_texts addr80 (Answers 3 true true true 4 false) (hsrv_new kIOMultiplexing) kern0 (SrvText [] [])).
  destruct (http_init addr80 (Answers 3 true true true 4 false) (hsrv_new kIOMultiplexing) kern0) as [[rc h'] k'].
  specialize (H _ _ _ eq_refl). cbn in H. by destruct H as [_ [H|H]].
Qed.

(** InitSSL says the same, or what was wrong about the call. *)
Theorem init_ssl_says_why : forall E ad c a h k t rc h' k', http_init_ssl ad c a h k = (rc, h', k') ->
  if decide (sv_mode (hs_tcp h) = kMixed) then rc = kNotSupport /\ told E (Wrong "mixed mode not support ssl") (vt_http (http_init_ssl_text E ad c a h k t))
  else if decide (c = None) then rc = kLogicErr /\ told E (Wrong "ssl context is nullptr") (vt_http (http_init_ssl_text E ad c a h k t))
  else vt_http (http_init_ssl_text E ad c a h k t) = vt_http (http_init_text E ad a h k t) /\
       (rc = kSuccess <-> first_wrong (init_steps (sv_mode (hs_tcp h)) ad a) = None).
Proof.
  intros E ad c a h k t rc h' k' H. unfold http_init_ssl, http_init_ssl_text in *.
  destruct (decide (sv_mode (hs_tcp h) = kMixed)); [injection H as <- _ _; by split|].
  destruct (decide (c = None)); [injection H as <- _ _; by split|]. split; [done|].
  destruct (http_init ad a h k) as [[rc1 h1] k1] eqn:E1. pose proof (init_says_why_partial E ad a h k t rc1 h1 k1 E1) as Hw.
  assert (Hrc : rc = rc1). { destruct (negb (rc1 =? kSuccess)) eqn:Eq; [by injection H|]. injection H as <- _ _. apply negb_false_iff in Eq. lia. }
  rewrite Hrc. clear H. destruct (first_wrong _) as [r|].
  - destruct Hw as [Hw _]. split; [done|]. by intros [=].
  - by destruct Hw as [-> _].
Qed.

(** Run, WakeUp and AddSoc.  AddSoc says nothing when epoll_ctl fails: what is read then is
    an old text. *)
Theorem calls_say_why_partial : forall E,
  (forall n h k t rc, http_run n h k = inl rc -> rc = kLogicErr /\ told E (Wrong "server status stop,not init") (vt_http (http_run_text h k t))) /\
  (forall n h k t s rc, http_run n h k = inr s -> s_loop s = LRet rc ->
     rc = kLogicErr /\ (told E (Wrong "epfd or listenfd not init") (vt_http (http_run_text h k t)) \/ told E (Wrong "io multiplexing not init") (vt_http (http_run_text h k t)))) /\
  (forall r ok v k old rc k', srv_wakeup r ok v k = (rc, k') -> rc <> kSuccess ->
     let t := srv_wakeup_text E r ok v old in
     if sv_flag v then told E (Wrong "server is running") t else if r <? 0 then told E (Sys cSocket) t else told E (Sys cConnect) t) /\
  (forall ok s v k old rc k', srv_add_soc ok s v k = Ok (rc, k') -> rc <> kSuccess ->
     if decide (so_status s = kInit) then srv_add_soc_text s old = old else told E (Wrong "soc is not init") (srv_add_soc_text s old)).
Proof.
  intros E. split_and!.
  - intros n h k t rc. unfold http_run, http_run_text. destruct (hs_go h); [done|]. cbn. intros [= <-]. by split.
  - intros n h k t s rc. unfold http_run, http_run_text. destruct (hs_go h); [|done]. cbn [negb]. intros [= <-]. unfold loop_start. cbn [s_loop].
    unfold loop_start_text. destruct (decide (so_status _ = kInit)); [|intros [= <-]; split; [done|]; by left].
    destruct (decide (sv_io _ = None /\ _)); [|done]. intros [= <-]. split; [done|]. by right.
  - intros r ok v k old rc k' H Hrc. unfold srv_wakeup, srv_wakeup_text in *. destruct (sv_flag v); [done|].
    destruct (sv_mode v); [by injection H as <- _|..]; (destruct (r <? 0); [by left|]); (destruct ok; [by injection H as <- _|by left]).
  - intros ok s v k old rc k' H Hrc. unfold srv_add_soc, srv_add_soc_text in *. by destruct (decide (so_status s = kInit)).
Qed.

(** C206.  Init of the client says which system call failed. *)
Theorem client_says_why : forall E r rc a c t rc' a' c' tr, (-1 <= rc <= 0)%Z -> client_init r rc a c = (rc', a', c', tr) ->
  match first_wrong (cli_steps r rc) with
  | None => rc' = kSuccess /\ client_init_text E r rc t = t
  | Some x => rc' <> kSuccess /\ cli_told E x (client_init_text E r rc t)
  end.
Proof.
  intros E r rc a c t rc' a' c' tr Hrc. unfold client_init, client_init_text, first_wrong, cli_steps.
  change kSuccess with 0. unfold sock_call.
  destruct (r <? 0) eqn:Er; [cbn; intros [= <- _ _ _]; split; [done|]; by left|].
  cbn [so_status so_fd sock_new]. rewrite decide_True by done. destruct (rc =? 0) eqn:Ec; cbn [negb].
  - intros [= <- _ _ _]. apply Z.eqb_eq in Ec as ->. by split.
  - intros [= <- _ _ _]. split; [lia|]. by left.
Qed.
(** C206, over TLS.  Missing: if the TLS context cannot be made, the text says that there
    is none, not why; if the handshake fails it is the text of errno. *)
Theorem client_ssl_says_why_partial : forall E m r rc rc2 a c h t rc' a' c' h' tr,
  client_init_ssl m r rc rc2 a c h = (rc', a', c', h', tr) ->
  let said := client_init_ssl_text E m r rc rc2 t in
  match first_wrong (cli_ssl_steps m r rc rc2) with
  | None => rc' = kSuccess /\ said = t
  | Some x => rc' <> kSuccess /\
      if negb (me_method m) || negb (me_ctx m) then said = B "[ssl_soc.CreateSSLSocket]:[loginerr]:ssl context is null"
      else if decide (x = Tls "ssl connect failed") then said = B "[ssl_soc.Connect]:" ++ E cHandshake
      else cli_told E x said
  end.
Proof.
  intros E m r rc rc2 a c h t rc' a' c' h' tr H. unfold client_init_ssl, client_init_ssl_text, first_wrong, cli_ssl_steps in *.
  set (h0 := match hc_ctx c with Some x => (ctx_close x h).2 | None => h end) in H. clearbody h0.
  unfold ctx_init_cli in *. rewrite decide_False in * by tauto.
  destruct m as [mm mc mb ms]. cbn [me_method me_ctx me_ssl me_bio] in *.
  destruct mm; cbn [negb orb] in *; [|injection H as <- _ _ _ _; by split].
  destruct mc; cbn [negb orb] in *; [|injection H as <- _ _ _ _; by split].
  unfold create_ssl_socket, create_ssl_socket_text, create_ssl_socket_on, ctx_init in *.
  destruct (h_new _ h0) as [i h1] eqn:E1. destruct (h_new _ heap0) as [i' h1'] eqn:E1'.
  destruct (r <? 0) eqn:Er; [cbn in H |- *; injection H as <- _ _ _ _; split; [done|]; right; by left|].
  cbn [me_ssl] in *. destruct ms; cbn [negb] in *; [|cbn in H |- *; injection H as <- _ _ _ _; by split].
  destruct (h_new HSsl h1) as [j h2]. destruct (h_new HSsl h1') as [j' h2'].
  unfold ssock_connect, ssock_new in *. cbn [ss_ssl ss_base so_status so_fd] in *. rewrite !decide_False in * by (intros [|]; done).
  destruct (rc <? 0) eqn:Ec; [cbn in H |- *; injection H as <- _ _ _ _; split; [done|]; right; by right|].
  destruct (rc2 <=? 0) eqn:Eh; cbn in H |- *; injection H as <- _ _ _ _; by split.
Qed.
Definition all_memory : memory := Memory true true true true.
Theorem client_says_why_refuted : ~ client_says_why_full.
Proof.
  intros H.
  specialize (H (fun c => match c with cHandshake => B "Success" | _ => [] end) all_memory 3 0 (-1) addr80 hcli_new heap0 []).
  destruct (client_init_ssl _ _ _ _ _ _ _) as [[[[rc' a'] c'] h'] tr]. specialize (H _ _ _ _ _ eq_refl). by destruct H as [_ H].
Qed.
Print Assumptions init_says_why_partial.
Print Assumptions init_says_why_refuted.
Print Assumptions init_ssl_says_why.
Print Assumptions calls_say_why_partial.
Print Assumptions client_says_why.
Print Assumptions client_ssl_says_why_partial.
Print Assumptions client_says_why_refuted.

(** ** Examples *)

(** The port is taken: bind(2) says EADDRINUSE.  A port that needs rights, an address
    without a port.  The second text of the HttpServer. *)
Definition E1 (c : syscall) : bytes :=
  match c with cBind => B "Address already in use" | cSocket => B "Too many open files" | cConnect => B "Connection refused"
             | cCtl => B "No space left on device" | cHandshake => B "Success" | _ => B "Invalid argument" end.
Definition no_port : address := Addr (0, 0)%N (1, 2, 3, 4)%N.
Definition nothing_said : srv_text := SrvText [] [].
Example says_in_use : forall m, vt_http (http_init_text E1 addr80 (Answers 3 true false true 4 true) (hsrv_new m) kern0 nothing_said) = B "[syserr]:Address already in use".
Proof. by intros []. Qed.
Example says_no_port : forall m, vt_http (http_init_text E1 no_port (Answers 3 true true true 4 true) (hsrv_new m) kern0 nothing_said) = B "[logicerr]:ip or port is invalid".
Proof. by intros []. Qed.
(** A number of the wrong kind: the text of a wrong use is a logic error, the number that
    comes back is that of the system. *)
Example says_no_port_number : (http_init no_port (Answers 3 true true true 4 true) (hsrv_new kMixed) kern0).1.1 = kSysErr.
Proof. done. Qed.
(** epoll_create and epoll_ctl: two tags and the reason; one tag and no reason. *)
Example says_epoll :
  vt_http (http_init_text E1 addr80 (Answers 3 true true true (-1) true) (hsrv_new kIOMultiplexing) kern0 nothing_said) = B "[syserr]:[syserr]:Invalid argument" /\
  vt_http (http_init_text E1 addr80 (Answers 3 true true true 4 false) (hsrv_new kIOMultiplexing) kern0 nothing_said) = B "[syserr]:" /\
  vt_http (http_init_text E1 addr80 (Answers 3 true true true (-1) false) (hsrv_new kMultiThread) kern0 nothing_said) = [].
Proof. done. Qed.
(** Run before Init, after Stop. *)
Example says_run : vt_http (http_run_text (hsrv_new kMixed) kern0 nothing_said) = B "[logicerr]:server status stop,not init".
Proof. done. Qed.
(** Nobody listens; no descriptors left; over TLS: the same, no memory for a context (the
    reason is lost), the other side is not a TLS server. *)
Example says_client :
  client_init_text E1 3 (-1) [] = B "[soc.Connect]:Connection refused" /\
  client_init_text E1 (-1) (-1) [] = B "[soc.Connect]:Too many open files" /\
  client_init_ssl_text E1 all_memory (-1) (-1) (-1) [] = B "[ssl_soc.CreateSSLSocket]:Too many open files" /\
  client_init_ssl_text E1 all_memory 3 (-1) (-1) [] = B "[ssl_soc.Connect]:Connection refused" /\
  client_init_ssl_text E1 (Memory true false true true) 3 0 1 [] = B "[ssl_soc.CreateSSLSocket]:[loginerr]:ssl context is null" /\
  client_init_ssl_text E1 all_memory 3 0 0 [] = B "[ssl_soc.Connect]:Success".
Proof. done. Qed.
(** WakeUp of a server that has stopped; AddSoc of a closed connection. *)
Example says_wakeup : forall v, sv_flag v = false -> sv_mode v = kMixed ->
  srv_wakeup_text E1 3 false v [] = B "[syserr]:Connection refused" /\ srv_add_soc_text (Sock 3 kClosed) [] = B "[logicerr]:soc is not init".
Proof. intros v H1 H2. unfold srv_wakeup_text. by rewrite H1, H2. Qed.
