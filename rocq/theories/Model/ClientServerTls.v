(** Model of one HTTPS server (HttpsSystem.v) and its clients: each client is an
    HttpClient object after InitSSL (http_client.cpp:82-103, ClientTls.v) with a
    connection of its own, used by one thread.  As ClientServer.v, with these
    differences.

    A client that was accepted does its part of the handshake ([YHello]); the server
    waits for it.  A call of Send writes its request, which arrives in TLS records of any
    size; the answer comes back in records of any size, whether or not a record was
    complete when Send began to wait.

    Simplifications: those of ClientServer.v and HttpsSystem.v; SSL_write of a client
    takes the whole request; the handshake of a client is good (the certificate is not
    checked, see DESIGN.md); the part of a record that Send did not ask for counts as not
    read. *)
From Verif.Model Require Export ClientTls ClientServer HttpsSystem.

(** [YConnect]: a client is accepted.  [YHello]: it does its part of the handshake.
    [YClose]: it closes its connection.  [YCall]: it calls Send.  [YFlow]: a record with
    the next [n] bytes arrives at the server.  [YServer]: a step of the server.
    [YReturn]: the call comes back, having seen the records [rs] of the answer.
    [YOther]: a peer that is not one of the clients connects, does something for the
    handshake, sends records of any kind, or closes. *)
Inductive ylab : Type :=
| YConnect (i : nat) | YHello (i : nat) | YClose (i : nat) | YCall (i : nat) (hit rit : iter_order) (q : req)
| YFlow (i n : nat) | YServer (l : xlab) | YReturn (i : nat) (rs : list bytes) | YOther (l : xlab).

Section network.
Context {U : Type}.
Record ysys : Type := YSys { ys_sys : xsys U; ys_clients : gmap nat client }.

Definition y_step (hit : iter_order) (ro : router U) (errmsg : bytes) (s : ysys) (l : ylab) : option ysys :=
  match l with
  | YConnect i =>
      h ← xstep hit ro errmsg (ys_sys s) (XOpen i);
      Some (YSys h (<[i := client_new]> (ys_clients s)))
  | YHello i =>                                   (* http_client.cpp:97, ssl_socket.cpp:40-61 *)
      _ ← ys_clients s !! i;
      h ← xstep hit ro errmsg (ys_sys s) (XHello i true); Some (YSys h (ys_clients s))
  | YClose i =>                                   (* http_client.cpp:68-80 *)
      c ← ys_clients s !! i;
      if decide (cl_now c = None ∧ cl_flight c = []) then
        h ← xstep hit ro errmsg (ys_sys s) (XFin i); Some (YSys h (ys_clients s))
      else None
  | YCall i chit crit q =>                        (* http_client.cpp:22-40 *)
      c ← ys_clients s !! i;
      k ← xs_conns (ys_sys s) !! i;
      if decide (cl_now c = None ∧ tn_fin k = false ∧ tn_hello k = Some true) then
        let '(rc, q', msg) := req_build chit crit q [] in
        if (rc =? kSuccess)%Z
        then Some (YSys (ys_sys s) (<[i := Cli (cl_read c) (cl_flight c ++ msg) (Some (chit, crit, q))
                                           (cl_calls c ++ [q]) (cl_done c)]> (ys_clients s)))
        else Some (YSys (ys_sys s) (<[i := Cli (cl_read c) (cl_flight c) None (cl_calls c ++ [q])
                                           (cl_done c ++ [Ok (Sent rc q' resp_new (Stream [] Wait) [])])]> (ys_clients s)))
      else None
  | YFlow i n =>
      c ← ys_clients s !! i;
      if decide (0 < n ≤ length (cl_flight c)) then
        h ← xstep hit ro errmsg (ys_sys s) (XSend i (take n (cl_flight c)));
        Some (YSys h (<[i := Cli (cl_read c) (drop n (cl_flight c)) (cl_now c) (cl_calls c) (cl_done c)]> (ys_clients s)))
      else None
  | YServer l =>
      match l with
      | XShake _ | XServe _ _ _ | XResume _ _ | XTimeout _ _ =>
          h ← xstep hit ro errmsg (ys_sys s) l; Some (YSys h (ys_clients s))
      | _ => None
      end
  | YReturn i rs =>                               (* http_client.cpp:41-66 *)
      c ← ys_clients s !! i;
      x ← cl_now c;
      k ← xs_conns (ys_sys s) !! i;
      let '(chit, crit, q) := x in
      let avail := drop (cl_read c) (tn_sent k) in
      let got := concat rs in
      if decide (got = take (length got) avail) then
        let tail := if tn_open k || (length got <? length avail) then Wait else Eof in
        let done o rest := Some (YSys (ys_sys s)
          (<[i := Cli (cl_read c + (length got - rest)) (cl_flight c) None (cl_calls c) (cl_done c ++ [o])]>
             (ys_clients s))) in
        match client_send_tls chit crit SwAll q resp_new (Tls [] (Rec <$> rs) tail) with
        | Blocked => None
        | Ok (y, t) => done (Ok y) (tl_size t)
        | Throw x => done (Throw x) (length got)
        | UB => done UB (length got)
        | Diverge => done Diverge (length got)
        | Terminate => done Terminate (length got)
        end
      else None
  | YOther l =>
      i ← match l with XOpen i | XHello i _ | XSend i _ | XFin i => Some i | _ => None end;
      match ys_clients s !! i with
      | Some _ => None
      | None => h ← xstep hit ro errmsg (ys_sys s) l; Some (YSys h (ys_clients s))
      end
  end.

Fixpoint y_run (hit : iter_order) (ro : router U) (errmsg : bytes) (s : ysys) (ls : list ylab) : option ysys :=
  match ls with
  | [] => Some s
  | l :: ls' => s' ← y_step hit ro errmsg s l; y_run hit ro errmsg s' ls'
  end.
Definition y_new (w : world U) : ysys := YSys (xsys_new w) ∅.
End network.
Arguments ysys : clear implicits.
