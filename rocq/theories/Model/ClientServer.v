(** Model of one HTTP server (HttpSystem.v) and its clients: each client is an
    HttpClient object (http_client.cpp:10-66, Client.v) with a connection of its own,
    used by one thread.

    A call of Send writes its request; the bytes travel to the server in pieces of any
    size; the answer travels back in pieces of any size; Send returns when it has read
    what it needs.  Reading is modelled as in HttpSystem.v: a call that has to wait is
    made again, from where it started, when more has arrived.

    Simplifications: send(2) of a client takes the whole request; a client closes its
    connection (HttpClient::Close, http_client.cpp:68-80) when all it has sent has
    arrived, and does not call Send afterwards (a new Init makes a new client here);
    each call of Send gets a new response object (see C157 for one that is used again);
    an exception that leaves Send leaves the socket where it was. *)
From Verif.Model Require Export Client HttpSystem.

(** A client: bytes of the server's that were read; bytes on their way to the server;
    the call that is going on, with the orders in which it went through the maps; the
    requests of all calls; what the calls that are over came to. *)
Record client : Type := Cli {
  cl_read : nat; cl_flight : bytes; cl_now : option (iter_order * iter_order * req);
  cl_calls : list req; cl_done : list (outcome sent) }.
Definition client_new : client := Cli 0 [] None [] [].

(** [NConnect]: a client is accepted.  [NClose]: it closes its connection.  [NCall]: it
    calls Send.  [NFlow]: the next [n] bytes arrive at the server.  [NServer]: a step of
    the server.  [NReturn]: the call comes back, having seen at most [n] bytes of the
    answer.  [NOther]: a peer that is not one of the clients connects, sends bytes of any
    kind, or closes. *)
Inductive nlab : Type :=
| NConnect (i : nat) | NClose (i : nat) | NCall (i : nat) (hit rit : iter_order) (q : req) | NFlow (i n : nat)
| NServer (l : hlab) | NReturn (i n : nat) | NOther (l : hlab).

Section network.
Context {U : Type}.
Record nsys : Type := NSys { ns_sys : hsys U; ns_clients : gmap nat client }.

Definition n_step (hit : iter_order) (ro : router U) (errmsg : bytes) (s : nsys) (l : nlab) : option nsys :=
  match l with
  | NConnect i =>
      h ← sys_step hit ro errmsg (ns_sys s) (LOpen i);
      Some (NSys h (<[i := client_new]> (ns_clients s)))
  | NClose i =>
      c ← ns_clients s !! i;
      if decide (cl_now c = None ∧ cl_flight c = []) then
        h ← sys_step hit ro errmsg (ns_sys s) (LFin i); Some (NSys h (ns_clients s))
      else None
  | NCall i chit crit q =>                        (* http_client.cpp:22-40 *)
      c ← ns_clients s !! i;
      k ← sy_conns (ns_sys s) !! i;
      match cl_now c, hn_fin k with
      | Some _, _ | _, true => None
      | None, false =>
          let '(rc, q', msg) := req_build chit crit q [] in
          if (rc =? kSuccess)%Z
          then Some (NSys (ns_sys s) (<[i := Cli (cl_read c) (cl_flight c ++ msg) (Some (chit, crit, q))
                                             (cl_calls c ++ [q]) (cl_done c)]> (ns_clients s)))
          else Some (NSys (ns_sys s) (<[i := Cli (cl_read c) (cl_flight c) None (cl_calls c ++ [q])
                                             (cl_done c ++ [Ok (Sent rc q' resp_new (Stream [] Wait) [])])]> (ns_clients s)))
      end
  | NFlow i n =>
      c ← ns_clients s !! i;
      if decide (0 < n ≤ length (cl_flight c)) then
        h ← sys_step hit ro errmsg (ns_sys s) (LSend i (take n (cl_flight c)));
        Some (NSys h (<[i := Cli (cl_read c) (drop n (cl_flight c)) (cl_now c) (cl_calls c) (cl_done c)]> (ns_clients s)))
      else None
  | NServer l =>
      match l with
      | LServe _ _ _ | LResume _ _ | LTimeout _ _ =>
          h ← sys_step hit ro errmsg (ns_sys s) l; Some (NSys h (ns_clients s))
      | _ => None
      end
  | NReturn i n =>                                (* http_client.cpp:41-66 *)
      c ← ns_clients s !! i;
      x ← cl_now c;
      k ← sy_conns (ns_sys s) !! i;
      let '(chit, crit, q) := x in
      let avail := drop (cl_read c) (hn_sent k) in
      let got := take n avail in
      let tail := if hn_open k || (length got <? length avail) then Wait else Eof in
      let done o rest := Some (NSys (ns_sys s)
        (<[i := Cli (cl_read c + (length got - length rest)) (cl_flight c) None (cl_calls c) (cl_done c ++ [o])]>
           (ns_clients s))) in
      match client_send true chit crit (WTake (length (snd (req_build chit crit q [])))) q resp_new
              (Stream (map Byte got) tail) with
      | Blocked => None
      | Ok y => done (Ok y) (bytes_of (sm_items (st_rest y)))
      | o => done o got
      end
  | NOther l =>
      i ← match l with LOpen i | LSend i _ | LFin i => Some i | _ => None end;
      match ns_clients s !! i with
      | Some _ => None
      | None => h ← sys_step hit ro errmsg (ns_sys s) l; Some (NSys h (ns_clients s))
      end
  end.

Fixpoint n_run (hit : iter_order) (ro : router U) (errmsg : bytes) (s : nsys) (ls : list nlab) : option nsys :=
  match ls with
  | [] => Some s
  | l :: ls' => s' ← n_step hit ro errmsg s l; n_run hit ro errmsg s' ls'
  end.
Definition n_new (w : world U) : nsys := NSys (sys_new w) ∅.
End network.
Arguments nsys : clear implicits.
