(** Model of one HTTP server with worker threads (HttpThreads.v) and its clients, which
    are those of ClientServer.v: HttpClient objects (http_client.cpp:10-66, Client.v)
    with a connection of its own each, used by one thread each.

    Simplifications: those of HttpThreads.v and ClientServer.v; getpeername(2) works
    for the connections of clients. *)
From Verif.Model Require Export ClientServer HttpThreads.

(** [XConnect]: client [i] is accepted and its connection gets the number [f].
    [XServer]: a step of the server.  [XOther]: a peer that is not one of the clients is
    accepted, sends bytes or closes.  The others are those of ClientServer.v. *)
Inductive xlab : Type :=
| XConnect (i f : nat) | XClose (i : nat) | XCall (i : nat) (hit rit : iter_order) (q : req) | XFlow (i n : nat)
| XServer (l : tlab) | XReturn (i n : nat) | XOther (l : tlab).

Section network.
Context {U : Type}.
Record xsys : Type := XSys { xs_srv : tsys U; xs_clients : gmap nat client }.

(** The server has not closed connection [i]. *)
Definition still_open (s : tsys U) (i : nat) : bool :=
  List.existsb (fun x => x.2 =? i) (map_to_list (ts_fds s)).

Definition x_step (mixed : bool) (hit : iter_order) (ro : router U) (errmsg : bytes) (s : xsys) (l : xlab) : option xsys :=
  match l with
  | XConnect i f =>
      t ← t_step mixed hit ro errmsg (xs_srv s) (TAccept i f true);
      Some (XSys t (<[i := client_new]> (xs_clients s)))
  | XClose i =>                                   (* http_client.cpp:68-80 *)
      c ← xs_clients s !! i;
      if decide (cl_now c = None ∧ cl_flight c = []) then
        t ← t_step mixed hit ro errmsg (xs_srv s) (TFin i); Some (XSys t (xs_clients s))
      else None
  | XCall i chit crit q =>                        (* http_client.cpp:11-40 *)
      c ← xs_clients s !! i;
      k ← ts_conns (xs_srv s) !! i;
      match cl_now c, tn_fin k with
      | None, false =>
          let '(rc, q', msg) := req_build chit crit q [] in
          if (rc =? kSuccess)%Z
          then Some (XSys (xs_srv s) (<[i := Cli (cl_read c) (cl_flight c ++ msg) (Some (chit, crit, q))
                                             (cl_calls c ++ [q]) (cl_done c)]> (xs_clients s)))
          else Some (XSys (xs_srv s) (<[i := Cli (cl_read c) (cl_flight c) None (cl_calls c ++ [q])
                                             (cl_done c ++ [Ok (Sent rc q' resp_new (Stream [] Wait) [])])]> (xs_clients s)))
      | _, _ => None
      end
  | XFlow i n =>
      c ← xs_clients s !! i;
      if decide (0 < n ≤ length (cl_flight c)) then
        t ← t_step mixed hit ro errmsg (xs_srv s) (TSend i (take n (cl_flight c)));
        Some (XSys t (<[i := Cli (cl_read c) (drop n (cl_flight c)) (cl_now c) (cl_calls c) (cl_done c)]> (xs_clients s)))
      else None
  | XServer l =>
      match l with
      | TAccept _ _ _ | TSend _ _ | TFin _ => None
      | _ => t ← t_step mixed hit ro errmsg (xs_srv s) l; Some (XSys t (xs_clients s))
      end
  | XReturn i n =>                                (* http_client.cpp:41-66 *)
      c ← xs_clients s !! i;
      x ← cl_now c;
      k ← ts_conns (xs_srv s) !! i;
      let '(chit, crit, q) := x in
      let avail := drop (cl_read c) (tn_sent k) in
      let got := take n avail in
      let tail := if still_open (xs_srv s) i || (length got <? length avail) then Wait else Eof in
      let done o rest := Some (XSys (xs_srv s)
        (<[i := Cli (cl_read c + (length got - length rest)) (cl_flight c) None (cl_calls c) (cl_done c ++ [o])]>
           (xs_clients s))) in
      match client_send true chit crit (WTake (length (snd (req_build chit crit q [])))) q resp_new
              (Stream (map Byte got) tail) with
      | Blocked => None
      | Ok y => done (Ok y) (bytes_of (sm_items (st_rest y)))
      | o => done o got
      end
  | XOther l =>
      match l with
      | TAccept i _ _ | TSend i _ | TFin i =>
          match xs_clients s !! i with
          | Some _ => None
          | None => t ← t_step mixed hit ro errmsg (xs_srv s) l; Some (XSys t (xs_clients s))
          end
      | _ => None
      end
  end.

Fixpoint x_run (mixed : bool) (hit : iter_order) (ro : router U) (errmsg : bytes) (s : xsys) (ls : list xlab) : option xsys :=
  match ls with
  | [] => Some s
  | l :: ls' => s' ← x_step mixed hit ro errmsg s l; x_run mixed hit ro errmsg s' ls'
  end.
Definition x_new (n : nat) (w : world U) : xsys := XSys (t_new n w) ∅.
End network.
Arguments xsys : clear implicits.
