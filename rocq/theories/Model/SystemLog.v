(** Model of the log of an HTTP server with all its connections (mode kIOMultiplexing,
    without TLS): HttpSystem.v with the calls of the logger in HandleAccept, HandleLeave,
    HandleError (http_server.cpp:228-277) and HandleRead (Messages.v), with the descriptor
    numbers of the connections and TcpServer's [err_msg_].

    Simplifications: as HttpSystem.v; getpeername(2) that fails in HandleLeave leaves the
    address 0.0.0.0:0, so the text of the address there is an argument. *)
From Verif.Model Require Export HttpSystem Messages.

(** A step of the server or of a peer, with what is said in it: [fd] the number of a new
    connection, [peer] the text of the address, [rerr] and [werr] as in Messages.v.
    [GNoAccept]: accept(2) fails; [GNoWatch]: epoll_ctl(2) fails for a new connection;
    [GNoPeer]: getpeername(2) fails for it.  [GError]: EPOLLERR without EPOLLRDHUP
    (epoll.cpp:63). *)
Inductive glab : Type :=
| GStep (l : hlab) (fd : Z) (peer : bytes) (rerr : option bytes) (werr : bytes)
| GNoAccept (why : bytes) | GNoWatch | GNoPeer (why : bytes) | GError (i : nat).

Section log.
Context {U : Type}.
(** [lg_num]: the number of each connection; [lg_err]: [err_msg_] of the TcpServer *)
Record lsys : Type := LSys { lg_sys : hsys U; lg_num : gmap nat Z; lg_err : bytes; lg_log : list log_entry }.
Definition lsys_new (w : world U) : lsys := LSys (sys_new w) ∅ [] [].

(** http_server.cpp:241 *)
Definition accept_entry (fd : Z) (peer : bytes) : log_entry :=
  (kInfo, B "accept from " ++ peer ++ B " soc: " ++ int_to_string fd).
(** http_server.cpp:268 *)
Definition leave_entry (fd : Z) (peer : bytes) : log_entry :=
  (kInfo, B "leave from " ++ peer ++ B " soc: " ++ int_to_string fd).

Section step.
Context (hit : iter_order) (ro : router U) (errmsg : bytes).

(** What HandleRead logs for connection [i]; [more] as in [read_event]. *)
Definition read_entries (rerr : option bytes) (werr : bytes) (wr : wres) (more : list item) (i : nat) (s : lsys) : list log_entry :=
  match sy_conns (lg_sys s) !! i with
  | Some c => (handle_read_log (default 0%Z (lg_num s !! i)) rerr werr hit wr ro (sy_world (lg_sys s))
                (Stream (map Byte (hn_in c) ++ more) (if hn_fin c then Eof else Wait))).1
  | None => []
  end.
Definition entries (s : lsys) (l : hlab) (fd : Z) (peer : bytes) (rerr : option bytes) (werr : bytes) : list log_entry :=
  match l with
  | LOpen _ => [accept_entry fd peer]
  | LSend _ _ | LFin _ => []
  | LServe i true _ => [leave_entry (default 0%Z (lg_num s !! i)) peer]
  | LServe i false wr | LResume i wr => read_entries rerr werr wr [] i s
  | LTimeout i wr => read_entries rerr werr wr [Gap] i s
  end.
(** accept(2) returns a number that is not in use. *)
Definition unused (s : lsys) (fd : Z) : Prop :=
  map_Forall (fun i c => hn_open c = true → lg_num s !! i ≠ Some fd) (sy_conns (lg_sys s)).
Global Instance unused_dec s fd : Decision (unused s fd).
Proof. unfold unused. apply map_Forall_dec. intros i c. apply _. Defined.

Definition say (s : lsys) (es : list log_entry) : lsys := LSys (lg_sys s) (lg_num s) (lg_err s) (lg_log s ++ es).
(** tcp_server.cpp:84, 74: [err_msg_] is set, then HandleError logs it (http_server.cpp:229). *)
Definition fail (s : lsys) (t : bytes) : lsys := LSys (lg_sys s) (lg_num s) t (lg_log s ++ [(kError, t)]).

Definition g_step (s : lsys) (g : glab) : option lsys :=
  match g with
  | GStep l fd peer rerr werr =>
      s' ← sys_step hit ro errmsg (lg_sys s) l;
      let log := lg_log s ++ entries s l fd peer rerr werr in
      match l with
      | LOpen i => if decide (unused s fd) then Some (LSys s' (<[i := fd]> (lg_num s)) (lg_err s) log) else None
      | _ => Some (LSys s' (lg_num s) (lg_err s) log)
      end
  | GNoAccept why =>                              (* tcp_server.cpp:72-77 *)
      if decide (sy_thr (lg_sys s) = TFree) then Some (fail s (B "[syserr]:" ++ why)) else None
  | GNoWatch =>                                   (* 83-89; Epoll::MonitorSoc sets no text *)
      if decide (sy_thr (lg_sys s) = TFree) then Some (fail s (B "[syserr]:")) else None
  | GNoPeer why =>                                (* http_server.cpp:234-240 *)
      if decide (sy_thr (lg_sys s) = TFree) then Some (say s [(kError, B "[event_soc.GetAddr]:" ++ why)]) else None
  | GError i =>                                   (* tcp_server.cpp:111-116, http_server.cpp:229 *)
      c ← sy_conns (lg_sys s) !! i;
      if decide (sy_thr (lg_sys s) = TFree ∧ hn_open c = true) then
        Some (LSys (with_conn (lg_sys s) i (HConn (hn_in c) (hn_fin c) false (hn_out c) (hn_sent c))) (lg_num s) (lg_err s)
                   (lg_log s ++ [(kError, lg_err s)]))
      else None
  end.
Fixpoint g_run (s : lsys) (gs : list glab) : option lsys :=
  match gs with
  | [] => Some s
  | g :: gs' => s' ← g_step s g; g_run s' gs'
  end.
End step.
End log.
Arguments lsys : clear implicits.
