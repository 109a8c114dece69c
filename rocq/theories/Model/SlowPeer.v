(** Model of an HTTP server whose peers may be slow to read: HttpSystem.v with a buffer of
    [room] bytes between the server and each peer.  The connections are blocking
    (epoll.cpp:21-35: with level trigger no O_NONBLOCK is set), so send(2) in Socket::Write
    (socket.cpp:197-202) returns when all bytes are in the buffer; until then the thread
    serves nobody.  With SetWriteTimeout (http_server.cpp:247-249) it may give up: it returns
    how many bytes went into the buffer, or -1 if none did.

    Simplifications: as HttpSystem.v; what a call does otherwise counts when it begins to
    write (nobody else touches the application's state meanwhile); peers do not reset
    connections; the buffer is that of both hosts together. *)
From Verif.Model Require Export HttpSystem.

(** [PRecv i n]: peer [i] reads [n] bytes.  [PGiveUp]: the write time-out.  What send(2)
    does in [PDo l] is decided by the buffer, not by [l]. *)
Inductive plab : Type := PDo (l : hlab) | PRecv (i : nat) (n : nat) | PGiveUp.

Section slow.
Context {U : Type}.
(** [ps_wait]: the connection of the write that waits, how many bytes it has to do, and
    how many of them are not in the buffer yet; [ps_read]: how many bytes each peer has read. *)
Record psys : Type := PSys { ps_sys : hsys U; ps_wait : option (nat * nat * nat); ps_read : gmap nat nat }.
Definition psys_new (w : world U) : psys := PSys (sys_new w) None ∅.

Section step.
Context (room : nat) (hit : iter_order) (ro : router U) (errmsg : bytes).

Definition whose (l : hlab) : nat :=
  match l with LOpen i | LSend i _ | LFin i | LServe i _ _ | LResume i _ | LTimeout i _ => i end.
Definition by_peer (l : hlab) : bool := match l with LSend _ _ | LFin _ => true | _ => false end.
Definition with_wr (wr : wres) (l : hlab) : hlab :=
  match l with
  | LServe i lv _ => LServe i lv wr | LResume i _ => LResume i wr | LTimeout i _ => LTimeout i wr
  | _ => l
  end.
Definition outs (s : hsys U) (i : nat) : list bytes := match sy_conns s !! i with Some c => hn_out c | None => [] end.
Definition sent (s : hsys U) (i : nat) : bytes := match sy_conns s !! i with Some c => hn_sent c | None => [] end.
(** The text given to Write in step [l]. *)
Definition text_of (s : hsys U) (l : hlab) : bytes :=
  match sys_step hit ro errmsg s (with_wr (WTake 0) l) with
  | Some s' => concat (drop (length (outs s (whose l))) (outs s' (whose l)))
  | None => []
  end.
Definition left_to_copy (s : psys) (i : nat) : nat :=
  match ps_wait s with Some (j, _, m) => if decide (j = i) then m else 0 | None => 0 end.
(** In the buffer of connection [i]. *)
Definition unread (s : psys) (i : nat) : nat :=
  length (sent (ps_sys s) i) - left_to_copy s i - default 0 (ps_read s !! i).

Definition p_step (s : psys) (p : plab) : option psys :=
  match p with
  | PDo l =>
      match ps_wait s with
      | Some _ => if by_peer l then s' ← sys_step hit ro errmsg (ps_sys s) l; Some (PSys s' (ps_wait s) (ps_read s)) else None
      | None =>
          let n := length (text_of (ps_sys s) l) in
          let free := room - unread s (whose l) in
          s' ← sys_step hit ro errmsg (ps_sys s) (with_wr (WTake n) l);
          Some (PSys s' (if n <=? free then None else Some (whose l, n, n - free)) (ps_read s))
      end
  | PRecv i n =>
      if decide (0 < n ∧ n ≤ unread s i) then
        Some (PSys (ps_sys s)
                   (match ps_wait s with
                    | Some (j, t, m) => if decide (j = i) then if m <=? n then None else Some (j, t, m - n) else ps_wait s
                    | None => None
                    end)
                   (<[i := default 0 (ps_read s !! i) + n]> (ps_read s)))
      else None
  | PGiveUp =>
      '(i, t, m) ← ps_wait s;
      c ← sy_conns (ps_sys s) !! i;
      Some (PSys (with_conn (ps_sys s) i
                    (HConn (hn_in c) (hn_fin c) (hn_open c && negb (m =? t)) (hn_out c)
                           (take (length (hn_sent c) - m) (hn_sent c)))) None (ps_read s))
  end.
Fixpoint p_run (s : psys) (ps : list plab) : option psys :=
  match ps with
  | [] => Some s
  | p :: ps' => s' ← p_step s p; p_run s' ps'
  end.
End step.
End slow.
Arguments psys : clear implicits.
