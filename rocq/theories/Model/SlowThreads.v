(** Model of an HTTP server with worker threads whose peers may be slow to read:
    HttpThreads.v with a buffer of [room] bytes between the server and each peer.  A worker
    whose answer does not fit into the buffer waits in send(2) (socket.cpp:197-202; the
    connections are blocking) until the peer has read; the other threads go on.

    Simplifications: as HttpThreads.v; no write time-outs (SlowPeer.v has them); what a
    call does otherwise counts when it begins to write, also the Close after a 400; when
    several workers write to one connection at the same time the order of their bytes is
    not looked at. *)
From Verif.Model Require Export HttpThreads.

(** [QCopy w k]: send(2) of worker [w] copies [k] bytes into the buffer.  [QRecv i n]: peer
    [i] reads [n] bytes. *)
Inductive qlab : Type := QDo (l : tlab) | QCopy (w k : nat) | QRecv (i n : nat).
(** The worker that does a step. *)
Definition actor (l : tlab) : option nat :=
  match l with TPop w | TRecv w | TTimeout w _ | TRun w _ => Some w | _ => None end.

Global Instance wres_eq_dec : EqDecision wres.
Proof. solve_decision. Defined.

Section slow.
Context {U : Type}.
(** [qs_wait]: for each worker that is in send(2) the number, the connection and how many
    bytes are not in the buffer yet; [qs_buf]: bytes in the buffers; [qs_read]: bytes the
    peers have read. *)
Record qsys : Type := QSys {
  qs_sys : tsys U; qs_wait : gmap nat (nat * nat * nat); qs_buf : gmap nat nat; qs_read : gmap nat nat }.
Definition q_new (n : nat) (w : world U) : qsys := QSys (t_new n w) ∅ ∅ ∅.
Definition in_buf (s : qsys) (i : nat) : nat := default 0 (qs_buf s !! i).

Section step.
Context (mixed : bool) (room : nat) (hit : iter_order) (ro : router U) (errmsg : bytes).

(** The number, the connection and the size of what worker [w] is about to write. *)
Definition to_write (s : tsys U) (w : nat) : option (nat * nat * nat) :=
  match ts_workers s !! w with
  | Some (WRead _ f st) =>
      match conn_of s f, finish hit (WTake 0) ro errmsg st (ts_world s) with
      | Some (i, _), Ok (_, texts, _, _) => Some (f, i, length (concat texts))
      | _, _ => None
      end
  | _ => None
  end.
Definition waits (s : qsys) (l : tlab) : bool :=
  match actor l with Some w => bool_decide (is_Some (qs_wait s !! w)) | None => false end.

Definition q_step (s : qsys) (p : qlab) : option qsys :=
  match p with
  | QDo l =>
      if waits s l then None else
      match l with
      | TRun w wr =>
          match to_write (qs_sys s) w with
          | Some (f, i, n) =>
              if decide (wr = WTake n) then
                s' ← t_step mixed hit ro errmsg (qs_sys s) l;
                Some (QSys s' (if n =? 0 then qs_wait s else <[w := (f, i, n)]> (qs_wait s)) (qs_buf s) (qs_read s))
              else None
          | None => s' ← t_step mixed hit ro errmsg (qs_sys s) l; Some (QSys s' (qs_wait s) (qs_buf s) (qs_read s))
          end
      | _ => s' ← t_step mixed hit ro errmsg (qs_sys s) l; Some (QSys s' (qs_wait s) (qs_buf s) (qs_read s))
      end
  | QCopy w k =>
      match qs_wait s !! w with
      | Some (f, i, m) =>
          if decide (0 < k ∧ k ≤ m ∧ in_buf s i + k ≤ room) then
            Some (QSys (qs_sys s) (if k =? m then delete w (qs_wait s) else <[w := (f, i, m - k)]> (qs_wait s))
                       (<[i := in_buf s i + k]> (qs_buf s)) (qs_read s))
          else None
      | None => None
      end
  | QRecv i n =>
      if decide (0 < n ∧ n ≤ in_buf s i) then
        Some (QSys (qs_sys s) (qs_wait s) (<[i := in_buf s i - n]> (qs_buf s))
                   (<[i := default 0 (qs_read s !! i) + n]> (qs_read s)))
      else None
  end.
Fixpoint q_run (s : qsys) (ps : list qlab) : option qsys :=
  match ps with
  | [] => Some s
  | p :: ps' => s' ← q_step s p; q_run s' ps'
  end.
End step.
End slow.
Arguments qsys : clear implicits.
