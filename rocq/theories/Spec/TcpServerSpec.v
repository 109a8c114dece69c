(** What the TcpServer properties talk about. *)
From Verif.Model Require Export TcpServer.

Local Open Scope Z_scope.

(** States that steps allowed by [ok] lead to. *)
Inductive reach (ok : st → label → Prop) (s0 : st) : st → Prop :=
| reach_0 : reach ok s0 s0
| reach_S s l s' : reach ok s0 s → ok s l → step s l = Some s' → reach ok s0 s'.
Definition anything (_ : st) (_ : label) : Prop := True.

(** A server that was initialised in mode [m] and enters EventLoop: its listening
    socket is [l], its epoll descriptor [e], the pool has [n] workers, and other
    parts of the program have the descriptors of [others] open. *)
Definition others_ok (others : gset Z) (l e : Z) : Prop := 0 <= l ∧ 0 <= e ∧ l ≠ e ∧ l ∉ others ∧ e ∉ others.
Definition other_fds (others : gset Z) : gmap Z desc := gset_to_gmap DOther others.
Definition kern0 (others : gset Z) : kern := Kern (other_fds others) [] ∅ 0.
Definition booted (m : mode) (n : nat) (l e : Z) (others : gset Z) : st :=
  match m with
  | kMultiThread =>
      loop_start (Srv m (addr_init (B "127.0.0.1") 80).2 (Sock l kInit) true (Some None) None true) n
        (Kern (<[l := DListen]> (other_fds others)) [] ∅ 0)
  | _ =>
      loop_start (Srv m (addr_init (B "127.0.0.1") 80).2 (Sock l kInit) true (Some None)
                      (Some (Epoll (Sock e kInit) true kLevel kLevel)) (bool_decide (m = kMixed))) n
        (Kern (<[e := DEpoll]> (<[l := DListen]> (other_fds others))) [] {[ l := kLevel ]} 0)
  end.

(** The events that the callback saw for connection [id], in order. *)
Definition call_of (id : nat) (t : entry) : option event :=
  match t with TCall e _ (Some i) => if decide (i = id) then Some e else None | _ => None end.
Definition calls (id : nat) (tr : list entry) : list event := omap (call_of id) tr.
(** How often connection [id] was closed. *)
Definition closes_id (id : nat) (t : entry) : bool :=
  match t with TClose _ (Some (DConn c)) => bool_decide (cn_id c = id) | _ => false end.
Definition closes (id : nat) (tr : list entry) : nat := length (List.filter (closes_id id) tr).
(** Whether connection [id] was accepted. *)
Definition accepted (id : nat) (tr : list entry) : Prop := ∃ fd, TAccepted fd id ∈ tr.
(** A call of close(2) on a number that was not open, or belonged to another part
    of the program. *)
Definition stray (t : entry) : bool :=
  match t with TClose _ None | TClose _ (Some DOther) => true | _ => false end.

(** Accept, then reads, then at most one leave or error. *)
Definition protocol (l : list event) : Prop :=
  l = [] ∨ ∃ n fin, l = kAccept :: replicate n kRead ++ fin ∧ (fin = [] ∨ fin = [kLeave] ∨ fin = [kError]).

(** The callback closes its socket itself. *)
Definition closing (l : label) : bool := match l with ALoop AClose | AWork _ AClose => true | _ => false end.
(** It does not when it is told that the connection has ended. *)
Definition polite (s : st) (l : label) : Prop :=
  closing l = true → match s_loop s with LIn kLeave _ _ | LIn kError _ _ => False | _ => True end.
Definition keeps (s : st) (l : label) : Prop := closing l = false.
(** epoll_ctl does not fail. *)
Definition monitors (s : st) (l : label) : Prop :=
  match s_loop s, l with LMonitor _ _, GLoop AFail => False | _, _ => True end.

(** What epoll reported, what the loop was notified of, and what it still has to
    look at. *)
Definition batches (tr : list entry) : list (Z * mask) := tr ≫= λ t, match t with TBatch evs => evs | _ => [] end.
Definition notified (tr : list entry) : list (Z * ioev) :=
  omap (λ t, match t with TNotify fd e => Some (fd, e) | _ => None end) tr.
Definition cont_evs (k : cont) : list (Z * mask) :=
  match k with KBatch evs | KDrop _ evs | KShut _ evs => evs | KQuit => [] end.
Definition pending (l : lpc) : list (Z * mask) :=
  match l with
  | LBatch evs | LMonitor _ evs | LDrop _ evs | LShut _ evs => evs
  | LIn _ _ k => cont_evs k
  | _ => []
  end.
(** The notification that an event calls for: the end of the connection first,
    then an error, then data. *)
Definition meant (m : mask) : option ioev :=
  match m with
  | Mask _ true _ => Some ioLeave
  | Mask _ false true => Some ioError
  | Mask true false false => Some ioRead
  | Mask false false false => None
  end.
Definition to_notify (l : list (Z * mask)) : list (Z * ioev) := omap (λ x, (x.1,.) <$> meant x.2) l.

(** The thread in EventLoop sleeps, is not inside a user callback, and only a
    signal or a failure of the system call would wake it up. *)
Definition blocked (s : st) : Prop :=
  match s_loop s with
  | LIn _ _ _ | LRet _ => False
  | LSleep | LBatch _ => ∀ x, x ≠ AIntr → x ≠ AFail → loop_step s x = None
  | _ => ∀ x, loop_step s x = None
  end.
(** No worker can move, nor is inside a user callback. *)
Definition workers_blocked (s : st) : Prop :=
  ∀ i, worker_step s i = None ∧ match s_workers s !! i with Some (VIn _ _ _ _) => False | _ => True end.
(** The steps that the server's threads take by themselves. *)
Definition internal (l : label) : Prop :=
  match l with GLoop _ | ALoop _ | GWork _ | AWork _ _ => True | _ => False end.
(** Stop, then a WakeUp that succeeds. *)
Definition woken (s s' : st) : Prop :=
  ∃ s1 r, step s XStop = Some s1 ∧ step s1 (XWake r) = Some s' ∧
    (srv_wakeup r (listening s1) (s_v s1) (s_k s1)).1 = kSuccess.
(** A move of the thread in EventLoop, or the return of the callback it is in. *)
Definition loop_move (l : label) : bool :=
  match l with GLoop AIntr => false | GLoop _ | ALoop AReturn => true | _ => false end.

(** How often [x] was notified; how often the callback was called with event [e]
    and descriptor [fd]; how often a read of [fd] waits in the queue. *)
Definition count {A} (f : A → bool) (l : list A) : nat := length (List.filter f l).
Definition notes (x : Z * ioev) (tr : list entry) : nat := count (λ y, bool_decide (y = x)) (notified tr).
Definition called (e : event) (fd : Z) (tr : list entry) : nat :=
  count (λ t, match t with TCall e' s _ => bool_decide (e' = e) && bool_decide (so_fd s = fd) | _ => false end) tr.
Definition queued (fd : Z) (q : list job) : nat :=
  count (λ j, match j with JRead f => bool_decide (f = fd) | _ => false end) q.
(** Somebody calls Stop or Clean. *)
Definition stopping (l : label) : bool := match l with XStop | XClean | ALoop AStop | AWork _ AStop => true | _ => false end.

(** Every step of a run is allowed. *)
Fixpoint all_ok (ok : st → label → Prop) (s : st) (ls : list label) : Prop :=
  match ls with
  | [] => True
  | l :: ls' => ok s l ∧ match step s l with Some s' => all_ok ok s' ls' | None => True end
  end.
(** No thread is inside a callback or about to do something with a connection. *)
Definition quiet (s : st) : Prop :=
  match s_loop s with LTop | LWait | LSleep | LJoin | LRet _ => True | _ => False end ∧ Forall (λ w, w = VIdle) (s_workers s).
(** The connection that a worker's read callback is about. *)
Definition reading (s : st) (i : nat) (id : nat) : Prop :=
  ∃ soc own once, s_workers s !! i = Some (VIn kRead own soc once) ∧ id_at (s_k s) soc = Some id.
