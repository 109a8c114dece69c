(** What the thread pool properties talk about: states that some sequence of
    steps and calls leads to, and where its threads are in them. *)
From Verif.Model Require Export ThreadPool.

(** The states of a pool in a running program: it is constructed, then its member
    functions are called by any threads at any time. *)
Definition reachable (s : pool) : Prop := ∃ ls, run pool_new ls = Some s.

(** A worker is executing a task. *)
Definition inside (w : wpc) : bool := match w with WIn _ => true | _ => false end.
(** A worker has no task. *)
Definition taskless (w : wpc) : bool :=
  match w with WGot _ | WCounted _ | WIn _ | WOut | WDone | WJoined => false | _ => true end.
(** A worker waits to be notified. *)
Definition sleeps (w : wpc) : bool := match w with WAsleep => true | _ => false end.

Definition how_many (f : wpc → bool) (s : pool) : nat := length (List.filter f (p_workers s)).

(** Nothing but a new call (or a spurious wake-up) can happen any more. *)
Definition quiet (s : pool) : Prop :=
  ∀ l, match l with LWorker _ | LCaller _ _ => step s l = None | _ => True end.
(** A step of a worker or of a call under way. *)
Definition internal (l : label) : Prop :=
  match l with LWorker _ | LCaller _ _ => True | LCall _ | LSpurious _ => False end.

(** A call that is in Stop, Resize, Init or the destructor. *)
Definition stopper (c : cpc) : bool :=
  match c with
  | CResize _ | CStop _ | CStopSet _ | CStopNotify _ | CStopJoin _ _ | CClear _ _ | CDestroy => true
  | _ => false
  end.
(** Not a new call of these. *)
Definition plain (l : label) : Prop :=
  match l with LCall (OpInit _) | LCall (OpResize _) | LCall OpStop | LCall OpDestroy => False | _ => True end.
(** Not a call that asks for more than one worker. *)
Definition small_call (o : call) : Prop := match o with OpInit n | OpResize n => n ≤ 1 | _ => True end.
Definition small_label (l : label) : Prop := match l with LCall o => small_call o | _ => True end.
