(** Model of src/cppnet/utils/threadpool.cpp and threadpool.hpp.

    A pool and the threads that use it, as a transition system: a label says
    which thread makes its next step; the state after any finite sequence of
    labels is a reachable state.  Every access to something another thread can
    change without holding the mutex ([is_continue_], [busy_now_], the set of
    sleeping workers) is a step of its own; what happens between two such
    accesses while the mutex is held is one step.

    Simplifications: a task is an identity (or a null function); running it takes
    any amount of time but ends, and it does not throw; the accesses of Init and
    Resize to [thread_num_] and [threads_] (plain members) are steps like the
    others; numbers of threads are unbounded; [err_msg_] is not modelled. *)
From Verif.Model Require Export Const.

(** [None] is a task whose function is null. *)
Definition task : Type := option nat.

(** Where a worker is (threadpool.cpp:52-79 [ThreadPool::Worker]). *)
Inductive wpc : Type :=
| WTop                (* line 57, wants the mutex *)
| WTest               (* 58, has it *)
| WPred               (* 59-60, has it, about to evaluate the predicate *)
| WBlock              (* 59, has it, the predicate was false *)
| WAsleep             (* 59, released it, waits for a notification *)
| WWoken              (* 59, wants the mutex back *)
| WAfter              (* 63, has the mutex *)
| WTake               (* 66-71, has the mutex *)
| WGot (t : task)     (* 73 *)
| WCounted (t : task) (* 74 *)
| WIn (t : task)      (* 75, inside the task *)
| WOut                (* 77 *)
| WDone               (* 64, returned *)
| WJoined.            (* and was joined *)

(** What a caller of Stop does after it: nothing, the rest of Resize (lines
    18-20), the rest of the destructor (threadpool.hpp:29: the members are
    destroyed). *)
Inductive after_stop : Type := KReturn | KResize (n : nat) | KDestroy.

(** What a call returned; for Stop also whether it got past line 40. *)
Inductive result : Type :=
| RAdd (rc : Z) | RStop (joined : bool) | RResize | RInit | RDestroy | RNum (busy tasks : nat).

(** Where a thread that called a member function is. *)
Inductive cpc : Type :=
| CAdd (t : task)     (* 25 *)
| CAddLock (t : task) (* 29 *)
| CAddPush (t : task) (* 30 *)
| CAddNotify          (* 31 *)
| CAddUnlock          (* 32 *)
| CResize (n : nat)   (* 15 *)
| CStop (k : after_stop)       (* 36 *)
| CStopSet (k : after_stop)    (* 39 *)
| CStopNotify (k : after_stop) (* 40 *)
| CStopJoin (i : nat) (k : after_stop)  (* 41-43 *)
| CClear (n : nat) (r : result)  (* 7-11 and 19-20 *)
| CDestroy            (* ~vector<std::thread> *)
| CNum                (* 47 *)
| CNumRead            (* 48-49 *)
| CRet (r : result).

Inductive tid : Type := TW (i : nat) | TC (j : nat).
Global Instance tid_eq_dec : EqDecision tid.
Proof. solve_decision. Defined.
Global Instance wpc_eq_dec : EqDecision wpc.
Proof. solve_decision. Defined.
Global Instance after_stop_eq_dec : EqDecision after_stop.
Proof. solve_decision. Defined.
Global Instance result_eq_dec : EqDecision result.
Proof. solve_decision. Defined.
Global Instance cpc_eq_dec : EqDecision cpc.
Proof. solve_decision. Defined.

(** threadpool.hpp:60-66.  The last three fields are not in the code: they
    record, in order, what was pushed, what was popped, and what was called. *)
Record pool : Type := Pool {
  p_queue : list task; p_cont : bool; p_lock : option tid; p_busy : nat; p_num : nat;
  p_workers : list wpc; p_callers : list cpc;
  p_crashed : bool;                (* std::terminate or undefined behaviour *)
  p_accepted : list task; p_taken : list task; p_called : list task }.

(** threadpool.hpp:28 [ThreadPool()] *)
Definition pool_new : pool := Pool [] true None 0 0 [] [] false [] [] [].

Definition set_worker (s : pool) (i : nat) (w : wpc) : pool :=
  Pool (p_queue s) (p_cont s) (p_lock s) (p_busy s) (p_num s) (<[i := w]> (p_workers s)) (p_callers s)
       (p_crashed s) (p_accepted s) (p_taken s) (p_called s).
Definition set_caller (s : pool) (j : nat) (c : cpc) : pool :=
  Pool (p_queue s) (p_cont s) (p_lock s) (p_busy s) (p_num s) (p_workers s) (<[j := c]> (p_callers s))
       (p_crashed s) (p_accepted s) (p_taken s) (p_called s).
Definition set_lock (s : pool) (l : option tid) : pool :=
  Pool (p_queue s) (p_cont s) l (p_busy s) (p_num s) (p_workers s) (p_callers s)
       (p_crashed s) (p_accepted s) (p_taken s) (p_called s).
Definition set_busy (s : pool) (b : nat) : pool :=
  Pool (p_queue s) (p_cont s) (p_lock s) b (p_num s) (p_workers s) (p_callers s)
       (p_crashed s) (p_accepted s) (p_taken s) (p_called s).
Definition crash (s : pool) : pool :=
  Pool (p_queue s) (p_cont s) (p_lock s) (p_busy s) (p_num s) (p_workers s) (p_callers s)
       true (p_accepted s) (p_taken s) (p_called s).
Definition push (s : pool) (t : task) : pool :=
  Pool (p_queue s ++ [t]) (p_cont s) (p_lock s) (p_busy s) (p_num s) (p_workers s) (p_callers s)
       (p_crashed s) (p_accepted s ++ [t]) (p_taken s) (p_called s).
Definition pop (s : pool) (t : task) (q : list task) : pool :=
  Pool q (p_cont s) (p_lock s) (p_busy s) (p_num s) (p_workers s) (p_callers s)
       (p_crashed s) (p_accepted s) (p_taken s ++ [t]) (p_called s).
Definition log_call (s : pool) (t : task) : pool :=
  Pool (p_queue s) (p_cont s) (p_lock s) (p_busy s) (p_num s) (p_workers s) (p_callers s)
       (p_crashed s) (p_accepted s) (p_taken s) (p_called s ++ [t]).
Definition set_cont (s : pool) (b : bool) : pool :=
  Pool (p_queue s) b (p_lock s) (p_busy s) (p_num s) (p_workers s) (p_callers s)
       (p_crashed s) (p_accepted s) (p_taken s) (p_called s).
Definition set_workers (s : pool) (n : nat) (ws : list wpc) : pool :=
  Pool (p_queue s) (p_cont s) (p_lock s) (p_busy s) n ws (p_callers s)
       (p_crashed s) (p_accepted s) (p_taken s) (p_called s).

(** The mutex is free. *)
Definition free (s : pool) : bool := bool_decide (p_lock s = None).
Definition is_empty (q : list task) : bool := match q with [] => true | _ => false end.

(** threadpool.cpp:52-79 [ThreadPool::Worker], one step of worker [i]; [None]:
    it cannot move. *)
Definition worker_step (s : pool) (i : nat) : option pool :=
  match p_workers s !! i with
  | Some WTop => if free s then Some (set_worker (set_lock s (Some (TW i))) i WTest) else None
  | Some WTest => Some (set_worker s i (if p_cont s && is_empty (p_queue s) then WPred else WAfter))
  | Some WPred => Some (set_worker s i (if negb (is_empty (p_queue s)) || negb (p_cont s) then WAfter else WBlock))
  | Some WBlock => Some (set_worker (set_lock s None) i WAsleep)
  | Some WAsleep => None
  | Some WWoken => if free s then Some (set_worker (set_lock s (Some (TW i))) i WPred) else None
  | Some WAfter => if p_cont s then Some (set_worker s i WTake) else Some (set_worker (set_lock s None) i WDone)
  | Some WTake =>
      match p_queue s with
      | [] => Some (set_worker (set_lock s None) i WTop)
      | t :: q => Some (set_worker (set_lock (pop s t q) None) i (WGot t))
      end
  | Some (WGot t) => Some (set_worker (set_busy s (p_busy s + 1)) i (WCounted t))
  | Some (WCounted t) =>
      Some (set_worker (log_call s t) i (match t with None => WOut | Some _ => WIn t end))
  | Some (WIn t) => Some (set_worker s i WOut)
  | Some WOut => Some (set_worker (set_busy s (p_busy s - 1)) i WTop)
  | Some WDone | Some WJoined | None => None
  end.

Definition wake (w : wpc) : wpc := match w with WAsleep => WWoken | _ => w end.
Definition asleep (w : wpc) : bool := match w with WAsleep => true | _ => false end.

(** Where a thread goes when Stop returns. *)
Definition stop_next (k : after_stop) (joined : bool) : cpc :=
  match k with
  | KReturn => CRet (RStop joined)
  | KResize n => CClear n RResize
  | KDestroy => CDestroy
  end.

Definition joined (w : wpc) : bool := match w with WJoined => true | _ => false end.

(** threadpool.cpp:6-50, one step of the thread of call [j]; [k] is the sleeping
    worker that notify_one picks (if any sleeps). *)
Definition caller_step (s : pool) (j k : nat) : option pool :=
  match p_callers s !! j with
  | Some (CAdd t) =>
      Some (set_caller s j (if negb (p_cont s) || (p_num s =? 0) then CRet (RAdd kLogicErr) else CAddLock t))
  | Some (CAddLock t) => if free s then Some (set_caller (set_lock s (Some (TC j))) j (CAddPush t)) else None
  | Some (CAddPush t) => Some (set_caller (push s t) j CAddNotify)
  | Some CAddNotify =>
      if existsb asleep (p_workers s) then
        match p_workers s !! k with
        | Some WAsleep => Some (set_caller (set_worker s k WWoken) j CAddUnlock)
        | _ => None
        end
      else Some (set_caller s j CAddUnlock)
  | Some CAddUnlock => Some (set_caller (set_lock s None) j (CRet (RAdd kSuccess)))
  | Some (CResize n) =>
      Some (set_caller s j (if (p_num s =? n) || (n =? 0) then CRet RResize else CStop (KResize n)))
  | Some (CStop k) => Some (set_caller s j (if negb (p_cont s) then stop_next k false else CStopSet k))
  | Some (CStopSet k) => Some (set_caller (set_cont s false) j (CStopNotify k))
  | Some (CStopNotify k) =>
      Some (set_caller (set_workers s (p_num s) (map wake (p_workers s))) j (CStopJoin 0 k))
  | Some (CStopJoin i k) =>
      match p_workers s !! i with
      | None => Some (set_caller s j (stop_next k true))
      | Some WDone => Some (set_caller (set_worker s i WJoined) j (CStopJoin (S i) k))
      | Some WJoined => Some (crash s)            (* joined twice *)
      | Some _ => None
      end
  | Some (CClear n r) =>
      if forallb joined (p_workers s) then Some (set_caller (set_workers s n (replicate n WTop)) j (CRet r))
      else Some (crash s)                         (* a joinable std::thread is destroyed *)
  | Some CDestroy =>
      if forallb joined (p_workers s) then Some (set_caller s j (CRet RDestroy)) else Some (crash s)
  | Some CNum => if free s then Some (set_caller (set_lock s (Some (TC j))) j CNumRead) else None
  | Some CNumRead =>
      Some (set_caller (set_lock s None) j (CRet (RNum (p_busy s) (length (p_queue s)))))
  | Some (CRet _) | None => None
  end.

(** Calls. *)
Inductive call : Type := OpInit (n : nat) | OpResize (n : nat) | OpAdd (t : task) | OpStop | OpDestroy | OpNum.
Definition start (o : call) : cpc :=
  match o with
  | OpInit n => CClear n RInit | OpResize n => CResize n | OpAdd t => CAdd t
  | OpStop => CStop KReturn | OpDestroy => CStop KDestroy | OpNum => CNum
  end.

Inductive label : Type :=
| LWorker (i : nat)               (* worker i makes a step *)
| LCaller (j k : nat)             (* call j makes a step *)
| LCall (o : call)                (* some thread makes a new call *)
| LSpurious (i : nat).            (* sleeping worker i wakes up for no reason *)

Definition step (s : pool) (l : label) : option pool :=
  if p_crashed s then None else
  match l with
  | LWorker i => worker_step s i
  | LCaller j k => caller_step s j k
  | LCall o =>
      Some (Pool (p_queue s) (p_cont s) (p_lock s) (p_busy s) (p_num s) (p_workers s)
                 (p_callers s ++ [start o]) (p_crashed s) (p_accepted s) (p_taken s) (p_called s))
  | LSpurious i => match p_workers s !! i with Some WAsleep => Some (set_worker s i WWoken) | _ => None end
  end.

Fixpoint run (s : pool) (ls : list label) : option pool :=
  match ls with
  | [] => Some s
  | l :: ls' => match step s l with Some s' => run s' ls' | None => None end
  end.
