(** Model of demo/util/process_ctrl.cpp: Guard and EndGuard, with the processes.

    Processes are a table by pid.  One process calls Guard; the others are its
    children, or have nothing to do with it.  What user code does after Guard has
    returned is not modelled, except that the process may end.  Simplifications:
    signal() and sleep() have no other effect; signals that may come are one kind
    (SIGINT, SIGQUIT and SIGTERM have the same handler) and uncatchable ones. *)
From stdpp Require Export gmap.
From Coq Require Export ZArith.

Local Open Scope Z_scope.

(** Where a process is. *)
Inductive ppc : Type :=
| CFork                              (* process_ctrl.cpp:22, before fork *)
| CParent (pid : Z)                  (* 24: fork has returned [pid] <> 0 *)
| CWait (pid : Z)                    (* 26: in waitpid *)
| CCheck (normal : bool) (code : Z)  (* 27: waitpid has returned; WIFEXITED and WEXITSTATUS *)
| CSleep                             (* 34 *)
| CWork                              (* Guard has returned *)
| COther.                            (* another program *)
Global Instance ppc_eq_dec : EqDecision ppc.
Proof. solve_decision. Defined.

(** [pr_var]: the static member child_pid_ of this process (process_ctrl.cpp:56);
    [pr_pending]: one of the three signals has been sent to it. *)
Record proc : Type := Proc { pr_pc : ppc; pr_var : Z; pr_pending : bool; pr_parent : Z }.

(** A call of kill: by whom, its argument, the processes that got the signal. *)
Record killed : Type := Killed { kl_by : Z; kl_arg : Z; kl_hit : list Z }.
(** [ps_zombies]: parent and status of the processes that have ended and were not
    waited for. *)
Record procs : Type := Procs {
  ps_live : gmap Z proc; ps_zombies : gmap Z (Z * (bool * Z)); ps_kills : list killed }.

(** Guard is called by process [g]. *)
Definition guard_start (g : Z) : procs := Procs {[ g := Proc CFork 0 false 1 ]} ∅ [].

Definition set_pc (c : ppc) (q : proc) : proc := Proc c (pr_var q) (pr_pending q) (pr_parent q).
Definition set_live (m : gmap Z proc) (s : procs) : procs := Procs m (ps_zombies s) (ps_kills s).
Definition orphan (p : Z) (q : proc) : proc :=
  if decide (pr_parent q = p) then Proc (pr_pc q) (pr_var q) (pr_pending q) 1 else q.
(** The end of process [p] with this status. *)
Definition leave (p : Z) (st : bool * Z) (s : procs) : procs :=
  match ps_live s !! p with
  | Some q =>
      let rest := delete p (ps_live s) in
      let zs := filter (λ kv, kv.2.1 ≠ p) (ps_zombies s) in
      Procs (orphan p <$> rest)
            (if decide (is_Some (rest !! pr_parent q)) then <[p := (pr_parent q, st)]> zs else zs) (ps_kills s)
  | None => s
  end.

(** kill(v, SIGINT) by process [p]: -1 means every process but itself. *)
Definition kill_hits (p v : Z) (s : procs) : list Z :=
  if decide (v = -1) then filter (λ x, x ≠ p) (map_to_list (ps_live s)).*1
  else if decide (is_Some (ps_live s !! v)) then [v] else [].
Definition hit (l : list Z) (x : Z) (q : proc) : proc :=
  if decide (x ∈ l) then Proc (pr_pc q) (pr_var q) true (pr_parent q) else q.
Definition do_kill (p v : Z) (s : procs) : procs :=
  let l := kill_hits p v s in
  Procs (map_imap (λ x q, Some (hit l x q)) (ps_live s)) (ps_zombies s) (ps_kills s ++ [Killed p v l]).

(** process_ctrl.cpp:42-48 [EndGuard] *)
Definition end_guard (p : Z) (q : proc) (s : procs) : procs :=
  leave p (true, 0) (if decide (pr_var q = 0) then s else do_kill p (pr_var q) s).

(** waitpid(pid, ..): the status of a child that has ended, if there is one;
    [Some None] when it fails because there is no such child. *)
Definition wait_for (p pid : Z) (s : procs) : option (option (Z * (bool * Z))) :=
  let child (x : Z) : bool := bool_decide (pid = -1 ∨ x = pid) in
  match filter (λ kv, kv.2.1 = p ∧ child kv.1 = true) (map_to_list (ps_zombies s)) with
  | (z, (_, st)) :: _ => Some (Some (z, st))
  | [] =>
      match filter (λ kv, pr_parent kv.2 = p ∧ child kv.1 = true) (map_to_list (ps_live s)) with
      | [] => Some None
      | _ => None
      end
  end.

(** Is this pid in use? *)
Definition pid_free (x : Z) (s : procs) : bool :=
  bool_decide (0 < x ∧ x ≠ 1 ∧ ps_live s !! x = None ∧ ps_zombies s !! x = None).

Inductive plabel : Type :=
| PFork (p : Z) (r : option Z)     (* fork; [r]: pid of the child, None if it fails *)
| PAssign (p : Z) | PWaitpid (p : Z) | PCheck (p : Z) | PWake (p : Z)
| PExit (p code : Z)               (* user code or another program ends *)
| PDie (p : Z)                     (* an uncatchable signal, a crash *)
| PSignal (p : Z)                  (* somebody sends one of the three signals *)
| PHandle (p : Z)                  (* the process takes the signal *)
| PSpawn (p : Z).                  (* another program is started *)

(** process_ctrl.cpp:15-40 [Guard] with exit_code_handler [h], and what goes on
    around it.  None: not possible in this state. *)
Definition ps_step (h : option (Z → bool → bool)) (l : plabel) (s : procs) : option procs :=
  match l with
  | PFork p r =>
      q ← ps_live s !! p;
      match pr_pc q, r with
      | CFork, Some c =>
          if pid_free c s then
            Some (set_live (<[p := set_pc (CParent c) q]> (<[c := Proc CWork (pr_var q) false p]> (ps_live s))) s)
          else None
      | CFork, None => Some (set_live (<[p := set_pc (CParent (-1)) q]> (ps_live s)) s)
      | _, _ => None
      end
  | PAssign p =>
      q ← ps_live s !! p;
      match pr_pc q with
      | CParent c => Some (set_live (<[p := Proc (CWait c) c (pr_pending q) (pr_parent q)]> (ps_live s)) s)
      | _ => None
      end
  | PWaitpid p =>
      q ← ps_live s !! p;
      match pr_pc q with
      | CWait c =>
          match wait_for p c s with
          | Some (Some (z, (normal, code))) =>
              Some (Procs (<[p := set_pc (CCheck normal code) q]> (ps_live s)) (delete z (ps_zombies s)) (ps_kills s))
          | Some None => Some (set_live (<[p := set_pc (CCheck true 0) q]> (ps_live s)) s)  (* status is 0 *)
          | None => None
          end
      | _ => None
      end
  | PCheck p =>
      q ← ps_live s !! p;
      match pr_pc q with
      | CCheck normal code =>
          let goes_on := match h with Some f => f code normal | None => true end in
          Some (set_live (<[p := set_pc (if goes_on then CSleep else CWork) q]> (ps_live s)) s)
      | _ => None
      end
  | PWake p =>
      q ← ps_live s !! p;
      if decide (pr_pc q = CSleep) then Some (set_live (<[p := set_pc CFork q]> (ps_live s)) s) else None
  | PExit p code =>
      q ← ps_live s !! p;
      if decide (pr_pc q = CWork ∨ pr_pc q = COther) then Some (leave p (true, code) s) else None
  | PDie p => q ← ps_live s !! p; Some (leave p (false, 0) s)
  | PSignal p =>
      q ← ps_live s !! p; Some (set_live (<[p := Proc (pr_pc q) (pr_var q) true (pr_parent q)]> (ps_live s)) s)
  | PHandle p =>
      q ← ps_live s !! p;
      if pr_pending q then
        if decide (pr_pc q = COther) then Some (leave p (false, 0) s) else Some (end_guard p q s)
      else None
  | PSpawn p => if pid_free p s then Some (set_live (<[p := Proc COther 0 false 1]> (ps_live s)) s) else None
  end.

Fixpoint ps_run (h : option (Z → bool → bool)) (ls : list plabel) (s : procs) : option procs :=
  match ls with
  | [] => Some s
  | l :: ls' => s' ← ps_step h l s; ps_run h ls' s'
  end.
