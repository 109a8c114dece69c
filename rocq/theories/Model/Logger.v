(** Model of src/cppnet/log: logger.hpp, std_logger.hpp, multi_logger.cpp and
    file_logger.cpp.

    A FileLogger is a transition system of the thread that logs, the flush thread
    (the single worker of its ThreadPool, seen as a FIFO queue: C52, C55) and the
    file system.  A log call is one step: of what it touches the flush thread can
    touch only [need_flush] of the next buffer (atomic, read once) and
    [last_flush_time] (C91).  FlushBuffer is several steps.

    Simplifications: GetNowTime (a text) and time() are arguments of the log call;
    times are unbounded integers; Stop waits until the flush thread is between two
    tasks (that it may wait for ever is C54); the loop of Stop is one step. *)
From Verif.Model Require Export File.

(** logger.hpp:8 [enum class Level] *)
Inductive level : Type := kDebug | kInfo | kWarn | kError | kFatal.
Global Instance level_eq_dec : EqDecision level.
Proof. solve_decision. Defined.
Definition level_num (l : level) : Z :=
  match l with kDebug => 0 | kInfo => 1 | kWarn => 2 | kError => 3 | kFatal => 4 end%Z.
Definition level_name (l : level) : bytes :=
  match l with kDebug => B "DEBUG" | kInfo => B "INFO" | kWarn => B "WARN" | kError => B "ERROR" | kFatal => B "FATAL" end.
(** operator> on the enumeration *)
Definition level_gt (a b : level) : bool := (level_num b <? level_num a)%Z.

Definition LFb : ascii := ascii_of_nat 10.

(** * StdLogger *)
Inductive sink : Type := Cout | Cerr.
(** std_logger.hpp:11-37, one definition for the five functions: where the line
    goes and what it is; [lv] is [level_]. *)
Definition std_log (lv l : level) (msg : bytes) : option (sink * bytes) :=
  let line := B "[" ++ level_name l ++ B "]:" ++ msg ++ [LFb] in
  match l with
  | kDebug => if level_gt lv kDebug then None else Some (Cout, line)
  | kInfo => if level_gt lv kInfo then None else Some (Cout, line)
  | kWarn => if level_gt lv kWarn then None else Some (Cout, line)
  | kError => if level_gt lv kError then None else Some (Cerr, line)
  | kFatal => Some (Cerr, line)
  end.

(** * MultiLogger *)
(** The loggers are shared pointers to objects known by number; [calls] is what
    each object has been asked to log so far. *)
Definition logged : Type := nat -> list (level * bytes).
Record multi : Type := Multi { mu_level : level; mu_loggers : list nat }.
Definition multi_new : multi := Multi kDebug [].
(** multi_logger.cpp:5-9 [MultiLogger::Init] *)
Definition multi_init (m : multi) (ids : list nat) : multi := Multi (mu_level m) (mu_loggers m ++ ids).
(** logger.hpp:17 [Logger::set_level] *)
Definition multi_set_level (m : multi) (l : level) : multi := Multi l (mu_loggers m).
(** One virtual call. *)
Definition deliver (l : level) (msg : bytes) (w : logged) (id : nat) : logged :=
  fun i => if decide (i = id) then w i ++ [(l, msg)] else w i.
(** multi_logger.cpp:11-39 [MultiLogger::Debug] ... [Fatal] *)
Definition multi_log (m : multi) (l : level) (msg : bytes) (w : logged) : logged :=
  foldl (deliver l msg) w (mu_loggers m).

(** * FileLogger *)
(** file_logger.hpp:54-59 [struct Buffer]; [next] is the order in the ring. *)
Record buffer : Type := Buffer { b_data : bytes; b_need : bool; b_last : Z }.
Definition buffer_new (now : Z) : buffer := Buffer [] false now.

(** Where the flush thread is (file_logger.cpp:124-136 [FlushBuffer]). *)
Inductive fpc : Type :=
| FIdle                 (* between two tasks *)
| FGot (b : nat)        (* line 126 *)
| FAppended (b : nat)   (* 133, the data is in the file *)
| FCleared (b : nat)    (* 134 *)
| FUnflagged (b : nat). (* 135 *)
(** The ThreadPool: not initialised, running, stopped, and initialised again
    after Stop (its thread returns at once and is never joined: C57, C89). *)
Inductive pstate : Type := PNone | PRun | PStopped | PZombie.

(** file_logger.hpp:67-73.  Buffers are known by number; [f_ring] are the buffers
    in the order of the [next] pointers from [buffers_list_], [f_cur] is the place
    of [cur_buffer_] in it ([None]: null pointer). *)
Record flog : Type := FLog {
  f_level : level; f_path : bytes; f_num : Z; f_size : Z; f_interval : Z;
  f_pool : pstate; f_queue : list nat; f_work : fpc;
  f_bufs : list buffer; f_ring : list nat; f_cur : option nat; f_fs : fs }.

Definition flog_new (lv : level) (num size interval : Z) (f : fs) : flog :=
  FLog lv [] num size interval PNone [] FIdle [] [] None f.

Definition set_bufs (s : flog) (bs : list buffer) : flog :=
  FLog (f_level s) (f_path s) (f_num s) (f_size s) (f_interval s) (f_pool s) (f_queue s) (f_work s)
       bs (f_ring s) (f_cur s) (f_fs s).
Definition set_work (s : flog) (w : fpc) : flog :=
  FLog (f_level s) (f_path s) (f_num s) (f_size s) (f_interval s) (f_pool s) (f_queue s) w
       (f_bufs s) (f_ring s) (f_cur s) (f_fs s).
Definition set_queue (s : flog) (q : list nat) : flog :=
  FLog (f_level s) (f_path s) (f_num s) (f_size s) (f_interval s) (f_pool s) q (f_work s)
       (f_bufs s) (f_ring s) (f_cur s) (f_fs s).
Definition set_fs (s : flog) (f : fs) : flog :=
  FLog (f_level s) (f_path s) (f_num s) (f_size s) (f_interval s) (f_pool s) (f_queue s) (f_work s)
       (f_bufs s) (f_ring s) (f_cur s) f.
(** The ring, the place in it and [buf_num_]. *)
Definition set_ring (s : flog) (num : Z) (bs : list buffer) (r : list nat) (c : nat) : flog :=
  FLog (f_level s) (f_path s) num (f_size s) (f_interval s) (f_pool s) (f_queue s) (f_work s)
       bs r (Some c) (f_fs s).

(** file_logger.cpp:28-56 [FileLogger::Init].  [CanWrite] returns a bool: "cannot
    write" is returned as 0. *)
Definition flog_init (mkdirs : fs -> option fs) (now : Z) (p : bytes) (s : flog) : outcome (Z * flog) :=
  r ← file_create mkdirs (f_fs s) p;
  let s1 := FLog (f_level s) p (f_num s) (f_size s) (f_interval s) (f_pool s) (f_queue s) (f_work s)
                 (f_bufs s) (f_ring s) (f_cur s) r.2 in
  if negb (r.1 =? kSuccess)%Z then Ok (r.1, s1)
  else
    w ← file_can_write (f_fs s1) p;
    if negb w then Ok (0%Z, s1)
    else
      match f_pool s with
      | PRun | PZombie => Terminate
      | (PNone | PStopped) as st =>
          let n := Nat.max 1 (Z.to_nat (f_num s)) in
          Ok (kSuccess,
              FLog (f_level s) p (f_num s) (f_size s) (f_interval s)
                   (match st with PNone => PRun | _ => PZombie end) (f_queue s) FIdle
                   (replicate n (buffer_new now)) (seq 0 n) (Some 0) (f_fs s1))
      end.

(** The line that file_logger.cpp:58-96 append. *)
Definition log_line (l : level) (stamp msg : bytes) : bytes :=
  B "[" ++ level_name l ++ B "]" ++ stamp ++ B "|" ++ msg ++ [LFb].

(** int to size_t (the comparison in line 99) *)
Definition as_size (z : Z) : Z := (z mod 2 ^ 64)%Z.

(** file_logger.cpp:98-122 [FileLogger::CheckFlush] *)
Definition check_flush (now : Z) (s : flog) : flog :=
  match f_cur s with
  | None => s
  | Some c =>
      match f_ring s !! c with
      | None => s
      | Some id =>
          match f_bufs s !! id with
          | None => s
          | Some b =>
              if (as_size (f_size s) <? Z.of_nat (length (b_data b)))%Z
                 || ((b_last b + f_interval s <? now)%Z && negb (bool_decide (b_data b = []))) then
                let bs := <[id := Buffer (b_data b) true (b_last b)]> (f_bufs s) in
                let c' := if S c =? length (f_ring s) then 0 else S c in
                let next_need := match f_ring s !! c' with
                                 | Some id' => match bs !! id' with Some b' => b_need b' | None => false end
                                 | None => false
                                 end in
                let s1 :=
                  if next_need : bool then
                    set_ring s (f_num s + 1)%Z (bs ++ [buffer_new now])
                             (take (S c) (f_ring s) ++ [length bs] ++ drop (S c) (f_ring s)) (S c)
                  else set_ring s (f_num s) bs (f_ring s) c' in
                match f_pool s with
                | PRun => set_queue s1 (f_queue s1 ++ [id])
                | _ => s1
                end
              else s
          end
      end
  end.

(** file_logger.cpp:58-96 [FileLogger::Debug] ... [Fatal] *)
Definition flog_log (l : level) (stamp msg : bytes) (now : Z) (s : flog) : flog :=
  if level_gt (f_level s) l then s
  else
    match f_cur s with
    | None => s
    | Some c =>
        match f_ring s !! c with
        | None => s
        | Some id =>
            match f_bufs s !! id with
            | None => s
            | Some b =>
                check_flush now
                  (set_bufs s (<[id := Buffer (b_data b ++ log_line l stamp msg) (b_need b) (b_last b)]> (f_bufs s)))
            end
        end
    end.

(** file_logger.cpp:124-136 [FileLogger::FlushBuffer] called by Stop (in one go). *)
Definition flush_now (room : nat) (now : Z) (s : flog) (id : nat) : flog :=
  match f_bufs s !! id with
  | None => s
  | Some b =>
      if bool_decide (b_data b = []) then s
      else
        let r := file_append room (f_fs s) (f_path s) (b_data b) in
        if (r.1 =? kSuccess)%Z then set_fs (set_bufs s (<[id := Buffer [] false now]> (f_bufs s))) r.2
        else set_fs s r.2
  end.

(** file_logger.cpp:7-26 [FileLogger::Stop], when the flush thread is between two
    tasks; tasks left in its queue are not run any more.  Lines 17-22 go round the
    ring, [buf_num_] steps. *)
Definition flog_stop (room : nat) (now : Z) (s : flog) : flog :=
  let pool := match f_pool s with PRun => PStopped | st => st end in
  let s0 := FLog (f_level s) (f_path s) (f_num s) (f_size s) (f_interval s) pool (f_queue s) (f_work s)
                 (f_bufs s) (f_ring s) (f_cur s) (f_fs s) in
  match f_cur s with
  | None => s0
  | Some _ =>
      let ids := map (λ i, nth (i mod length (f_ring s)) (f_ring s) 0) (seq 0 (Z.to_nat (f_num s))) in
      let s1 := foldl (flush_now room now) s0 ids in
      FLog (f_level s1) (f_path s1) (f_num s1) (f_size s1) (f_interval s1) pool (f_queue s1) (f_work s1)
           (f_bufs s1) (f_ring s1) None (f_fs s1)
  end.

(** file_logger.hpp:24 [~FileLogger]: Stop, then the members are destroyed. *)
Definition flog_destroy (room : nat) (now : Z) (s : flog) : outcome flog :=
  let s' := flog_stop room now s in
  match f_pool s' with PZombie => Terminate | _ => Ok s' end.

(** Steps while the logger is in use. *)
Inductive flabel : Type :=
| ALog (l : level) (stamp msg : bytes) (now : Z)  (* the program logs *)
| APop                                            (* the flush thread takes a task *)
| AAppend (room : nat)                            (* and goes through FlushBuffer *)
| AClear | AUnflag | ATouch (now : Z)
| AEnv (f : fs).                                  (* something else changes the file system *)

Definition upd_buf (s : flog) (id : nat) (g : buffer -> buffer) : flog :=
  match f_bufs s !! id with Some b => set_bufs s (<[id := g b]> (f_bufs s)) | None => s end.

Definition fstep (s : flog) (a : flabel) : option flog :=
  match a with
  | ALog l stamp msg now => Some (flog_log l stamp msg now s)
  | APop =>
      match f_pool s, f_work s, f_queue s with
      | PRun, FIdle, b :: q => Some (set_work (set_queue s q) (FGot b))
      | _, _, _ => None
      end
  | AAppend room =>
      match f_work s with
      | FGot id =>
          match f_bufs s !! id with
          | None => None
          | Some b =>
              if bool_decide (b_data b = []) then Some (set_work s FIdle)
              else
                let r := file_append room (f_fs s) (f_path s) (b_data b) in
                Some (set_work (set_fs s r.2) (if (r.1 =? kSuccess)%Z then FAppended id else FIdle))
          end
      | _ => None
      end
  | AClear =>
      match f_work s with
      | FAppended id => Some (set_work (upd_buf s id (λ b, Buffer [] (b_need b) (b_last b))) (FCleared id))
      | _ => None
      end
  | AUnflag =>
      match f_work s with
      | FCleared id => Some (set_work (upd_buf s id (λ b, Buffer (b_data b) false (b_last b))) (FUnflagged id))
      | _ => None
      end
  | ATouch now =>
      match f_work s with
      | FUnflagged id => Some (set_work (upd_buf s id (λ b, Buffer (b_data b) (b_need b) now)) FIdle)
      | _ => None
      end
  | AEnv f => Some (set_fs s f)
  end.

Fixpoint frun (s : flog) (ls : list flabel) : option flog :=
  match ls with
  | [] => Some s
  | a :: ls' => match fstep s a with Some s' => frun s' ls' | None => None end
  end.
