(** What a log file should contain. *)
From Verif.Model Require Export Logger.

(** Levels in order of importance. *)
Definition importance (l : level) : nat :=
  match l with kDebug => 0 | kInfo => 1 | kWarn => 2 | kError => 3 | kFatal => 4 end.
Definition wanted (lv l : level) : bool := importance lv <=? importance l.

(** The text of a line in the file: [LEVEL]time|message, ended by a line feed. *)
Definition line_text (l : level) (stamp msg line : bytes) : Prop :=
  exists name, line = B "[" ++ name ++ B "]" ++ stamp ++ B "|" ++ msg ++ B "
" /\ (l, name) ∈ [(kDebug, B "DEBUG"); (kInfo, B "INFO"); (kWarn, B "WARN"); (kError, B "ERROR"); (kFatal, B "FATAL")].

(** The lines that a sequence of steps logs at or above a level, in order. *)
Inductive logs (lv : level) : list flabel -> list bytes -> Prop :=
| logs_nil : logs lv [] []
| logs_line l stamp msg now line ls lines :
    wanted lv l = true -> line_text l stamp msg line -> logs lv ls lines ->
    logs lv (ALog l stamp msg now :: ls) (line :: lines)
| logs_below l stamp msg now ls lines :
    wanted lv l = false -> logs lv ls lines -> logs lv (ALog l stamp msg now :: ls) lines
| logs_other a ls lines :
    match a with ALog _ _ _ _ => False | _ => True end -> logs lv ls lines -> logs lv (a :: ls) lines.

(** The content of a regular file, and whether it can be written. *)
Definition file_data (f : fs) (p : bytes) (w : bool) (d : bytes) : Prop := exists r o, f (cstr p) = Reg r w o d.

(** Nobody else changes the content of the log file (its permissions may change),
    and the device is never full. *)
Definition gentle (s : flog) (a : flabel) : Prop :=
  match a with
  | AAppend room => forall id b, f_work s = FGot id -> f_bufs s !! id = Some b -> (length (b_data b) <= room)%nat
  | AEnv f => forall w d, file_data (f_fs s) (f_path s) w d -> exists w', file_data f (f_path s) w' d
  | _ => True
  end.
Inductive calm : flog -> list flabel -> flog -> Prop :=
| calm_nil s : calm s [] s
| calm_cons s a s' ls s'' : fstep s a = Some s' -> gentle s a -> calm s' ls s'' -> calm s (a :: ls) s''.
(** ... and it can always be written. *)
Definition no_env (ls : list flabel) : Prop := Forall (fun a => match a with AEnv _ => False | _ => True end) ls.

(** A FileLogger that has just been constructed and set up (set_level, set_buf_num, ...). *)
Definition fresh (s : flog) : Prop := exists lv num size interval f, s = flog_new lv num size interval f.

(** The device has room for the content of every buffer. *)
Definition enough (room : nat) (s : flog) : Prop :=
  forall id b, f_bufs s !! id = Some b -> (length (b_data b) <= room)%nat.

(** The members of buffers, other than the atomic [need_flush], that the flush
    thread uses in its next step, and that a log call uses. *)
Inductive member : Type := MData | MLast.
Definition flush_uses (s : flog) (id : nat) (m : member) : Prop :=
  match f_work s, m with
  | FGot b, MData | FAppended b, MData => b = id
  | FUnflagged b, MLast => b = id
  | _, _ => False
  end.
Definition log_uses (s : flog) (id : nat) (m : member) : Prop :=
  exists c, f_cur s = Some c /\ f_ring s !! c = Some id.

(** What a logger inside a MultiLogger is asked to log, when it has been added [k]
    times already. *)
Inductive mop : Type := MAdd (ids : list nat) | MLevel (l : level) | MLog (l : level) (msg : bytes).
Fixpoint received (k : nat) (i : nat) (ops : list mop) : list (level * bytes) :=
  match ops with
  | [] => []
  | MAdd ids :: ops' => received (k + length (filter (fun j => j = i) ids)) i ops'
  | MLevel _ :: ops' => received k i ops'
  | MLog l msg :: ops' => replicate k (l, msg) ++ received k i ops'
  end.
Definition mstep (st : multi * logged) (op : mop) : multi * logged :=
  match op with
  | MAdd ids => (multi_init st.1 ids, st.2)
  | MLevel l => (multi_set_level st.1 l, st.2)
  | MLog l msg => (st.1, multi_log st.1 l msg st.2)
  end.
