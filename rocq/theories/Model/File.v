(** Model of src/cppnet/utils/file.cpp.

    The file system is a map from names to objects.  Names are compared as
    strings (no links, no normalisation); a name given to the system ends at its
    first NUL byte ([cstr]).  Simplifications: special files (pipes, devices) are
    not modelled; permissions are two booleans; reads of a regular file do not
    fail; the file system does not change during a call. *)
From Verif.Model Require Export Socket.

Local Open Scope N_scope.

(** What stat(2) and open(2) find under a name. *)
Inductive fobj : Type :=
| Absent (may_create : bool)            (* ENOENT / ENOTDIR *)
| StatFail                              (* stat fails otherwise, e.g. ENAMETOOLONG, EACCES *)
| Reg (readable writable owner_w : bool) (data : bytes)
    (* may this process read / write it; is the owner-write mode bit set *)
| Dir (owner_w : bool).
Definition fs : Type := bytes -> fobj.
Definition fs_set (f : fs) (p : bytes) (o : fobj) : fs := fun q => if decide (q = p) then o else f q.

(** utils/file.cpp:32-35 [File::Exist] (and 110-113 [File::IsFile]).
    std::filesystem::exists(path) throws when stat fails for any other reason
    than a missing file. *)
Definition file_exist (f : fs) (p : bytes) : outcome bool :=
  match f (cstr p) with
  | StatFail => Throw FsError
  | Reg _ _ _ _ => Ok true
  | Dir _ | Absent _ => Ok false
  end.

(** utils/file.cpp:105-108 [File::IsDir] *)
Definition file_is_dir (f : fs) (p : bytes) : outcome bool :=
  match f (cstr p) with
  | StatFail => Throw FsError
  | Dir _ => Ok true
  | Reg _ _ _ _ | Absent _ => Ok false
  end.

(** utils/file.cpp:10-20 [File::Read]: return code and new value of [data].
    A directory can be opened; reading it through istreambuf_iterator throws
    (libstdc++). *)
Definition file_read (f : fs) (p old : bytes) : outcome (Z * bytes) :=
  match f (cstr p) with
  | Reg true _ _ d => Ok (kSuccess, d)
  | Reg false _ _ _ | Absent _ | StatFail => Ok (kLogicErr, old)
  | Dir _ => Throw IosFailure
  end.

(** std::ofstream(path, out | binary [| app]): the object to write to. *)
Definition open_out (f : fs) (p : bytes) : option (bool * bool * bytes) :=
  match f (cstr p) with
  | Reg r true o d => Some (r, o, d)
  | Absent true => Some (true, true, [])
  | _ => None
  end.

(** utils/file.cpp:22-30 [File::Write]; [room] is how many bytes the device
    accepts (a failing [<<] is not noticed). *)
Definition file_write (room : nat) (f : fs) (p data : bytes) : Z * fs :=
  match open_out f p with
  | Some (r, o, _) => (kSuccess, fs_set f (cstr p) (Reg r true o (take room data)))
  | None => (kLogicErr, f)
  end.

(** utils/file.cpp:76-84 [File::Append] *)
Definition file_append (room : nat) (f : fs) (p data : bytes) : Z * fs :=
  match open_out f p with
  | Some (r, o, d) => (kSuccess, fs_set f (cstr p) (Reg r true o (d ++ take room data)))
  | None => (kLogicErr, f)
  end.

(** utils/file.cpp:50-67 [File::Create].  [mkdirs] is the effect of lines 55-59
    (creating the parent directories) on the file system, [None] if it throws. *)
Definition file_create (mkdirs : fs -> option fs) (f : fs) (p : bytes) : outcome (Z * fs) :=
  ex ← file_exist f p;
  if ex : bool then Ok (kSuccess, f)
  else
    match mkdirs f with
    | None => Throw FsError
    | Some f1 =>
        Ok (match open_out f1 p with
            | Some (r, o, _) => (kSuccess, fs_set f1 (cstr p) (Reg r true o []))
            | None => (kSysErr, f1)
            end)
    end.

(** utils/file.cpp:69-74 [File::Remove]; [allowed]: may the entry be removed?
    (std::filesystem::remove throws if not). *)
Definition file_remove (allowed : bool) (f : fs) (p : bytes) : outcome (Z * fs) :=
  ex ← file_exist f p;
  if negb ex then Ok (kSuccess, f)
  else if allowed then Ok (kSuccess, fs_set f (cstr p) (Absent true))
  else Throw FsError.

(** utils/file.cpp:86-90 [File::CanWrite]: std::filesystem::status throws like
    exists; a missing file has permissions "unknown" (0xFFFF), which include the
    owner-write bit. *)
Definition file_can_write (f : fs) (p : bytes) : outcome bool :=
  match f (cstr p) with
  | StatFail => Throw FsError
  | Reg _ _ o _ | Dir o => Ok o
  | Absent _ => Ok true
  end.

(** std::getline on the text [s]: [None] when nothing is left, otherwise what is
    left after the line and its newline. *)
Fixpoint getline (s : bytes) : bytes :=
  match s with
  | [] => []
  | c :: t => if Ascii.eqb c LF then t else getline t
  end.

(** utils/file.cpp:97-102, the loop; every iteration reads one line. *)
Fixpoint count_lines (fuel : nat) (s : bytes) (count : Z) : outcome Z :=
  match fuel, s with
  | _, [] => Ok count
  | O, _ => Ok count
  | S f, _ => count' ← int_succ count; count_lines f (getline s) count'
  end.

(** utils/file.cpp:92-103 [File::LineCount]; the number of iterations is bounded
    by the length of the text (each reads at least one byte). *)
Definition file_line_count (f : fs) (p : bytes) : outcome Z :=
  match f (cstr p) with
  | Reg true _ _ d => count_lines (length d) d 0
  | _ => Ok 0%Z
  end.

(** utils/file.cpp:37-48 [File::Suffix] *)
Definition file_suffix (p : bytes) : outcome bytes :=
  let ls := find_last_of p "/"%char in
  let last_slash := if ls =? npos then 0 else ls in
  tmp ← substr_from p last_slash;
  let pos := find_last_of tmp "."%char in
  if pos =? npos then Ok []
  else substr_from tmp (szadd pos 1).
