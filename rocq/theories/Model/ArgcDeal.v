(** Model of demo/util/argc_deal.cpp: command line options.

    Arguments are C strings (without NUL bytes).  What Run prints is in ArgcPrint.v. *)
From Verif.Lib Require Export CxxString.

Local Open Scope N_scope.

Section argc_deal.
(** The programs that app.pfunc may hold. *)
Context {F : Type}.

(** argc_deal.hpp:10-32 *)
Record argc_deal : Type := ArgcDeal {
  ad_all : gmap bytes bytes;              (* arg_all_ *)
  ad_message : gmap bytes bytes;          (* message_ *)
  ad_pfunc : option F }.                  (* app.pfunc *)

(** argc_deal.cpp:8-9 *)
Fixpoint skip_dashes (s : bytes) : bytes :=
  match s with
  | c :: t => if Ascii.eqb c "-" then skip_dashes t else s
  | [] => []
  end.
(** std::unordered_map::insert: an existing entry stays. *)
Definition um_insert (k v : bytes) (m : gmap bytes bytes) : gmap bytes bytes :=
  match m !! k with Some _ => m | None => <[k := v]> m end.
(** argc_deal.cpp:7-17, the body of the loop *)
Definition add_arg (arg : bytes) (m : gmap bytes bytes) : outcome (gmap bytes bytes) :=
  let now := skip_dashes arg in
  if str_find now (B "=") 0 =? npos then Ok (um_insert now [] m)
  else
    key ← substr now 0 (str_find now (B "=") 0);
    value ← substr_from now (szadd (str_find now (B "=") 0) 1);
    Ok (um_insert key value m).
(** argc_deal.cpp:6-18, the loop over argv[1..] *)
Fixpoint add_args (args : list bytes) (m : gmap bytes bytes) : outcome (gmap bytes bytes) :=
  match args with
  | [] => Ok m
  | a :: args' => m' ← add_arg a m; add_args args' m'
  end.
(** argc_deal.cpp:5-19; [args] is argv without the name of the program *)
Definition argc_new (args : list bytes) : outcome argc_deal :=
  m ← add_args args ∅; Ok (ArgcDeal m ∅ None).

(** argc_deal.cpp:21-23 *)
Definition get_option (a : argc_deal) (name : bytes) : bool := bool_decide (is_Some (ad_all a !! name)).
(** argc_deal.cpp:64-70 *)
Definition get_var (a : argc_deal) (key : bytes) : bytes :=
  match ad_all a !! key with None => [] | Some v => v end.

(** argc_deal.cpp:26-32 and 73-79 *)
Definition declare (label name usage : bytes) (must : bool) (a : argc_deal) : argc_deal :=
  ArgcDeal (ad_all a)
    (um_insert label (usage ++ if must then B ",must" else B ",no must") (ad_message a))
    (if must && negb (get_option a name) then None else ad_pfunc a).
(** argc_deal.cpp:25-33 *)
Definition set_option (name usage : bytes) (must : bool) (a : argc_deal) : argc_deal := declare name name usage must a.
(** argc_deal.cpp:72-80 *)
Definition set_var (name usage : bytes) (must : bool) (a : argc_deal) : argc_deal :=
  declare (name ++ B "=(variable)") name usage must a.
(** The assignment args.app.pfunc = f of the application *)
Definition set_pfunc (f : option F) (a : argc_deal) : argc_deal := ArgcDeal (ad_all a) (ad_message a) f.

(** What the application does with the object before Run. *)
Inductive ad_call : Type :=
| ADPfunc (f : F)
| ADOption (name usage : bytes) (must : bool)
| ADVar (name usage : bytes) (must : bool).
Definition ad_do (x : ad_call) (a : argc_deal) : argc_deal :=
  match x with
  | ADPfunc f => set_pfunc (Some f) a
  | ADOption n u m => set_option n u m a
  | ADVar n u m => set_var n u m a
  end.
Fixpoint ad_doall (l : list ad_call) (a : argc_deal) : argc_deal :=
  match l with [] => a | x :: l' => ad_doall l' (ad_do x a) end.

(** argc_deal.cpp:35-46 *)
Inductive ad_run : Type := RunMessage | RunVersion | RunProgram (f : F).
Definition ad_Run (a : argc_deal) : ad_run :=
  match ad_pfunc a with
  | None => RunMessage
  | Some f =>
      if get_option a (B "h") || get_option a (B "help") then RunMessage
      else if get_option a (B "v") || get_option a (B "version") then RunVersion
      else RunProgram f
  end.
End argc_deal.
Arguments argc_deal : clear implicits.
Arguments ad_call : clear implicits.
Arguments ad_run : clear implicits.
