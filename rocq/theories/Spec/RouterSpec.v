(** What a router should do, in terms of the list of registrations. *)
From Verif.Model Require Export Router.
From Verif.Spec Require Export TrieSpec.

Section spec.
Context {U : Type}.
Local Notation entry := (entry U).
Local Notation world := (world U).

(** A registration: group route, path, and what was registered. *)
Definition registration : Type := bytes * bytes * entry.
(** The path a registration is meant for. *)
Definition reg_key (x : registration) : bytes := x.1.1 ++ x.1.2.

(** Everything registered for the path [k], oldest first. *)
Definition registered (regs : list registration) (k : bytes) : list entry :=
  omap (fun x => if decide (reg_key x = k) then Some x.2 else None) regs.

(** The entries that concern a request for [p]: for every prefix of [p], shortest
    first, what was registered for it; exact ones only for [p] itself. *)
Definition concerning (T : bytes -> list entry) (p : bytes) : list entry :=
  flat_map (fun i => List.filter (fun e => negb (e_exact e) || (i =? length p)%nat) (T (take i p)))
           (seq 0 (S (length p))).

(** Running entries one after the other: an entry whose filters do not all
    accept the request as it is at that moment is skipped; when a handler fails,
    that is the result; when the server is stopped, so is the run. *)
Inductive chain : list entry -> ctx * world -> outcome (ctx * world) -> Prop :=
| chain_done st : chain [] st (Ok st)
| chain_rejected e f l st r :
    f ∈ e_filters e -> f (cx_req st.1) = false -> chain l st r -> chain (e :: l) st r
| chain_null e l st r : e_callback e = None -> chain l st r -> chain (e :: l) st r
| chain_called e h l st st' r :
    e_callback e = Some h -> (forall f, f ∈ e_filters e -> f (cx_req st.1) = true) ->
    h st.1 st.2 = Ok st' -> w_running st'.2 = true -> chain l st' r -> chain (e :: l) st r
| chain_stopped e h l st st' :
    e_callback e = Some h -> (forall f, f ∈ e_filters e -> f (cx_req st.1) = true) ->
    h st.1 st.2 = Ok st' -> w_running st'.2 = false -> chain (e :: l) st (Ok st')
| chain_failed e h l st r :
    e_callback e = Some h -> (forall f, f ∈ e_filters e -> f (cx_req st.1) = true) ->
    h st.1 st.2 = r -> ~ is_ok r -> chain (e :: l) st r.

(** In a run of [l] from [st], the entry at position [n] gets called, with the
    context and world [st']. *)
Inductive called : list entry -> ctx * world -> nat -> ctx * world -> Prop :=
| called_here e h l st :
    e_callback e = Some h -> (forall f, f ∈ e_filters e -> f (cx_req st.1) = true) ->
    called (e :: l) st 0 st
| called_rejected e f l st n st' :
    f ∈ e_filters e -> f (cx_req st.1) = false -> called l st n st' -> called (e :: l) st (S n) st'
| called_null e l st n st' : e_callback e = None -> called l st n st' -> called (e :: l) st (S n) st'
| called_later e h l st st1 n st' :
    e_callback e = Some h -> (forall f, f ∈ e_filters e -> f (cx_req st.1) = true) ->
    h st.1 st.2 = Ok st1 -> w_running st1.2 = true -> called l st1 n st' -> called (e :: l) st (S n) st'.

(** The paths registered so far, as a set. *)
Definition keys (regs : list registration) : bytes -> Prop := fun k => k ∈ map reg_key regs.

(** Among the paths in [K], looking up [path] leads to [c]: to the root for the
    empty path, else to the one extension of [path] through which all go. *)
Definition leads_to (K : bytes -> Prop) (path c : bytes) : Prop :=
  K c /\ if decide (path = []) then c = []
         else path `prefix_of` c /\ forall c', K c' -> path `prefix_of` c' -> c `prefix_of` c'.

(** The registration of [g ++ path] after [before] is not confused with another
    one by the look-up of [path]. *)
Definition well_placed (before : list registration) (g path : bytes) : Prop :=
  leads_to (keys before) path (g ++ path) \/
  ((forall c, ~ leads_to (keys before) path c) /\ ~ keys before (g ++ path)).

(** All registrations of a history are. *)
Definition all_well_placed (regs : list registration) : Prop :=
  forall before x after, regs = before ++ x :: after -> well_placed before x.1.1 x.1.2.

Definition ascii_registrations (regs : list registration) : Prop :=
  Forall (fun x => ascii_only x.1.1 /\ ascii_only x.1.2) regs.

(** What the table of entries looks like after [regs] when the look-up of [path]
    decides where an entry goes. *)
Inductive table_after : list registration -> (bytes -> list entry) -> Prop :=
| ta_nil : table_after [] (fun _ => [])
| ta_join regs T g path e c :
    table_after regs T -> leads_to (fun k => T k <> []) path c ->
    table_after (regs ++ [(g, path, e)]) (fun k => if decide (k = c) then T c ++ [e] else T k)
| ta_set regs T g path e :
    table_after regs T -> (forall c, ~ leads_to (fun k => T k <> []) path c) ->
    table_after (regs ++ [(g, path, e)]) (fun k => if decide (k = g ++ path) then [e] else T k).
End spec.
Arguments registration : clear implicits.
