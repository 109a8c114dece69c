(** Model of src/cppnet/utils/trie.cpp and trie.hpp (radix tree).

    Simplification: nodes are values of an inductive type instead of heap
    objects; in-place updates return the updated subtree. *)
From Verif.Lib Require Export CxxString.

Section trie.
Context {V : Type}.

(** utils/trie.hpp:65-70 [struct Node].  [next] stands for the vector of 128
    child pointers ([None] = nullptr).  [data] is [None] for the initial
    std::any holding nullptr and [Some v] once a value has been stored. *)
Inductive node : Type :=
  Node (key : bytes) (stop : bool) (data : option V) (next : ascii -> option node).

Definition n_key (nd : node) : bytes := let '(Node k _ _ _) := nd in k.
Definition n_stop (nd : node) : bool := let '(Node _ s _ _) := nd in s.
Definition n_data (nd : node) : option V := let '(Node _ _ d _) := nd in d.
Definition n_next (nd : node) : ascii -> option node := let '(Node _ _ _ n) := nd in n.

(** utils/trie.hpp:65-70: a freshly constructed node. *)
Definition new_node : node := Node [] false None (fun _ => None).

(** utils/trie.cpp:5 [Trie::Trie] and 26-29 [Trie::Reset]: the tree after
    construction or Reset. *)
Definition trie_new : node := new_node.
Definition trie_reset (t : node) : node := new_node.

(** [next_[c]] with [c] a (signed) char and 128 slots: any byte >= 128 is a
    negative index, converted to a huge size_t: out of bounds. *)
Definition slot (nd : node) (c : ascii) : outcome (option node) :=
  if is_ascii c then Ok (n_next nd c) else UB.

(** [next_[c] = child] (the index is checked by a preceding [slot]). *)
Definition set_child (nd : node) (c : ascii) (child : node) : node :=
  Node (n_key nd) (n_stop nd) (n_data nd)
       (fun x => if Ascii.eqb x c then Some child else n_next nd x).

(** [now->data_ = data; now->stop_ = true;] (e.g. utils/trie.cpp:109-110) *)
Definition mark (nd : node) (v : V) : node :=
  Node (n_key nd) true (Some v) (n_next nd).

(** utils/trie.cpp:39-58 [Trie::ForkNode] *)
Definition fork_node (nd : node) (pos : nat) : outcome node :=
  if (pos <=? 0) || (length (n_key nd) <=? pos) then Ok nd
  else
    match n_key nd !! pos with
    | None => UB
    | Some c =>
        let child := Node (drop pos (n_key nd)) (n_stop nd) (n_data nd) (n_next nd) in
        if is_ascii c then
          Ok (Node (take pos (n_key nd)) false None
                   (fun x => if Ascii.eqb x c then Some child else None))
        else UB
    end.

(** utils/trie.cpp:82-110, the loop of [SetNode] from byte [k] of the key on
    with [now] = [nd]; returns the updated subtree.

    Lines 87-90: on a mismatch the node is forked and the same byte is looked
    at again (i--).  If the fork did nothing, position [pos] is still inside
    the node's key and the loop would repeat for ever. *)
Fixpoint set_loop (k : bytes) (nd : node) (pos : nat) (v : V) : outcome node :=
  let past_end (c : ascii) (k' : bytes) (n : node)
      (go : node -> outcome node) : outcome node :=   (* lines 91-104 *)
    s ← slot n c;
    match s with
    | None => Ok (set_child n c (Node (c :: k') true (Some v) (fun _ => None)))
    | Some ch => ch' ← go ch; Ok (set_child n c ch')
    end in
  match k with
  | [] =>                                              (* lines 106-110 *)
      nd' ← (if pos =? length (n_key nd) then Ok nd else fork_node nd pos);
      Ok (mark nd' v)
  | c :: k' =>
      if pos <? length (n_key nd) then
        match n_key nd !! pos with
        | None => UB
        | Some d =>
            if Ascii.eqb d c then set_loop k' nd (S pos) v
            else
              nd1 ← fork_node nd pos;
              if pos <? length (n_key nd1) then Diverge
              else past_end c k' nd1 (fun ch => set_loop k' ch 1 v)
        end
      else past_end c k' nd (fun ch => set_loop k' ch 1 v)
  end.

(** utils/trie.cpp:60-111 [Trie::SetNode] on the root *)
Definition set_node (root : node) (key : bytes) (v : V) : outcome node :=
  match key with
  | [] => Ok (mark root v)                             (* lines 64-68 *)
  | c :: _ =>
      s ← slot root c;                                 (* lines 70-73 *)
      let now := match s with Some ch => ch | None => new_node end in
      match n_key now with
      | [] =>                                          (* lines 75-80 *)
          Ok (set_child root c (Node key true (Some v) (n_next now)))
      | _ => now' ← set_loop key now 0 v; Ok (set_child root c now')
      end
  end.

(** utils/trie.cpp:130-145, the loop of [GetNode] *)
Fixpoint get_loop (k : bytes) (nd : node) (pos : nat) : outcome (option node) :=
  match k with
  | [] => Ok (if n_stop nd then Some nd else None)     (* lines 146-149 *)
  | c :: k' =>
      if pos <? length (n_key nd) then
        match n_key nd !! pos with
        | None => UB
        | Some d => if Ascii.eqb d c then get_loop k' nd (S pos) else Ok None
        end
      else
        s ← slot nd c;
        match s with
        | None => Ok None
        | Some ch => get_loop k' ch 1
        end
  end.

(** utils/trie.cpp:113-150 [Trie::GetNode] *)
Definition get_node (root : node) (key : bytes) : outcome (option node) :=
  match key with
  | [] => Ok (if n_stop root then Some root else None)
  | c :: _ =>
      s ← slot root c;
      match s with
      | None => Ok None
      | Some ch => get_loop key ch 0
      end
  end.

(** utils/trie.hpp:31-37 [Trie::Get]; the any_cast throws when the node does
    not hold a value. *)
Definition trie_get (root : node) (key : bytes) : outcome (option V) :=
  o ← get_node root key;
  match o with
  | None => Ok None
  | Some nd => match n_data nd with Some v => Ok (Some v) | None => Throw BadAnyCast end
  end.

(** utils/trie.cpp:31-37 [Trie::Check] *)
Definition trie_check (root : node) (key : bytes) : outcome bool :=
  o ← get_node root key;
  Ok (match o with Some _ => true | None => false end).

(** Callbacks of Search: they update a state [S] and say whether to go on. *)
Section search.
Context {S : Type} (cb : S -> V -> bool -> outcome (S * bool)).

(** utils/trie.hpp:44-50: the wrapper around the user callback *)
Definition visit (st : S) (nd : node) (is_last : bool) : outcome (S * bool) :=
  match n_data nd with
  | Some v => cb st v is_last
  | None => Throw BadAnyCast
  end.

(** utils/trie.cpp:171-197, the loop of [SearchNode] and the final call *)
Fixpoint search_loop (k : bytes) (nd : node) (pos : nat) (st : S) : outcome S :=
  match k with
  | [] =>
      if n_stop nd && (pos =? length (n_key nd)) then
        r ← visit st nd true; Ok r.1
      else Ok st
  | c :: k' =>
      if pos <? length (n_key nd) then
        match n_key nd !! pos with
        | None => UB
        | Some d => if Ascii.eqb d c then search_loop k' nd (Datatypes.S pos) st else Ok st
        end
      else
        let descend (st : S) : outcome S :=            (* lines 186-192 *)
          s ← slot nd c;
          match s with
          | None => Ok st
          | Some ch => search_loop k' ch 1 st
          end in
        if n_stop nd then
          r ← visit st nd false;
          if r.2 : bool then descend r.1 else Ok r.1
        else descend st
  end.

(** utils/trie.cpp:152-198 [Trie::SearchNode] *)
Definition search_node (root : node) (key : bytes) (st : S) : outcome S :=
  let rest (st : S) : outcome S :=                     (* lines 162-197 *)
    match key with
    | [] => Ok st
    | c :: _ =>
        s ← slot root c;
        match s with
        | None => Ok st
        | Some ch => search_loop key ch 0 st
        end
    end in
  if n_stop root then
    r ← visit st root (match key with [] => true | _ => false end);
    if r.2 : bool then rest r.1 else Ok r.1
  else rest st.
End search.

(** Mutating calls on a trie. *)
Inductive trie_op : Type :=
| TSet (key : bytes) (v : V)
| TReset.

Definition trie_step (t : node) (o : trie_op) : outcome node :=
  match o with
  | TSet k v => set_node t k v
  | TReset => Ok (trie_reset t)
  end.

Fixpoint trie_run (t : node) (ops : list trie_op) : outcome node :=
  match ops with
  | [] => Ok t
  | o :: ops' => t' ← trie_step t o; trie_run t' ops'
  end.
End trie.

Arguments node : clear implicits.
Arguments trie_op : clear implicits.
