(** C07-C11: the radix tree (src/cppnet/utils/trie.cpp). *)
From Verif.Proof Require Import TrieProof.

Section props.
Context {V : Type}.
Implicit Types (ops : list (trie_op V)) (t : node V) (k q : bytes) (v : V).

(** ** C10 (safety half): with ASCII keys nothing undefined happens. *)
Definition trie_total_full : Prop := forall ops, exists t, trie_run trie_new ops = Ok t /\
  forall k, is_ok (trie_get t k) /\ is_ok (trie_check t k).

Theorem trie_ascii_is_safe_partial : forall ops,
  ascii_history (map op_history ops) ->
  exists t, trie_run trie_new ops = Ok t /\
    forall k, ascii_only k -> is_ok (trie_get t k) /\ is_ok (trie_check t k).
Proof.
  intros ops Ha. destruct (trie_run_latest ops Ha) as (t & Hr & Ht & _).
  exists t. split; [done|]. intros k Hk.
  destruct (trie_get_ok t k Ht Hk) as (o & H1 & H2 & _). split; by eexists.
Qed.

(** The other half is false: any key that starts with a byte >= 128 indexes the
    child table out of bounds, in every trie. *)
Theorem trie_non_ascii_is_undefined : forall t c k v,
  is_ascii c = false ->
  set_node t (c :: k) v = UB /\ trie_get t (c :: k) = UB /\ trie_check t (c :: k) = UB.
Proof.
  intros t c k v Hc. split; [by apply set_nonascii_ub|].
  unfold trie_get, trie_check. by rewrite get_nonascii_ub.
Qed.

Theorem trie_total_refuted (v0 : V) : ~ trie_total_full.
Proof.
  intros H. destruct (H []) as (t & Ht & Hk). destruct (Hk [ascii_of_nat 195]) as [[o Ho] _].
  unfold trie_get in Ho. by rewrite get_nonascii_ub in Ho.
Qed.

(** ** C07 *)
Theorem trie_get_returns_latest : forall ops t k v,
  ascii_history (map op_history ops) -> trie_run trie_new ops = Ok t ->
  latest (map op_history ops) k = Some v ->
  trie_get t k = Ok (Some v) /\ trie_check t k = Ok true.
Proof.
  intros ops t k v Ha Hr Hl.
  destruct (trie_run_latest ops Ha) as (t' & Hr' & Ht & Hc). rewrite Hr in Hr'. injection Hr' as <-.
  assert (Hk : ascii_only k) by by eapply latest_ascii.
  destruct (trie_get_ok t k Ht Hk) as (o & H1 & H2 & H3).
  assert (o = Some v) as ->.
  { apply H3. destruct (decide (k = [])) as [->|_]; [by rewrite Hc|].
    by apply (resolves_stored _ _ v); [rewrite Hc|]. }
  auto.
Qed.

(** ** C08 *)
Definition trie_get_absent_full : Prop := forall ops t k,
  ascii_history (map op_history ops) -> trie_run trie_new ops = Ok t -> ascii_only k ->
  latest (map op_history ops) k = None -> trie_get t k = Ok None.

(** Exactly what Get answers: for a non-empty key, the value of the stored key
    [c] that extends [k] and is a prefix of all stored extensions of [k]. *)
Theorem trie_get_exact : forall ops t k v,
  ascii_history (map op_history ops) -> trie_run trie_new ops = Ok t -> ascii_only k -> k <> [] ->
  (trie_get t k = Ok (Some v) <-> resolves (latest (map op_history ops)) k v).
Proof.
  intros ops t k v Ha Hr Hk Hne.
  destruct (trie_run_latest ops Ha) as (t' & Hr' & Ht & Hc). rewrite Hr in Hr'. injection Hr' as <-.
  destruct (trie_get_ok t k Ht Hk) as (o & H1 & _ & H3).
  specialize (H3 v). rewrite decide_False in H3 by done.
  rewrite <- (resolves_ext (contents t) (latest (map op_history ops)) k v Hc).
  rewrite <- H3, H1. split; congruence.
Qed.

(** Missing from C08: keys that are proper prefixes of stored keys. *)
Theorem trie_get_absent_partial : forall ops t k,
  ascii_history (map op_history ops) -> trie_run trie_new ops = Ok t -> ascii_only k ->
  (forall k', is_Some (latest (map op_history ops) k') -> ~ k `prefix_of` k') ->
  trie_get t k = Ok None /\ trie_check t k = Ok false.
Proof.
  intros ops t k Ha Hr Hk Hno.
  destruct (trie_run_latest ops Ha) as (t' & Hr' & Ht & Hc). rewrite Hr in Hr'. injection Hr' as <-.
  destruct (trie_get_ok t k Ht Hk) as (o & H1 & H2 & H3).
  assert (o = None) as ->; [|auto].
  destruct o as [v|]; [|done]. exfalso.
  pose proof (proj1 (H3 v) eq_refl) as H. destruct (decide (k = [])) as [->|_].
  - apply (Hno []); [|done]. rewrite <- Hc. by eexists.
  - destruct H as (c & Hp & Hc' & _). apply (Hno c); [|done]. rewrite <- Hc. by eexists.
Qed.

(** ** C09 *)
Theorem trie_search_visits_stored_prefixes :
  forall {S} (cb : S -> V -> bool -> outcome (S * bool)) ops t q (st : S),
  ascii_history (map op_history ops) -> trie_run trie_new ops = Ok t -> ascii_only q ->
  search_node cb t q st =
    call_until_stop cb (stored_prefixes (latest (map op_history ops)) q) st.
Proof.
  intros S cb ops t q st Ha Hr Hq.
  destruct (trie_run_latest ops Ha) as (t' & Hr' & Ht & Hc). rewrite Hr in Hr'. injection Hr' as <-.
  rewrite search_node_ok by done. f_equal. rewrite <- !visit_list_stored. by apply visit_list_ext.
Qed.

(** ** C11 *)
Theorem trie_reset_forgets : forall ops1 ops2 t1,
  trie_run trie_new ops1 = Ok t1 ->
  trie_run trie_new (ops1 ++ TReset :: ops2) = trie_run trie_new ops2.
Proof. intros ops1 ops2 t1 H. rewrite trie_run_app, H. done. Qed.
End props.

(** "/hello" stored, "/hel" asked for. *)
Theorem trie_get_absent_refuted : ~ @trie_get_absent_full nat.
Proof.
  intros H.
  destruct (trie_run trie_new [TSet (B "/hello") 7]) as [t| | | | |] eqn:E; try (by vm_compute in E).
  assert (Hx : trie_get t (B "/hel") = Ok None).
  { apply (H [TSet (B "/hello") 7] t (B "/hel")).
    - repeat constructor.
    - done.
    - repeat constructor.
    - by vm_compute. }
  vm_compute in E. injection E as <-. by vm_compute in Hx.
Qed.

Print Assumptions trie_ascii_is_safe_partial.
Print Assumptions trie_non_ascii_is_undefined.
Print Assumptions trie_total_refuted.
Print Assumptions trie_get_returns_latest.
Print Assumptions trie_get_exact.
Print Assumptions trie_get_absent_partial.
Print Assumptions trie_get_absent_refuted.
Print Assumptions trie_search_visits_stored_prefixes.
Print Assumptions trie_reset_forgets.

(** Non-vacuity: forks, overwriting, prefixes, the root key, a reset. *)
Definition ex_ops : list (trie_op nat) :=
  [TSet (B "zzz") 9; TReset; TSet (B "/api/user") 1; TSet (B "/api/users") 2; TSet (B "/about") 3;
   TSet [] 4; TSet (B "/api/user") 5].

Example ex_history : ascii_history (map op_history ex_ops).
Proof. repeat constructor. Qed.

Example ex_get :
  match trie_run trie_new ex_ops with
  | Ok t => trie_get t (B "/api/user") = Ok (Some 5) /\ trie_get t (B "/api/users") = Ok (Some 2) /\
            trie_get t [] = Ok (Some 4) /\ trie_get t (B "zzz") = Ok None /\
            trie_get t (B "/ap") = Ok (Some 5)   (* the wrong answer of C08 *) /\
            trie_get t (B "/a") = Ok None /\
            search_node (fun st v (last : bool) => Ok (st ++ [(v, last)], true)) t (B "/api/users") [] =
              Ok [(4, false); (5, false); (2, true)]
  | _ => False
  end.
Proof. vm_compute. auto 10. Qed.
