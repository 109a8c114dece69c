(** Lemmas shared by the route, header and message proofs. *)
From Verif.Lib Require Export DecFacts.
From Verif.Model Require Export Const.
From Verif.Spec Require Export HttpSpec.
From Verif.Proof Require Export StringProof.

(** ** Cutting a string at a character *)
Lemma split_at_char c (s : bytes) : c ∈ s -> exists a b, s = a ++ c :: b /\ c ∉ a.
Proof.
  induction s as [|x s IH]; intros H; [by apply elem_of_nil in H|].
  destruct (decide (c = x)) as [->|Hne].
  - exists [], s. split; [done|]. apply not_elem_of_nil.
  - apply elem_of_cons in H as [?|H]; [done|]. destruct (IH H) as (a & b & -> & Ha).
    exists (x :: a), b. split; [done|]. by apply not_elem_of_cons.
Qed.

Lemma str_find_char c a b :
  fits (a ++ c :: b) -> c ∉ a ->
  str_find (a ++ c :: b) [c] 0 = N.of_nat (length a) /\ N.of_nat (length a) <> npos.
Proof.
  intros Hf Ha. rewrite str_find_0, find_idx_single by done. split; [done|].
  apply (lt_npos _ _ Hf). rewrite app_length. simpl. lia.
Qed.

Lemma str_find_char_none c s : c ∉ s -> str_find s [c] 0 = npos.
Proof. intros H. rewrite str_find_0. by rewrite (proj2 (find_idx_single_None c s)). Qed.

Lemma substr_before (a b : bytes) : substr (a ++ b) 0 (N.of_nat (length a)) = Ok a.
Proof.
  change 0%N with (N.of_nat 0). rewrite substr_nat by lia. by rewrite drop_0, take_app.
Qed.

Lemma substr_after (a b : bytes) n : fits (a ++ b) -> n = N.of_nat (length a) -> substr_from (a ++ b) n = Ok b.
Proof.
  intros Hf ->. rewrite substr_from_nat; [|done|rewrite app_length; lia]. by rewrite drop_app.
Qed.

Lemma substr_after_char (a b : bytes) c :
  fits (a ++ c :: b) -> substr_from (a ++ c :: b) (szadd (N.of_nat (length a)) 1) = Ok b.
Proof.
  intros Hf.
  assert (Hlen : (N.of_nat (length (a ++ c :: b)) < 2 ^ 63)%N) by exact Hf.
  rewrite app_length in Hlen. simpl in Hlen.
  replace (a ++ c :: b) with ((a ++ [c]) ++ b) by by rewrite <- app_assoc.
  apply substr_after.
  - by rewrite <- app_assoc.
  - change 1%N with (N.of_nat 1). rewrite szadd_nat by (simpl; lia). rewrite app_length. done.
Qed.

(** ** Joining and splitting *)
Lemma join_cons d x y l : join d (x :: y :: l) = x ++ d ++ join d (y :: l).
Proof. done. Qed.

Lemma not_in_prefix_of_drop c (a b : bytes) j :
  c ∉ a -> j < length a -> ~ [c] `prefix_of` drop j (a ++ [c] ++ b).
Proof.
  intros Hc Hj Hp.
  destruct (find_idx_Some [c] (a ++ [c] ++ b) (length a)) as (_ & _ & H).
  - by apply find_idx_single.
  - by apply (H j Hj).
Qed.

Lemma pieces_join_char c l :
  l <> [] -> Forall (fun x => c ∉ x) l -> pieces [c] (join [c] l) l.
Proof.
  intros Hne HF. induction HF as [|x l Hx HF IH]; [done|].
  destruct l as [|y l].
  - simpl. constructor. by rewrite contains_single.
  - rewrite join_cons. constructor; [|by apply IH].
    intros j Hj. by apply not_in_prefix_of_drop.
Qed.

Lemma pieces_join_crlf l :
  l <> [] -> Forall one_line l -> pieces CRLF (join CRLF l) l.
Proof.
  intros Hne HF. induction HF as [|x l Hx HF IH]; [done|].
  destruct l as [|y l].
  - simpl. by constructor.
  - rewrite join_cons. constructor; [|by apply IH].
    intros j Hj. destruct (find_idx_Some CRLF (x ++ CRLF ++ join CRLF (y :: l)) (length x)) as (_ & _ & H).
    + by apply find_idx_pair.
    + by apply H.
Qed.

Lemma join_fits_all d l : fits (join d l) -> Forall fits l.
Proof.
  induction l as [|x l IH]; intros Hf; [done|]. destruct l as [|y l].
  - by repeat constructor.
  - rewrite join_cons in Hf. constructor; [by eapply fits_app_l|].
    apply IH. by do 2 apply fits_app_r in Hf.
Qed.

Lemma pieces_fits d s l : fits s -> pieces d s l -> Forall fits l.
Proof. intros Hf Hp. rewrite <- (pieces_join _ _ _ Hp) in Hf. by eapply join_fits_all. Qed.

(** ** Storing a list of pairs *)
Definition insert_all (m : smap) (kvs : list (bytes * bytes)) : smap :=
  foldl (fun m kv => <[kv.1 := kv.2]> m) m kvs.

Lemma insert_all_lookup m kvs k :
  insert_all m kvs !! k = match last_val kvs k with Some v => Some v | None => m !! k end.
Proof.
  revert m. induction kvs as [|[k' v'] kvs IH]; intros m; simpl; [done|].
  rewrite IH. destruct (last_val kvs k); [done|]. simpl.
  destruct (decide (k' = k)) as [->|Hne].
  - by rewrite lookup_insert.
  - by rewrite lookup_insert_ne.
Qed.

Lemma last_val_In {V} (kvs : list (bytes * V)) k v : last_val kvs k = Some v -> (k, v) ∈ kvs.
Proof.
  induction kvs as [|[k' v'] kvs IH]; simpl; [done|]. intros H.
  destruct (last_val kvs k) as [w|].
  - injection H as ->. right. by apply IH.
  - destruct (decide (k' = k)) as [->|]; [|done]. injection H as ->. left.
Qed.

Lemma last_val_None {V} (kvs : list (bytes * V)) k v : last_val kvs k = None -> (k, v) ∉ kvs.
Proof.
  induction kvs as [|[k' v'] kvs IH]; simpl; intros H; [apply not_elem_of_nil|].
  destruct (last_val kvs k); [done|]. destruct (decide (k' = k)) as [->|Hne]; [done|].
  apply not_elem_of_cons. split; [congruence|]. by apply IH.
Qed.

Lemma last_val_map (m : smap) kvs k :
  kvs ≡ₚ map_to_list m -> last_val kvs k = m !! k.
Proof.
  intros Hp. destruct (last_val kvs k) as [v|] eqn:E.
  - apply last_val_In in E. rewrite Hp in E. apply elem_of_map_to_list in E. done.
  - destruct (m !! k) as [v|] eqn:Em; [|done]. exfalso.
    apply (last_val_None _ _ v E). rewrite Hp. by apply elem_of_map_to_list.
Qed.

(** Storing all entries of a map, in any order, gives the map. *)
Lemma insert_all_map (m : smap) kvs : kvs ≡ₚ map_to_list m -> insert_all ∅ kvs = m.
Proof.
  intros Hp. apply map_eq. intros k. rewrite insert_all_lookup, (last_val_map m) by done.
  rewrite lookup_empty. by destruct (m !! k).
Qed.

Lemma valid_order_sorted : valid_order map_to_list.
Proof. by intros m. Qed.

Lemma valid_order_nonempty (it : iter_order) (m : smap) : valid_order it -> m <> ∅ -> it m <> [].
Proof.
  intros Hit Hm H. apply Hm. apply map_to_list_empty_iff. apply Permutation_nil_r.
  specialize (Hit m). by rewrite H in Hit.
Qed.
