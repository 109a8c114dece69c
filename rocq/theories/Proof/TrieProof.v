(** The radix tree refines a finite map. *)
From Verif.Lib Require Export CxxStringFacts.
From Verif.Model Require Export Trie.
From Verif.Spec Require Export TrieSpec.

Section proof.
Context {V : Type}.
Notation node := (node V).
Implicit Types nd ch t : node.

(** Exact lookup below [nd] with [pos] bytes of its key already consumed. *)
Fixpoint lk (q : bytes) (nd : node) (pos : nat) : option V :=
  match q with
  | [] => if (pos =? length (n_key nd)) && n_stop nd then n_data nd else None
  | c :: q' =>
      if pos <? length (n_key nd) then
        if decide (n_key nd !! pos = Some c) then lk q' nd (S pos) else None
      else match n_next nd c with
           | Some ch => lk q' ch 1
           | None => None
           end
  end.

(** Path compression: a node without value has two children. *)
Definition compact (nd : node) : Prop :=
  n_stop nd = true \/
  exists c1 c2, c1 <> c2 /\ is_Some (n_next nd c1) /\ is_Some (n_next nd c2).

Inductive wf : node -> Prop :=
| wf_intro key stop data next :
    (stop = true <-> is_Some data) ->
    ascii_only key ->
    (forall c ch, next c = Some ch -> is_ascii c = true) ->
    (forall c ch, next c = Some ch -> exists r, n_key ch = c :: r) ->
    (forall c ch, next c = Some ch -> compact ch) ->
    (forall c ch, next c = Some ch -> wf ch) ->
    wf (Node key stop data next).

Lemma wf_stop nd : wf nd -> n_stop nd = true <-> is_Some (n_data nd).
Proof. by destruct 1. Qed.
Lemma wf_key nd : wf nd -> ascii_only (n_key nd).
Proof. by destruct 1. Qed.
Lemma wf_next_ascii nd c ch : wf nd -> n_next nd c = Some ch -> is_ascii c = true.
Proof. destruct 1; simpl; eauto. Qed.
Lemma wf_next_key nd c ch : wf nd -> n_next nd c = Some ch -> exists r, n_key ch = c :: r.
Proof. destruct 1; simpl; eauto. Qed.
Lemma wf_next_compact nd c ch : wf nd -> n_next nd c = Some ch -> compact ch.
Proof. destruct 1; simpl; eauto. Qed.
Lemma wf_next_wf nd c ch : wf nd -> n_next nd c = Some ch -> wf ch.
Proof. destruct 1; simpl; eauto. Qed.

Lemma wf_new : wf new_node.
Proof. constructor; try done. split; [done|]. intros [? H]; done. constructor. Qed.

Lemma wf_leaf key v : ascii_only key -> wf (Node key true (Some v) (fun _ => None)).
Proof. intros H. constructor; try done. Qed.

Lemma wf_mark nd v : wf nd -> wf (mark nd v).
Proof. destruct 1. by constructor. Qed.

Lemma compact_mark nd v : compact (mark nd v).
Proof. by left. Qed.

Lemma wf_set_child nd c ch r :
  wf nd -> is_ascii c = true -> n_key ch = c :: r -> compact ch -> wf ch ->
  wf (set_child nd c ch).
Proof.
  intros Hnd Hc Hk Hcp Hch. unfold set_child. destruct Hnd; simpl.
  constructor; try done.
  all: intros x ch'; destruct (Ascii.eqb_spec x c) as [->|Hne]; [intros [= <-]|]; eauto.
Qed.

Lemma compact_set_child nd c ch : compact nd -> compact (set_child nd c ch).
Proof.
  intros [H|(c1 & c2 & Hne & H1 & H2)]; [by left|]. right. exists c1, c2.
  split; [done|]. simpl. by split; destruct (Ascii.eqb _ c).
Qed.

Lemma lk_set_child q nd c ch pos :
  n_next nd c = None \/ True ->
  pos = length (n_key nd) ->
  lk q (set_child nd c ch) pos =
    match q with
    | [] => lk [] nd pos
    | d :: q' => if decide (d = c) then lk q' ch 1 else lk q nd pos
    end.
Proof.
  intros _ ->. destruct q as [|d q]; [done|]. simpl.
  rewrite Nat.ltb_irrefl.
  destruct (Ascii.eqb_spec d c), (decide (d = c)); done.
Qed.

(** Forking changes neither lookups at or before the fork position ... *)
Lemma fork_node_ok nd pos :
  wf nd -> 0 < pos -> pos < length (n_key nd) ->
  exists c ch nd', n_key nd !! pos = Some c /\ is_ascii c = true /\
    fork_node nd pos = Ok nd' /\
    nd' = Node (take pos (n_key nd)) false None
            (fun x => if Ascii.eqb x c then Some ch else None) /\
    ch = Node (drop pos (n_key nd)) (n_stop nd) (n_data nd) (n_next nd) /\
    (compact nd -> wf nd').
Proof.
  intros Hwf H0 Hlt.
  destruct (lookup_lt_is_Some_2 (n_key nd) pos Hlt) as [c Hc].
  assert (Ha : is_ascii c = true).
  { pose proof (wf_key _ Hwf) as HF. unfold ascii_only in HF.
    rewrite Forall_lookup in HF. by eapply HF. }
  eexists c, _, _. split; [done|]. split; [done|]. split.
  { unfold fork_node. replace ((pos <=? 0) || (length (n_key nd) <=? pos)) with false by lia.
    rewrite Hc, Ha. reflexivity. }
  split; [reflexivity|]. split; [reflexivity|]. intros Hcp.
  constructor.
  - split; [done|]. intros [? ?]; done.
  - apply Forall_take. by apply wf_key.
  - intros x ch. destruct (Ascii.eqb_spec x c) as [->|]; [|done]. done.
  - intros x ch. destruct (Ascii.eqb_spec x c) as [->|]; [|done].
    intros [= <-]. simpl. exists (drop (S pos) (n_key nd)). by apply drop_S.
  - intros x ch. destruct (Ascii.eqb_spec x c) as [->|]; [|done].
    intros [= <-]. destruct nd. exact Hcp.
  - intros x ch. destruct (Ascii.eqb_spec x c) as [->|]; [|done].
    intros [= <-]. destruct Hwf. simpl in *. constructor; try done. by apply Forall_drop.
Qed.

(** Lookups are the same in a node whose key lost its first [n] bytes. *)
Lemma lk_drop q key stop data next n p :
  n <= length key ->
  lk q (Node (drop n key) stop data next) p = lk q (Node key stop data next) (n + p).
Proof.
  intros Hn. revert p. induction q as [|c q IH]; intros p; simpl.
  - rewrite drop_length. replace (p =? length key - n) with (n + p =? length key) by lia. done.
  - rewrite drop_length. replace (p <? length key - n) with (n + p <? length key) by lia.
    rewrite lookup_drop. rewrite IH. by rewrite Nat.add_succ_r.
Qed.

Lemma lk_fork q nd pos c ch p :
  0 < pos -> pos < length (n_key nd) ->
  n_key nd !! pos = Some c ->
  ch = Node (drop pos (n_key nd)) (n_stop nd) (n_data nd) (n_next nd) ->
  p <= pos ->
  lk q (Node (take pos (n_key nd)) false None
          (fun x => if Ascii.eqb x c then Some ch else None)) p = lk q nd p.
Proof.
  intros H0 Hlt Hc ->. revert p. induction q as [|d q IH]; intros p Hp; simpl.
  - rewrite andb_false_r.
    replace (p =? length (n_key nd)) with false by lia. done.
  - rewrite take_length, Nat.min_l by lia.
    replace (p <? length (n_key nd)) with true by lia.
    destruct (decide (p = pos)) as [->|Hne].
    + rewrite Nat.ltb_irrefl. rewrite Hc.
      destruct (Ascii.eqb_spec d c) as [->|Hdc].
      * rewrite decide_True by done. rewrite lk_drop by lia.
        destruct nd as [k st dt nx]. simpl.
        by rewrite Nat.add_1_r.
      * by rewrite decide_False by congruence.
    + replace (p <? pos) with true by lia. rewrite lookup_take by lia.
      destruct (decide _); [|done]. apply IH. lia.
Qed.

Lemma lk_mark q nd v pos :
  pos = length (n_key nd) ->
  lk q (mark nd v) pos = match q with [] => Some v | _ => lk q nd pos end.
Proof.
  intros ->. destruct q as [|c q]; simpl; [by rewrite Nat.eqb_refl|].
  by rewrite Nat.ltb_irrefl.
Qed.

(** Extensionality of lookups inside the key: bytes up to [pos] do not matter. *)
Lemma lk_leaf q key v :
  lk q (Node key true (Some v) (fun _ => None)) 0 = if decide (q = key) then Some v else None.
Proof.
  assert (Hg : forall p, p <= length key ->
    lk q (Node key true (Some v) (fun _ => None)) p = if decide (q = drop p key) then Some v else None).
  { induction q as [|c q IH]; intros p Hp; simpl.
    - destruct (Nat.eqb_spec p (length key)) as [->|Hne]; simpl.
      + rewrite drop_all. by rewrite decide_True.
      + rewrite decide_False; [done|]. intros Hd. apply (f_equal length) in Hd.
        rewrite drop_length in Hd. simpl in Hd. lia.
    - destruct (Nat.ltb_spec p (length key)) as [Hlt|Hge].
      + destruct (lookup_lt_is_Some_2 key p Hlt) as [d Hd].
        rewrite (drop_S _ _ _ Hd). rewrite Hd.
        destruct (decide (Some d = Some c)) as [[= ->]|Hne].
        * rewrite IH by lia. destruct (decide (q = _)) as [->|Hq].
          -- by rewrite decide_True.
          -- rewrite decide_False; congruence.
        * rewrite decide_False; congruence.
      + rewrite drop_ge by lia. by rewrite decide_False. }
  rewrite Hg by lia. done.
Qed.

Lemma lk_leaf1 q c k v :
  lk q (Node (c :: k) true (Some v) (fun _ => None)) 1 = if decide (q = k) then Some v else None.
Proof.
  rewrite <- (lk_leaf q k v).
  symmetry. apply (lk_drop q (c :: k) true (Some v) (fun _ => None) 1 0). simpl. lia.
Qed.

(** The tail of the loop when the node's key is used up. *)
Lemma past_end_ok c k' n v pos :
  wf n -> is_ascii c = true -> ascii_only k' -> pos = length (n_key n) ->
  (forall ch, n_next n c = Some ch ->
     exists ch', set_loop k' ch 1 v = Ok ch' /\ wf ch' /\ compact ch' /\
       (exists r, n_key ch' = c :: r) /\
       forall q, lk q ch' 1 = if decide (q = k') then Some v else lk q ch 1) ->
  exists n',
    (s ← slot n c;
     match s with
     | None => Ok (set_child n c (Node (c :: k') true (Some v) (fun _ => None)))
     | Some ch => ch' ← set_loop k' ch 1 v; Ok (set_child n c ch')
     end) = Ok n' /\ wf n' /\ n_key n' = n_key n /\
    (exists ch', n' = set_child n c ch') /\
    forall q, lk q n' pos = if decide (q = c :: k') then Some v else lk q n pos.
Proof.
  intros Hwf Hc Hk' -> IH. unfold slot. rewrite Hc. simpl.
  destruct (n_next n c) as [ch|] eqn:E.
  - destruct (IH ch eq_refl) as (ch' & -> & Hwf' & Hcp' & [r Hr] & Hlk). simpl.
    eexists. split; [done|]. split; [by eapply wf_set_child|]. split; [done|]. split; [by eexists|].
    intros q. rewrite lk_set_child by auto. destruct q as [|d q].
    + by rewrite decide_False.
    + destruct (decide (d = c)) as [->|Hne].
      * rewrite Hlk. destruct (decide (q = k')) as [->|].
        -- by rewrite decide_True.
        -- rewrite decide_False by congruence. simpl. by rewrite Nat.ltb_irrefl, E.
      * by rewrite decide_False by congruence.
  - eexists. split; [done|]. split.
    { eapply wf_set_child; try done. by left. apply wf_leaf. by constructor. }
    split; [done|]. split; [by eexists|].
    intros q. rewrite lk_set_child by auto. destruct q as [|d q].
    + by rewrite decide_False.
    + destruct (decide (d = c)) as [->|Hne].
      * rewrite lk_leaf1. destruct (decide (q = k')) as [->|].
        -- by rewrite decide_True.
        -- rewrite decide_False by congruence. simpl. by rewrite Nat.ltb_irrefl, E.
      * by rewrite decide_False by congruence.
Qed.

Lemma set_loop_ok k nd pos v :
  wf nd -> compact nd -> ascii_only k -> 0 < pos -> pos <= length (n_key nd) ->
  exists nd', set_loop k nd pos v = Ok nd' /\ wf nd' /\ compact nd' /\
    take pos (n_key nd') = take pos (n_key nd) /\ pos <= length (n_key nd') /\
    forall q, lk q nd' pos = if decide (q = k) then Some v else lk q nd pos.
Proof.
  revert nd pos. induction k as [|c k IH]; intros nd pos Hwf Hcp Hk H0 Hpos.
  - simpl. destruct (Nat.eqb_spec pos (length (n_key nd))) as [->|Hne]; simpl.
    + eexists. split; [done|]. split; [by apply wf_mark|]. split; [apply compact_mark|].
      split; [done|]. split; [done|]. intros q. rewrite lk_mark by done. by destruct q.
    + destruct (fork_node_ok nd pos) as (d & ch & nd' & Hd & Ha & -> & -> & Hch & Hwf'); [done|lia|lia|].
      simpl. eexists. split; [done|]. split; [apply wf_mark; by apply Hwf'|].
      split; [apply compact_mark|]. simpl.
      rewrite take_take, Nat.min_id, take_length.
      split; [done|]. split; [lia|]. intros q.
      rewrite lk_mark by (simpl; rewrite take_length; lia).
      destruct q as [|x q]; [done|]. rewrite decide_False by done. apply lk_fork; try done; lia.
  - apply Forall_cons in Hk as [Hc Hk].
    assert (Hrec : forall n, wf n -> forall ch, n_next n c = Some ch ->
      exists ch', set_loop k ch 1 v = Ok ch' /\ wf ch' /\ compact ch' /\
       (exists r, n_key ch' = c :: r) /\
       forall q, lk q ch' 1 = if decide (q = k) then Some v else lk q ch 1).
    { intros n Hn ch Hch.
      destruct (wf_next_key _ _ _ Hn Hch) as [r Hr].
      destruct (IH ch 1) as (ch' & Heq & Hwf' & Hcp' & Htk & Hl & Hlk); try done.
      - by eapply wf_next_wf.
      - by eapply wf_next_compact.
      - lia.
      - rewrite Hr. simpl. lia.
      - exists ch'. repeat split; try done. rewrite Hr in Htk. simpl in Htk.
        destruct (n_key ch') as [|x r'] eqn:E; [done|]. injection Htk as ->. by exists r'. }
    cbn [set_loop]. destruct (Nat.ltb_spec pos (length (n_key nd))) as [Hlt|Hge].
    + destruct (lookup_lt_is_Some_2 (n_key nd) pos Hlt) as [d Hd]. rewrite Hd.
      destruct (Ascii.eqb_spec d c) as [->|Hdc].
      * destruct (IH nd (S pos)) as (nd' & Heq & Hwf' & Hcp' & Htk & Hl & Hlk); try done; [lia..|].
        exists nd'. split; [done|]. split; [done|]. split; [done|]. split.
        { apply (f_equal (take pos)) in Htk. rewrite !take_take in Htk.
          by rewrite Nat.min_l in Htk by lia. }
        split; [lia|].
        assert (Hd' : n_key nd' !! pos = Some c).
        { rewrite <- (lookup_take _ (S pos)) by lia. rewrite Htk, lookup_take by lia. done. }
        intros q. destruct q as [|x q]; simpl.
        -- replace (pos =? length (n_key nd')) with false by lia.
           replace (pos =? length (n_key nd)) with false by lia. done.
        -- replace (pos <? length (n_key nd')) with true by lia.
           replace (pos <? length (n_key nd)) with true by lia.
           rewrite Hd, Hd'. destruct (decide (Some c = Some x)) as [[= <-]|Hne].
           ++ rewrite Hlk. destruct (decide (q = k)) as [->|].
              ** by rewrite decide_True.
              ** by rewrite decide_False by congruence.
           ++ by rewrite decide_False by congruence.
      * destruct (fork_node_ok nd pos) as (d' & ch & nd1 & Hd' & Ha & -> & Hnd1 & Hch & Hwf1); [done|lia|lia|].
        rewrite Hd in Hd'. injection Hd' as <-.
        specialize (Hwf1 Hcp). simpl.
        assert (Hkey1 : n_key nd1 = take pos (n_key nd)) by by subst nd1.
        assert (Hl1 : length (n_key nd1) = pos) by (rewrite Hkey1, take_length; lia).
        rewrite Hl1, Nat.ltb_irrefl.
        destruct (past_end_ok c k nd1 v pos) as (n' & Heq & Hwf' & Hkey & [ch' Hsc] & Hlk);
          [done|done|done|done|by apply Hrec|].
        exists n'. split; [exact Heq|]. split; [done|]. split.
        { right. exists c, d. split; [congruence|]. subst n' nd1. simpl.
          rewrite Ascii.eqb_refl. split; [by eexists|].
          destruct (Ascii.eqb_spec d c); [by eexists|]. rewrite Ascii.eqb_refl. by eexists. }
        split; [by rewrite Hkey, Hkey1, take_take, Nat.min_id|].
        split; [rewrite Hkey; lia|].
        intros q. rewrite Hlk. destruct (decide (q = c :: k)); [done|].
        subst nd1. apply lk_fork; try done; lia.
    + assert (pos = length (n_key nd)) as Hposeq by lia.
      destruct (past_end_ok c k nd v pos) as (n' & Heq & Hwf' & Hkey & [ch' Hsc] & Hlk);
          [done|done|done|done|by apply Hrec|].
      exists n'. split; [exact Heq|]. split; [done|]. split.
      { subst n'. by apply compact_set_child. }
      split; [by rewrite Hkey|]. split; [by rewrite Hkey|]. done.
Qed.

(** ** The root *)
Definition wf_root (t : node) : Prop := wf t /\ n_key t = [].

(** Contents of the whole tree. *)
Definition contents (t : node) (k : bytes) : option V := lk k t 0.

Lemma set_loop_first c k ch v r :
  n_key ch = c :: r -> set_loop (c :: k) ch 0 v = set_loop k ch 1 v.
Proof. intros H. cbn [set_loop]. rewrite H. simpl. by rewrite Ascii.eqb_refl. Qed.

Lemma set_node_ok t k v :
  wf_root t -> ascii_only k ->
  exists t', set_node t k v = Ok t' /\ wf_root t' /\
    forall q, contents t' q = if decide (q = k) then Some v else contents t q.
Proof.
  intros [Hwf Hkey] Hk. destruct k as [|c k].
  - simpl. eexists. split; [done|]. split; [split; [by apply wf_mark|done]|].
    intros q. unfold contents. rewrite lk_mark by by rewrite Hkey. by destruct q.
  - apply Forall_cons in Hk as [Hc Hk].
    destruct (past_end_ok c k t v 0) as (n' & Heq & Hwf' & Hkey' & _ & Hlk); try done.
    + by rewrite Hkey.
    + intros ch Hch. destruct (wf_next_key _ _ _ Hwf Hch) as [r Hr].
      destruct (set_loop_ok k ch 1 v) as (ch' & Heq & Hwf' & Hcp' & Htk & Hl & Hlk); try done.
      * by eapply wf_next_wf.
      * by eapply wf_next_compact.
      * lia.
      * rewrite Hr. simpl. lia.
      * exists ch'. repeat split; try done. rewrite Hr in Htk. simpl in Htk.
        destruct (n_key ch') as [|x r'] eqn:E; [done|]. injection Htk as ->. by exists r'.
    + exists n'. split.
      * rewrite <- Heq. unfold set_node, slot. rewrite Hc. unfold mbind, outcome_bind.
        destruct (n_next t c) as [ch|] eqn:E.
        -- destruct (wf_next_key _ _ _ Hwf E) as [r Hr]. rewrite Hr.
           by rewrite (set_loop_first c k ch v r).
        -- done.
      * split; [split; [done|congruence]|]. done.
Qed.

Lemma wf_root_new : wf_root (trie_new : node).
Proof. split; [apply wf_new|done]. Qed.

Lemma contents_new q : contents (trie_new : node) q = None.
Proof. by destruct q. Qed.

(** Histories of the model and of the specification. *)
Definition op_history (o : trie_op V) : option (bytes * V) :=
  match o with TSet k v => Some (k, v) | TReset => None end.

Lemma trie_run_ok t ops :
  wf_root t -> ascii_history (map op_history ops) ->
  exists t', trie_run t ops = Ok t' /\ wf_root t' /\
    forall q, contents t' q = latest_from (contents t q) (map op_history ops) q.
Proof.
  revert t. induction ops as [|o ops IH]; intros t Ht Ha; simpl.
  - eauto.
  - simpl in Ha. apply Forall_cons in Ha as [Ho Ha]. destruct o as [k v|]; simpl.
    + destruct (set_node_ok t k v Ht Ho) as (t1 & -> & Ht1 & Hc). simpl.
      destruct (IH t1 Ht1 Ha) as (t' & -> & Ht' & Hc'). exists t'. split; [done|]. split; [done|].
      intros q. rewrite Hc', Hc.
      destruct (decide (q = k)), (decide (k = q)); congruence.
    + destruct (IH new_node wf_root_new Ha) as (t' & Heq & Ht' & Hc').
      exists t'. split; [exact Heq|]. split; [done|]. intros q. rewrite Hc'. by rewrite contents_new.
Qed.

Lemma latest_from_ascii (acc : option V) h k v :
  ascii_history h -> latest_from acc h k = Some v -> acc = Some v \/ ascii_only k.
Proof.
  revert acc. induction h as [|o h IH]; intros acc Ha Hl; simpl in *; [auto|].
  apply Forall_cons in Ha as [Ho Ha]. destruct o as [[k' w]|].
  - destruct (IH _ Ha Hl) as [H|H]; [|auto].
    destruct (decide (k' = k)) as [->|]; auto.
  - destruct (IH _ Ha Hl) as [H|H]; [done|auto].
Qed.

Lemma latest_ascii (h : history V) k v : ascii_history h -> latest h k = Some v -> ascii_only k.
Proof. intros Ha Hl. by destruct (latest_from_ascii None h k v Ha Hl). Qed.

Lemma trie_run_app t ops1 ops2 :
  trie_run t (ops1 ++ ops2) = (t1 ← trie_run t ops1; trie_run t1 ops2).
Proof.
  revert t. induction ops1 as [|o ops1 IH]; intros t; simpl; [done|].
  destruct (trie_step t o); simpl; [apply IH|done..].
Qed.

Lemma trie_run_latest ops :
  ascii_history (map op_history ops) ->
  exists t, trie_run trie_new ops = Ok t /\ wf_root t /\
    forall q, contents t q = latest (map op_history ops) q.
Proof.
  intros Ha. destruct (trie_run_ok trie_new ops wf_root_new Ha) as (t & Heq & Ht & Hc).
  exists t. split; [done|]. split; [done|]. intros q. by rewrite Hc, contents_new.
Qed.

(** ** Get *)

(** Every subtree below a compact node holds some key. *)
Lemma subtree_inhabited nd :
  wf nd -> compact nd -> forall pos, pos <= length (n_key nd) -> exists q, is_Some (lk q nd pos).
Proof.
  induction 1 as [key stop data next Hstop Hkey Hna Hnk Hnc Hnw IH].
  intros Hcp.
  assert (Hend : exists q, is_Some (lk q (Node key stop data next) (length key))).
  { destruct Hcp as [Hs|(c1 & c2 & _ & [ch1 H1] & _)].
    - exists []. simpl in *. rewrite Nat.eqb_refl, Hs. simpl. by apply Hstop.
    - simpl in H1. destruct (Hnk _ _ H1) as [r Hr].
      destruct (IH _ _ H1 (Hnc _ _ H1) 1) as [q Hq]; [rewrite Hr; simpl; lia|].
      exists (c1 :: q). simpl. by rewrite Nat.ltb_irrefl, H1. }
  destruct Hend as [q0 Hq0].
  intros pos Hpos. simpl in Hpos.
  remember (length key - pos) as n eqn:Hn. revert pos Hpos Hn.
  induction n as [|n IHn]; intros pos Hpos Hn.
  - replace pos with (length key) by lia. eauto.
  - destruct (IHn (S pos)) as [q Hq]; [lia..|].
    destruct (lookup_lt_is_Some_2 key pos) as [c Hc]; [lia|].
    exists (c :: q). simpl. replace (pos <? length key) with true by lia.
    by rewrite decide_True by done.
Qed.

(** Reading through the rest of a node's key. *)
Lemma lk_through nd pos q :
  pos <= length (n_key nd) ->
  lk (drop pos (n_key nd) ++ q) nd pos = lk q nd (length (n_key nd)).
Proof.
  intros Hpos. remember (length (n_key nd) - pos) as n eqn:Hn. revert pos Hpos Hn.
  induction n as [|n IH]; intros pos Hpos Hn.
  - replace pos with (length (n_key nd)) by lia. by rewrite drop_all.
  - destruct (lookup_lt_is_Some_2 (n_key nd) pos) as [c Hc]; [lia|].
    rewrite (drop_S _ _ _ Hc). simpl. replace (pos <? length (n_key nd)) with true by lia.
    rewrite decide_True by done. apply IH; lia.
Qed.

Lemma lk_shape nd pos q v :
  pos <= length (n_key nd) -> lk q nd pos = Some v ->
  exists q', q = drop pos (n_key nd) ++ q' /\ lk q' nd (length (n_key nd)) = Some v.
Proof.
  revert pos. induction q as [|c q IH]; intros pos Hpos Hlk.
  - simpl in Hlk. destruct (Nat.eqb_spec pos (length (n_key nd))) as [->|]; [|done].
    exists []. rewrite drop_all. simpl. by rewrite Nat.eqb_refl.
  - simpl in Hlk. destruct (Nat.ltb_spec pos (length (n_key nd))) as [Hlt|Hge].
    + destruct (decide (n_key nd !! pos = Some c)) as [Hc|]; [|done].
      destruct (IH (S pos)) as (q' & -> & H); [lia|done|].
      exists q'. rewrite (drop_S _ _ _ Hc). done.
    + exists (c :: q). replace pos with (length (n_key nd)) by lia. rewrite drop_all.
      split; [done|]. simpl. by rewrite Nat.ltb_irrefl.
Qed.

(** [c] is the shortest stored key through which all stored extensions of the
    empty query pass. *)
Lemma get_end nd pos v :
  wf nd -> compact nd -> pos <= length (n_key nd) ->
  (n_stop nd = true /\ n_data nd = Some v) <->
  exists c, lk c nd pos = Some v /\
    forall c', is_Some (lk c' nd pos) -> c `prefix_of` c'.
Proof.
  intros Hwf Hcp Hpos. split.
  - intros [Hs Hd]. exists (drop pos (n_key nd)). split.
    + rewrite <- (app_nil_r (drop pos (n_key nd))), lk_through by done. simpl.
      by rewrite Nat.eqb_refl, Hs.
    + intros c' [w Hw]. destruct (lk_shape _ _ _ _ Hpos Hw) as (q' & -> & _). by exists q'.
  - intros (c & Hc & Hall).
    destruct (lk_shape _ _ _ _ Hpos Hc) as (q' & -> & Hq').
    destruct (n_stop nd) eqn:Hs.
    + split; [done|].
      assert (Hp : is_Some (n_data nd)) by by apply wf_stop.
      assert (He : lk (drop pos (n_key nd) ++ []) nd pos = n_data nd).
      { rewrite lk_through by done. simpl. by rewrite Nat.eqb_refl, Hs. }
      assert (Hpre : drop pos (n_key nd) ++ q' `prefix_of` drop pos (n_key nd) ++ []).
      { apply Hall. by rewrite He. }
      apply prefix_app_inv in Hpre. apply prefix_nil_inv in Hpre as ->.
      simpl in Hq'. by rewrite Nat.eqb_refl, Hs in Hq'.
    + exfalso. destruct Hcp as [?|(c1 & c2 & Hne & [ch1 H1] & [ch2 H2])]; [congruence|].
      assert (Hin : forall c ch, n_next nd c = Some ch -> exists q, is_Some (lk (drop pos (n_key nd) ++ c :: q) nd pos)).
      { intros c ch Hch. destruct (wf_next_key _ _ _ Hwf Hch) as [r Hr].
        destruct (subtree_inhabited ch) with (pos := 1) as [q Hq].
        - by eapply wf_next_wf.
        - by eapply wf_next_compact.
        - rewrite Hr. simpl. lia.
        - exists q. rewrite lk_through by done. simpl. by rewrite Nat.ltb_irrefl, Hch. }
      destruct (Hin _ _ H1) as [q1 Hq1]. destruct (Hin _ _ H2) as [q2 Hq2].
      apply Hall in Hq1, Hq2.
      apply prefix_app_inv in Hq1. apply prefix_app_inv in Hq2.
      destruct q' as [|x q']; [simpl in Hq'; by rewrite Nat.eqb_refl, Hs in Hq'|].
      apply prefix_cons_inv_1 in Hq1. apply prefix_cons_inv_1 in Hq2. congruence.
Qed.

Lemma resolves_cons (f : bytes -> option V) x k v :
  resolves f (x :: k) v <-> resolves (fun q => f (x :: q)) k v.
Proof.
  split.
  - intros (c & [r Hr] & Hc & Hall). exists (k ++ r). simpl in Hr. subst c.
    split; [by exists r|]. split; [done|]. intros c' Hc' Hp.
    assert (H : x :: k ++ r `prefix_of` x :: c').
    { apply Hall; [done|]. by apply prefix_cons. }
    by apply prefix_cons_inv_2 in H.
  - intros (c & [r ->] & Hc & Hall). exists (x :: k ++ r).
    split; [by exists r|]. split; [done|]. intros c' Hc' [r' Hr']. subst c'.
    simpl. apply prefix_cons. apply Hall; [done|]. by exists r'.
Qed.

Lemma resolves_none (f : bytes -> option V) k v : (forall q, f q = None) -> ~ resolves f k v.
Proof. intros H (c & _ & Hc & _). by rewrite H in Hc. Qed.

Lemma resolves_ext (f g : bytes -> option V) k v :
  (forall q, f q = g q) -> resolves f k v <-> resolves g k v.
Proof. intros H. unfold resolves. by setoid_rewrite H. Qed.

Lemma get_loop_ok k nd pos :
  wf nd -> compact nd -> ascii_only k -> pos <= length (n_key nd) ->
  exists o, get_loop k nd pos = Ok o /\
    (forall n, o = Some n -> is_Some (n_data n)) /\
    forall v, (exists n, o = Some n /\ n_data n = Some v) <-> resolves (fun q => lk q nd pos) k v.
Proof.
  revert nd pos. induction k as [|c k IH]; intros nd pos Hwf Hcp Hk Hpos.
  - eexists. split; [done|]. split.
    { intros n. destruct (n_stop nd) eqn:E; [|done]. intros [= <-]. by apply wf_stop. }
    intros v. transitivity (n_stop nd = true /\ n_data nd = Some v).
    + destruct (n_stop nd); naive_solver.
    + rewrite (get_end nd pos) by done. unfold resolves.
      split; intros (x & H); exists x; naive_solver eauto using prefix_nil.
  - apply Forall_cons in Hk as [Hc Hk]. simpl.
    destruct (Nat.ltb_spec pos (length (n_key nd))) as [Hlt|Hge].
    + destruct (lookup_lt_is_Some_2 (n_key nd) pos Hlt) as [d Hd]. rewrite Hd.
      destruct (Ascii.eqb_spec d c) as [->|Hdc].
      * destruct (IH nd (S pos)) as (o & -> & Ho & Hv); try done. exists o. split; [done|].
        split; [done|]. intros v. rewrite Hv, resolves_cons. apply resolves_ext.
        intros q. simpl. replace (pos <? length (n_key nd)) with true by lia.
        by rewrite decide_True.
      * exists None. split; [done|]. split; [done|]. intros v. rewrite resolves_cons.
        split; [naive_solver|]. intros H. exfalso. revert H. apply resolves_none.
        intros q. simpl. replace (pos <? length (n_key nd)) with true by lia.
        rewrite decide_False by congruence. done.
    + unfold slot. rewrite Hc. simpl.
      assert (Hlk : forall q, lk (c :: q) nd pos =
        match n_next nd c with Some ch => lk q ch 1 | None => None end).
      { intros q. simpl. replace (pos <? length (n_key nd)) with false by lia. done. }
      destruct (n_next nd c) as [ch|] eqn:E.
      * destruct (wf_next_key _ _ _ Hwf E) as [r Hr].
        destruct (IH ch 1) as (o & -> & Ho & Hv); try done.
        -- by eapply wf_next_wf.
        -- by eapply wf_next_compact.
        -- rewrite Hr. simpl. lia.
        -- exists o. split; [done|]. split; [done|]. intros v. rewrite Hv, resolves_cons.
           by apply resolves_ext.
      * exists None. split; [done|]. split; [done|]. intros v. rewrite resolves_cons.
        split; [naive_solver|]. intros H. exfalso. revert H. apply resolves_none. done.
Qed.

Lemma get_node_ok t k :
  wf_root t -> ascii_only k ->
  exists o, get_node t k = Ok o /\
    (forall n, o = Some n -> is_Some (n_data n)) /\
    forall v, (exists n, o = Some n /\ n_data n = Some v) <->
      if decide (k = []) then contents t [] = Some v else resolves (contents t) k v.
Proof.
  intros [Hwf Hkey] Hk. destruct k as [|c k].
  - eexists. split; [done|]. split.
    { intros n. destruct (n_stop t) eqn:E; [|done]. intros [= <-]. by apply wf_stop. }
    intros v. unfold contents. simpl. rewrite Hkey. simpl.
    destruct (n_stop t); naive_solver.
  - pose proof Hk as Hk'. apply Forall_cons in Hk as [Hc Hk]. simpl. unfold slot. rewrite Hc. simpl.
    assert (Hlk : forall q, contents t (c :: q) =
        match n_next t c with Some ch => lk q ch 1 | None => None end).
    { intros q. unfold contents. simpl. by rewrite Hkey. }
    destruct (n_next t c) as [ch|] eqn:E.
    + destruct (wf_next_key _ _ _ Hwf E) as [r Hr].
      destruct (get_loop_ok k ch 1) as (o & Heq & Ho & Hv); try done.
      * by eapply wf_next_wf.
      * by eapply wf_next_compact.
      * rewrite Hr. simpl. lia.
      * exists o. split; [by rewrite Hr; simpl; rewrite Ascii.eqb_refl|].
        split; [done|]. intros v. rewrite Hv, resolves_cons. by apply resolves_ext.
    + exists None. split; [done|]. split; [done|]. intros v. rewrite resolves_cons.
      split; [naive_solver|]. intros H. exfalso. revert H. by apply resolves_none.
Qed.

Lemma trie_get_ok t k :
  wf_root t -> ascii_only k ->
  exists o, trie_get t k = Ok o /\
    trie_check t k = Ok (match o with Some _ => true | None => false end) /\
    forall v, o = Some v <->
      if decide (k = []) then contents t [] = Some v else resolves (contents t) k v.
Proof.
  intros Ht Hk. destruct (get_node_ok t k Ht Hk) as (o & Heq & Ho & Hv).
  unfold trie_get, trie_check. rewrite Heq. simpl. destruct o as [n|].
  - destruct (Ho n eq_refl) as [v0 Hv0]. rewrite Hv0. eexists. split; [done|].
    split; [done|]. intros v. rewrite <- Hv. naive_solver.
  - exists None. split; [done|]. split; [done|]. intros v. rewrite <- Hv. naive_solver.
Qed.

Lemma resolves_stored (f : bytes -> option V) k v : f k = Some v -> forall w, resolves f k w <-> w = v.
Proof.
  intros Hk w. split.
  - intros (c & Hp & Hc & Hall).
    assert (c `prefix_of` k) as Hp' by (apply Hall; [by rewrite Hk|done]).
    assert (c = k) as -> by by apply (anti_symm prefix). congruence.
  - intros ->. exists k. split; [done|]. split; [done|]. auto.
Qed.

(** ** Search *)
Fixpoint visit_list (f : bytes -> option V) (k : bytes) : list (V * bool) :=
  match k with
  | [] => match f [] with Some v => [(v, true)] | None => [] end
  | c :: k' =>
      match f [] with Some v => [(v, false)] | None => [] end
      ++ visit_list (fun q => f (c :: q)) k'
  end.

Lemma visit_list_ext f g k : (forall q, f q = g q) -> visit_list f k = visit_list g k.
Proof.
  revert f g. induction k as [|c k IH]; intros f g H; simpl; rewrite H; [done|].
  by rewrite (IH (fun q => f (c :: q)) (fun q => g (c :: q))).
Qed.

Lemma visit_list_none f k : (forall q, f q = None) -> visit_list f k = [].
Proof.
  revert f. induction k as [|c k IH]; intros f H; simpl; rewrite H; [done|]. by apply IH.
Qed.

Lemma omap_seq_S {A} (f : nat -> option A) a n :
  omap f (seq (S a) n) = omap (fun i => f (S i)) (seq a n).
Proof. revert a. induction n as [|n IH]; intros a; simpl; [done|]. by rewrite IH. Qed.

Lemma visit_list_stored f k : visit_list f k = stored_prefixes f k.
Proof.
  revert f. induction k as [|c k IH]; intros f.
  - unfold stored_prefixes. simpl. by destruct (f []).
  - simpl visit_list. rewrite IH. unfold stored_prefixes.
    change (seq 0 (S (length (c :: k)))) with (0 :: seq 1 (S (length k))).
    change (0 :: seq 1 (S (length k))) with ([0] ++ seq 1 (S (length k))).
    rewrite omap_app, omap_seq_S. f_equal.
    + simpl. by destruct (f []).
    + apply list_omap_ext. apply Forall2_same_length_lookup. split; [done|].
      intros i x y Hx Hy. rewrite Hx in Hy. injection Hy as <-. simpl.
      destruct (f (c :: take x k)); [|done]. simpl. do 2 f_equal.
      apply bool_decide_ext. lia.
Qed.

Section search_proof.
Context {S : Type} (cb : S -> V -> bool -> outcome (S * bool)).

Lemma search_loop_ok k nd pos st :
  wf nd -> ascii_only k -> pos <= length (n_key nd) ->
  search_loop cb k nd pos st = call_until_stop cb (visit_list (fun q => lk q nd pos) k) st.
Proof.
  revert nd pos st. induction k as [|c k IH]; intros nd pos st Hwf Hk Hpos.
  - simpl. rewrite (andb_comm (n_stop nd)).
    destruct ((pos =? length (n_key nd)) && n_stop nd) eqn:E; [|done].
    apply andb_true_iff in E as [_ Hs]. apply wf_stop in Hs as [v Hv]; [|done].
    unfold visit. rewrite Hv. simpl. destruct (cb st v true) as [[st' go]| | | | |]; simpl; try done.
    by destruct go.
  - apply Forall_cons in Hk as [Hc Hk]. cbn [search_loop visit_list].
    destruct (Nat.ltb_spec pos (length (n_key nd))) as [Hlt|Hge].
    + destruct (lookup_lt_is_Some_2 (n_key nd) pos Hlt) as [d Hd]. rewrite Hd.
      assert (Hnil : lk [] nd pos = None).
      { simpl. by replace (pos =? length (n_key nd)) with false by lia. }
      rewrite Hnil. cbn [app].
      assert (Hlk : forall q, lk (c :: q) nd pos = if decide (d = c) then lk q nd (Datatypes.S pos) else None).
      { intros q. simpl. replace (pos <? length (n_key nd)) with true by lia. rewrite Hd.
        destruct (decide (d = c)), (decide (Some d = Some c)); congruence. }
      destruct (Ascii.eqb_spec d c) as [->|Hdc].
      * rewrite IH; [|done|done|lia]. f_equal. apply visit_list_ext. intros q. cbv beta.
        rewrite Hlk. by rewrite decide_True.
      * rewrite visit_list_none; [done|]. intros q. cbv beta. rewrite Hlk. by rewrite decide_False.
    + assert (pos = length (n_key nd)) as -> by lia.
      assert (Hlk : forall q, lk (c :: q) nd (length (n_key nd)) =
        match n_next nd c with Some ch => lk q ch 1 | None => None end).
      { intros q. simpl. by rewrite Nat.ltb_irrefl. }
      assert (Hdesc : forall st, (s ← slot nd c;
          match s with None => Ok st | Some ch => search_loop cb k ch 1 st end) =
          call_until_stop cb (visit_list (fun q => lk (c :: q) nd (length (n_key nd))) k) st).
      { intros st'. unfold slot, mbind, outcome_bind. rewrite Hc. destruct (n_next nd c) as [ch|] eqn:E.
        - destruct (wf_next_key _ _ _ Hwf E) as [r Hr].
          rewrite IH; [|by eapply wf_next_wf|done|rewrite Hr; simpl; lia].
          f_equal. apply visit_list_ext. intros q. cbv beta. by rewrite Hlk.
        - by rewrite visit_list_none. }
      assert (Hnil : lk [] nd (length (n_key nd)) = if n_stop nd then n_data nd else None).
      { simpl. by rewrite Nat.eqb_refl. }
      rewrite Hnil. destruct (n_stop nd) eqn:Hs.
      * apply wf_stop in Hs as [v Hv]; [|done]. unfold visit. rewrite Hv. cbn [app].
        cbn [call_until_stop]. destruct (cb st v false) as [[st' go]| | | | |]; simpl; try done.
        destruct go; [|done]. apply Hdesc.
      * cbn [app]. apply Hdesc.
Qed.

Lemma search_node_ok t k st :
  wf_root t -> ascii_only k ->
  search_node cb t k st = call_until_stop cb (stored_prefixes (contents t) k) st.
Proof.
  intros [Hwf Hkey] Hk. rewrite <- visit_list_stored.
  assert (Hnil : contents t [] = if n_stop t then n_data t else None).
  { unfold contents. simpl. by rewrite Hkey. }
  destruct k as [|c k].
  - simpl. rewrite Hnil. unfold search_node. destruct (n_stop t) eqn:Hs; [|done].
    apply wf_stop in Hs as [v Hv]; [|done]. unfold visit. rewrite Hv. simpl.
    destruct (cb st v true) as [[st' go]| | | | |]; simpl; try done.
  - pose proof Hk as Hk'. apply Forall_cons in Hk as [Hc Hk].
    assert (Hlk : forall q, contents t (c :: q) =
        match n_next t c with Some ch => lk q ch 1 | None => None end).
    { intros q. unfold contents. simpl. by rewrite Hkey. }
    assert (Hdesc : forall st, (s ← slot t c;
          match s with None => Ok st | Some ch => search_loop cb (c :: k) ch 0 st end) =
          call_until_stop cb (visit_list (fun q => contents t (c :: q)) k) st).
    { intros st'. unfold slot, mbind, outcome_bind. rewrite Hc. destruct (n_next t c) as [ch|] eqn:E.
      - destruct (wf_next_key _ _ _ Hwf E) as [r Hr].
        cbn [search_loop]. rewrite Hr. cbn [length lookup list_lookup Nat.ltb Nat.leb]. rewrite Ascii.eqb_refl.
        rewrite search_loop_ok; [|by eapply wf_next_wf|done|rewrite Hr; simpl; lia].
        f_equal. apply visit_list_ext. intros q. cbv beta. by rewrite Hlk.
      - by rewrite visit_list_none. }
    cbn [visit_list]. rewrite Hnil. unfold search_node. destruct (n_stop t) eqn:Hs.
    + apply wf_stop in Hs as [v Hv]; [|done]. unfold visit. rewrite Hv. cbn [app].
      cbn [call_until_stop]. destruct (cb st v false) as [[st' go]| | | | |]; simpl; try done.
      destruct go; [|done]. apply Hdesc.
    + cbn [app]. apply Hdesc.
Qed.
End search_proof.

(** ** Non-ASCII bytes *)
Lemma get_nonascii_ub t c k : is_ascii c = false -> get_node t (c :: k) = UB.
Proof. intros H. simpl. unfold slot. by rewrite H. Qed.
Lemma set_nonascii_ub t c k v : is_ascii c = false -> set_node t (c :: k) v = UB.
Proof. intros H. simpl. unfold slot. by rewrite H. Qed.
Lemma search_nonascii_ub {S} (cb : S -> V -> bool -> outcome (S * bool)) t c k st :
  is_ascii c = false -> n_stop t = false -> search_node cb t (c :: k) st = UB.
Proof. intros H Hs. unfold search_node. rewrite Hs. unfold slot. by rewrite H. Qed.

End proof.
