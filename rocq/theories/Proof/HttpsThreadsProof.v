(** Facts about the HTTPS server with worker threads. *)
From Verif.Spec Require Import SslSpec.
From Verif.Proof Require Import RouteProof ServerProof HttpSystemProof HttpsSystemProof.
From Verif.Props Require HttpSystemProps.
From Verif.Model Require Import HttpsThreads.

Section threads.
Context {U : Type}.
Implicit Types (s : ssys U) (ro : router U).

Lemma s_run_app hit ro e s a b : s_run hit ro e s (a ++ b) = (s' ← s_run hit ro e s a; s_run hit ro e s' b).
Proof.
  revert s. induction a as [|l a IH]; intros s; [done|]. simpl.
  destruct (s_step hit ro e s l) as [s1|]; [|done]. simpl. apply IH.
Qed.
Lemma s_run_snoc hit ro e s s' ls l : s_run hit ro e s (ls ++ [l]) = Some s' ->
  exists s1, s_run hit ro e s ls = Some s1 /\ s_step hit ro e s1 l = Some s'.
Proof.
  rewrite s_run_app. destruct (s_run hit ro e s ls) as [s1|]; [|done]. simpl. intros H.
  exists s1. split; [done|]. by destruct (s_step hit ro e s1 l).
Qed.
Lemma s_step_up hit ro e s l s' : s_step hit ro e s l = Some s' -> ss_down s = false.
Proof. unfold s_step. by destruct (ss_down s). Qed.

Lemma inside_true s w i : inside s w i = true <-> exists v f, v <> w /\ ss_workers s !! v = Some (SRead f i).
Proof.
  unfold inside. rewrite existsb_exists. split.
  - intros (v & _ & H). destruct (ss_workers s !! v) as [[| | | |f j|]|] eqn:E; try done.
    apply bool_decide_eq_true in H as [-> Hv]. by exists v, f.
  - intros (v & f & Hv & E). exists v. split.
    + apply in_seq. apply lookup_lt_Some in E. lia.
    + rewrite E. by apply bool_decide_eq_true.
Qed.

(** ** What a worker's step reaches: its number, and connections it knows by it *)

Record local_step (s s' : ssys U) (w g : nat) (x x' : swst) : Prop := {
  lo_queue : ss_queue s' = ss_queue s;
  lo_down : ss_down s' = false;
  lo_workers : ss_workers s' = <[w := x']> (ss_workers s);
  lo_next : swst_fd x' = Some g \/ x' = SFree;
  lo_others : forall h, h <> g -> ss_fds s' !! h = ss_fds s !! h /\ ss_map s' !! h = ss_map s !! h;
  lo_fds : ss_fds s' !! g = ss_fds s !! g \/ ss_fds s' !! g = None;
  lo_conns : forall j, ss_fds s !! g <> Some j -> (x = SGot g \/ x = SLeave g -> ss_map s !! g <> Some j) -> x <> SRead g j -> ss_conns s' !! j = ss_conns s !! j;
  lo_keep : forall j, is_Some (ss_conns s !! j) -> is_Some (ss_conns s' !! j);
  lo_map : forall j, ss_map s' !! g = Some j -> ss_map s !! g = Some j \/ (ss_fds s !! g = Some j /\ is_Some (ss_conns s !! j));
  lo_read : forall h j, x' = SRead h j -> h = g /\ (x = SGot g /\ ss_map s !! g = Some j \/ x = SRead g j) }.

Lemma keep_insert (m : gmap nat sconn) i c j : is_Some (m !! j) -> is_Some (<[i := c]> m !! j).
Proof. intros H. destruct (decide (j = i)) as [->|]; [rewrite lookup_insert; by eexists|by rewrite lookup_insert_ne]. Qed.

Lemma s_call_local hit ro e wr more s w g i c x s' :
  ss_down s = false -> ss_workers s !! w = Some x ->
  (x = SGot g /\ ss_map s !! g = Some i \/ x = SRead g i) -> ss_conns s !! i = Some c ->
  s_call hit ro e wr more s w g i c = Some s' -> s' = sdown s \/ exists x', local_step s s' w g x x'.
Proof.
  intros Hd Hx Hk Hc H. unfold s_call in H.
  destruct (handle_read_tls _ _ _ _ _ _) as [[v t]| | | | |]; try (injection H as <-; by left).
  - injection H as <-. right. exists (SPeek g).
    split; try (by destruct (sv_closed v)).
    + by left.
    + intros h Hh. destruct (sv_closed v); cbn; [by rewrite lookup_delete_ne|done].
    + destruct (sv_closed v); cbn; [right; apply lookup_delete|by left].
    + intros j H1 H2 H3. assert (j <> i) by (intros ->; destruct Hk as [[-> Hk]|Hk]; [by apply H2; [left|]|done]). destruct (sv_closed v); cbn; by rewrite lookup_insert_ne.
    + intros j Hj. destruct (sv_closed v); by apply keep_insert.
    + intros j Hj. left. by destruct (sv_closed v).
  - destruct (decide _); [done|]. injection H as <-. right. exists (SRead g i). split; cbn; try done.
    + by left.
    + by left.
    + intros j H1 H2 H3. assert (j <> i) by (intros ->; destruct Hk as [[-> Hk]|Hk]; [by apply H2; [left|]|done]). by rewrite lookup_insert_ne.
    + intros j Hj. by apply keep_insert.
    + intros j Hj. by left.
    + intros h j [= <- <-]. done.
Qed.

Lemma go_local hit ro e s w wr tm s' x g :
  ss_workers s !! w = Some x -> swst_fd x = Some g ->
  s_step hit ro e s (if tm : bool then LTime w wr else LGo w wr) = Some s' ->
  s' = sdown s \/ exists x', local_step s s' w g x x'.
Proof.
  intros Hx Hg H. pose proof (s_step_up _ _ _ _ _ _ H) as Hd. unfold s_step in H. rewrite Hd in H.
  assert (Hput : forall x', swst_fd x' = Some g \/ x' = SFree -> (forall h j, x' <> SRead h j) -> local_step s (sput s w x') w g x x').
  { intros x' H1 H2. split; cbn; try done; [by left|intros j Hj; by left|]. intros h j ->. by destruct (H2 h j). }
  assert (Hcl : local_step s (sput (sclose s g) w (SLeave g)) w g x (SLeave g)).
  { split; cbn; try done; [by left| |right; apply lookup_delete|intros j Hj; by left]. intros h Hh. by rewrite lookup_delete_ne. }
  destruct tm.
  - rewrite Hx in H. cbn [mbind option_bind] in H. destruct x as [|f|f|f|f i|f]; cbn [s_time] in H; try done; cbn in Hg; injection Hg as ->.
    + injection H as <-. right. by eexists.
    + injection H as <-. right. eexists. apply Hput; [by left|done].
    + destruct (ss_conns s !! i) as [c|] eqn:Ec; [|done]. cbn [mbind option_bind] in H.
      destruct (decide _); [|injection H as <-; by left]. eapply s_call_local; [done|done|by right|done|exact H].
  - rewrite Hx in H. cbn [mbind option_bind] in H. destruct x as [|f|f|f|f i|f]; cbn [s_go] in H; try done; cbn in Hg; injection Hg as ->.
    + destruct (ss_fds s !! g) as [j|] eqn:Ef.
      2:{ injection H as <-. right. eexists. apply Hput; [by left|done]. }
      destruct (ss_conns s !! j) as [c|] eqn:Ec; [|done]. cbn [mbind option_bind] in H.
      assert (Hend : (if raw c || sc_fin c then Some (sput (sclose s g) w (SLeave g)) else None) = Some s' ->
        s' = sdown s \/ exists x', local_step s s' w g (SAcc g) x').
      { destruct (raw c || sc_fin c); [|done]. intros [= <-]. right. by eexists. }
      destruct (sc_sess c) eqn:Es; [|by apply Hend|by apply Hend|by apply Hend].
      destruct (sc_hello c) as [[]|].
      * injection H as <-. right. exists (SPeek g). split; cbn; try done; try (by left).
        -- intros h Hh. by rewrite lookup_insert_ne.
        -- intros k H1 _ _. apply lookup_insert_ne. congruence.
        -- intros k Hk. by apply keep_insert.
        -- intros k. rewrite lookup_insert. intros [= <-]. right. split; [done|by eexists].
      * injection H as <-. right. by eexists.
      * destruct (sc_fin c); [|done]. injection H as <-. right. by eexists.
    + destruct (ss_fds s !! g) as [j|] eqn:Ef.
      2:{ injection H as <-. right. eexists. apply Hput; [by left|done]. }
      destruct (ss_conns s !! j) as [c|] eqn:Ec; [|done]. cbn [mbind option_bind] in H.
      destruct (raw c); [|destruct (sc_fin c); [|done]]; injection H as <-; right; eexists; (apply Hput; [by left|done]).
    + destruct (ss_map s !! g) as [i|] eqn:Em.
      2:{ injection H as <-. right. by eexists. }
      destruct (ss_conns s !! i) as [c|] eqn:Ec; [|done]. cbn [mbind option_bind] in H.
      destruct (sc_sess c); [injection H as <-; by left| |injection H as <-; right; eexists; (apply Hput; [by left|done])|injection H as <-; by left].
      destruct (inside s w i); [injection H as <-; by left|].
      eapply s_call_local; [done|done|by left|done|exact H].
    + destruct (ss_conns s !! i) as [c|] eqn:Ec; [|done]. cbn [mbind option_bind] in H.
      destruct (decide _); [|injection H as <-; by left]. eapply s_call_local; [done|done|by right|done|exact H].
    + destruct (ss_map s !! g) as [i|] eqn:Em.
      2:{ injection H as <-. right. eexists. apply Hput; [by right|done]. }
      destruct (ss_conns s !! i) as [c|] eqn:Ec; [|done]. injection H as <-. right. exists SFree. split; cbn; try done; try (by left).
      * by right.
      * intros h Hh. by rewrite lookup_delete_ne.
      * intros j _ H2 _. apply lookup_insert_ne. intros ->. by apply H2; [right|].
      * intros k Hk. by apply keep_insert.
      * intros k. by rewrite lookup_delete.
Qed.

(** ** What holds in every run *)

Record ssane s : Prop := {
  sn_conn : forall f i, ss_fds s !! f = Some i -> is_Some (ss_conns s !! i);
  sn_inj : forall f g i, ss_fds s !! f = Some i -> ss_fds s !! g = Some i -> f = g;
  sn_map : forall f i, ss_map s !! f = Some i -> is_Some (ss_conns s !! i);
  sn_read : forall w f i, ss_workers s !! w = Some (SRead f i) -> is_Some (ss_conns s !! i) }.

Lemma fds_shrink s s' w g x x' : local_step s s' w g x x' -> forall h i, ss_fds s' !! h = Some i -> ss_fds s !! h = Some i.
Proof.
  intros L h i H. destruct (decide (h = g)) as [->|Hh].
  - destruct (lo_fds _ _ _ _ _ _ L); congruence.
  - by rewrite <- (proj1 (lo_others _ _ _ _ _ _ L h Hh)).
Qed.
Lemma step_go hit ro e s l s' : s_step hit ro e s l = Some s' ->
  match l with
  | LGo w wr => exists x g, ss_workers s !! w = Some x /\ swst_fd x = Some g
  | LTime w wr => exists x g, ss_workers s !! w = Some x /\ swst_fd x = Some g
  | _ => True
  end.
Proof.
  intros H. unfold s_step in H. destruct (ss_down s); [done|]. destruct l as [| | | | |w wr|w wr]; try done;
    destruct (ss_workers s !! w) as [x|]; try done; cbn [mbind option_bind] in H; exists x; destruct x; try done; by eexists.
Qed.

Lemma ssane_step hit ro e s l s' : ssane s -> s_step hit ro e s l = Some s' -> ssane s'.
Proof.
  intros [H1 H2 H3 H4] H.
  assert (Hput : forall i c, is_Some (ss_conns s !! i) -> ssane (sconn_put s i c)).
  { intros i c Hi. split; cbn; try done.
    - intros f j Hj. apply keep_insert. by eapply H1.
    - intros f j Hj. apply keep_insert. by eapply H3.
    - intros w f j Hj. apply keep_insert. by eapply H4. }
  assert (Hlo : forall w g x, ss_workers s !! w = Some x -> s' = sdown s \/ (exists x', local_step s s' w g x x') -> ssane s').
  { intros w g x Hx [->|[x' L]]; [by split|]. pose proof (fds_shrink _ _ _ _ _ _ L) as Hsh.
    pose proof (lo_keep _ _ _ _ _ _ L) as Hk. split.
    - intros f i Hf. apply Hk. by eapply H1, Hsh.
    - intros f h i Hf Hh. by eapply H2; apply Hsh.
    - intros f i Hf. apply Hk. destruct (decide (f = g)) as [->|Hn].
      + destruct (lo_map _ _ _ _ _ _ L _ Hf) as [?|[_ ?]]; [by eapply H3|done].
      + rewrite (proj2 (lo_others _ _ _ _ _ _ L f Hn)) in Hf. by eapply H3.
    - intros v f i Hv. apply Hk. rewrite (lo_workers _ _ _ _ _ _ L) in Hv. destruct (decide (v = w)) as [->|Hn].
      + rewrite list_lookup_insert in Hv by (by eapply lookup_lt_Some). injection Hv as Hv.
        destruct (lo_read _ _ _ _ _ _ L _ _ Hv) as [-> [[_ ?]|?]]; [by eapply H3|subst; by eapply H4].
      + rewrite list_lookup_insert_ne in Hv by done. by eapply H4. }
  pose proof (step_go _ _ _ _ _ _ H) as Hgo. pose proof H as H0.
  unfold s_step in H. destruct (ss_down s); [done|].
  destruct l as [i f|i b|i bs|i|w|w wr|w wr].
  - destruct (decide _) as [[Hi Hf]|]; [|done]. injection H as <-. split; cbn.
    + intros g j Hg. apply lookup_insert_Some in Hg as [[<- <-]|[_ Hg]]; [rewrite lookup_insert; by eexists|].
      by apply keep_insert, H1 with g.
    + intros g h j Hg Hh. apply lookup_insert_Some in Hg as [[<- <-]|[Hn Hg]]; apply lookup_insert_Some in Hh as [[<- ?]|[Hn' Hh]]; try done.
      * apply H1 in Hh as [? ?]. congruence.
      * subst j. apply H1 in Hg as [? ?]. congruence.
      * by eapply H2.
    + intros g j Hg. by apply keep_insert, H3 with g.
    + intros v g j Hg. by eapply keep_insert, H4.
  - destruct (ss_conns s !! i) as [c|] eqn:Ec; [|done]. cbn [mbind option_bind] in H. destruct (decide _); [|done]. injection H as <-. by apply Hput.
  - destruct (ss_conns s !! i) as [c|] eqn:Ec; [|done]. cbn [mbind option_bind] in H. destruct (decide _); [|done]. injection H as <-. by apply Hput.
  - destruct (ss_conns s !! i) as [c|] eqn:Ec; [|done]. injection H as <-. by apply Hput.
  - destruct (ss_workers s !! w) as [[]|] eqn:Ew; try done. destruct (ss_queue s) as [|f q]; [done|]. injection H as <-. split; cbn; try done.
    intros v g j Hv. destruct (decide (v = w)) as [->|]; [|rewrite list_lookup_insert_ne in Hv by done; by eapply H4].
    rewrite list_lookup_insert in Hv by (by eapply lookup_lt_Some). done.
  - destruct Hgo as (x & g & Hx & Hg). eapply (Hlo w g x Hx), (go_local hit ro e s w wr false); done.
  - destruct Hgo as (x & g & Hx & Hg). eapply (Hlo w g x Hx), (go_local hit ro e s w wr true); done.
Qed.
Lemma ssane_run hit ro e n w ls s : s_run hit ro e (s_new n w) ls = Some s -> ssane s.
Proof.
  revert s. induction ls as [|l ls IH] using rev_ind; intros s H.
  - injection H as <-. unfold s_new. split; cbn [ss_fds ss_map ss_conns ss_workers]; try (intros *; by rewrite ?lookup_empty).
    intros v f i Hv. by apply lookup_replicate in Hv as [? _].
  - apply s_run_snoc in H as (s1 & H1 & H2). eapply ssane_step; [by apply IH|done].
Qed.

(** ** A connection that keeps its number *)

(** Number [f] stands for [i]; [i]'s session is known under [f] only. *)
Record frame (f i : nat) s : Prop := {
  fr_fd : ss_fds s !! f = Some i;
  fr_map : forall g, ss_map s !! g = Some i -> g = f;
  fr_read : forall w g, ss_workers s !! w = Some (SRead g i) -> g = f }.
(** Who uses the number [f]: the queue once; worker [w], which is in [x]; nobody. *)
Inductive who : Type := InQueue | Worker (w : nat) (x : swst) | Nobody.
Definition uses (f : nat) s (o : who) : Prop :=
  match o with
  | InQueue => (exists q1 q2, ss_queue s = q1 ++ f :: q2 /\ f ∉ q1 /\ f ∉ q2) /\
      (forall v y, ss_workers s !! v = Some y -> swst_fd y <> Some f)
  | Worker w x => f ∉ ss_queue s /\ ss_workers s !! w = Some x /\ swst_fd x = Some f /\
      (forall v y, ss_workers s !! v = Some y -> swst_fd y = Some f -> v = w)
  | Nobody => f ∉ ss_queue s /\ (forall v y, ss_workers s !! v = Some y -> swst_fd y <> Some f)
  end.

(** The step is made by the owner of [f] or by the peer of [i]. *)
Definition ours (f i : nat) s (l : slab) : Prop :=
  match l with
  | LAccept j g => False
  | LHello j _ | LSend j _ | LFin j => j = i
  | LPop w => exists q, ss_queue s = f :: q
  | LGo w _ | LTime w _ => exists x, ss_workers s !! w = Some x /\ swst_fd x = Some f
  end.

Lemma frame_step hit ro e s l s' f i o :
  ssane s -> s_step hit ro e s l = Some s' -> frame f i s -> uses f s o -> ~ ours f i s l ->
  frame f i s' /\ uses f s' o /\ ss_conns s' !! i = ss_conns s !! i /\ ss_map s' !! f = ss_map s !! f.
Proof.
  intros Hsane H [F1 F2 F3] Ho Hno.
  assert (Hput : forall j c, j <> i -> s' = sconn_put s j c ->
    frame f i s' /\ uses f s' o /\ ss_conns s' !! i = ss_conns s !! i /\ ss_map s' !! f = ss_map s !! f).
  { intros j c Hj ->. split; [by split|]. split; [by destruct o|]. cbn. by rewrite lookup_insert_ne. }
  assert (Hlo : forall w g x, ss_workers s !! w = Some x -> swst_fd x = Some g -> g <> f ->
    s' = sdown s \/ (exists x', local_step s s' w g x x') ->
    frame f i s' /\ uses f s' o /\ ss_conns s' !! i = ss_conns s !! i /\ ss_map s' !! f = ss_map s !! f).
  { intros w g x Hx Hg Hgf [->|[x' L]]; [split; [by split|]; split; [by destruct o|done]|].
    destruct (lo_others _ _ _ _ _ _ L f ltac:(congruence)) as [E1 E2].
    pose proof (lo_workers _ _ _ _ _ _ L) as Ew.
    assert (Hxf : swst_fd x' <> Some f) by (destruct (lo_next _ _ _ _ _ _ L) as [?| ->]; [congruence|done]).
    assert (Hlt : w < length (ss_workers s)) by (by eapply lookup_lt_Some).
    assert (Hwk : forall v y, ss_workers s' !! v = Some y -> swst_fd y = Some f -> ss_workers s !! v = Some y).
    { intros v y Hv Hy. rewrite Ew in Hv. destruct (decide (v = w)) as [->|]; [|by rewrite list_lookup_insert_ne in Hv].
      rewrite list_lookup_insert in Hv by done. congruence. }
    split; [split|split; [|split]].
    - by rewrite E1.
    - intros h Hh. destruct (decide (h = g)) as [->|Hn].
      + destruct (lo_map _ _ _ _ _ _ L _ Hh) as [?|[Hx2 _]]; [by apply F2|]. by eapply (sn_inj _ Hsane).
      + rewrite (proj2 (lo_others _ _ _ _ _ _ L h Hn)) in Hh. by apply F2.
    - intros v h Hv. rewrite Ew in Hv. destruct (decide (v = w)) as [->|].
      + rewrite list_lookup_insert in Hv by done. injection Hv as Hv.
        destruct (lo_read _ _ _ _ _ _ L _ _ Hv) as [-> [[_ Hm]| ->]]; [by apply F2|by eapply F3].
      + rewrite list_lookup_insert_ne in Hv by done. by eapply F3.
    - destruct o as [|w1 x1|]; cbn [uses] in *; rewrite (lo_queue _ _ _ _ _ _ L).
      + destruct Ho as [Hq Hw]. split; [done|]. intros v y Hv Hy. apply (Hw v y); [by apply Hwk|done].
      + destruct Ho as (Hq & Hw1 & Hf1 & Hu). split; [done|]. split; [|split; [done|]].
        * rewrite Ew. rewrite list_lookup_insert_ne; [done|]. intros ->. congruence.
        * intros v y Hv Hy. apply (Hu v y); [by apply Hwk|done].
      + destruct Ho as [Hq Hw]. split; [done|]. intros v y Hv Hy. apply (Hw v y); [by apply Hwk|done].
    - apply (lo_conns _ _ _ _ _ _ L).
      + intros Hx2. apply Hgf. by eapply (sn_inj _ Hsane).
      + intros _ Hm. by apply Hgf, F2.
      + intros ->. by apply Hgf, F3 with w.
    - done. }
  pose proof (step_go _ _ _ _ _ _ H) as Hgo. pose proof H as H0.
  unfold s_step in H. destruct (ss_down s); [done|].
  destruct l as [j g|j b|j bs|j|w|w wr|w wr]; cbn [ours] in Hno.
  - destruct (decide _) as [[Hj Hg]|]; [|done]. injection H as <-.
    assert (Hgf : g <> f) by congruence.
    assert (Hji : j <> i). { intros ->. apply (sn_conn _ Hsane) in F1 as [? ?]. congruence. }
    split; [split; cbn; [by rewrite lookup_insert_ne|done|done]|]. split; [|cbn; by rewrite lookup_insert_ne].
    destruct o as [|w1 x1|]; cbn [uses ss_queue ss_workers] in *.
    + destruct Ho as [(q1 & q2 & -> & Hq1 & Hq2) Hw]. split; [|done]. exists q1, (q2 ++ [g]). rewrite <- app_assoc. split; [done|].
      split; [done|]. rewrite elem_of_app, elem_of_list_singleton. intros [?|?]; congruence.
    + destruct Ho as (Hq & Ho). split; [|done]. rewrite elem_of_app, elem_of_list_singleton. intros [?|?]; congruence.
    + destruct Ho as (Hq & Ho). split; [|done]. rewrite elem_of_app, elem_of_list_singleton. intros [?|?]; congruence.
  - destruct (ss_conns s !! j) as [c|] eqn:Ec; [|done]. cbn [mbind option_bind] in H. destruct (decide _); [|done]. injection H as H.
    by eapply (Hput j).
  - destruct (ss_conns s !! j) as [c|] eqn:Ec; [|done]. cbn [mbind option_bind] in H. destruct (decide _); [|done]. injection H as H.
    by eapply (Hput j).
  - destruct (ss_conns s !! j) as [c|] eqn:Ec; [|done]. injection H as H. by eapply (Hput j).
  - destruct (ss_workers s !! w) as [[]|] eqn:Ew; try done. destruct (ss_queue s) as [|g q] eqn:Eq; [done|]. injection H as <-.
    assert (Hgf : g <> f) by (intros ->; apply Hno; by eexists).
    assert (Hlt : w < length (ss_workers s)) by (by eapply lookup_lt_Some).
    assert (Hwk : forall v y, <[w := SAcc g]> (ss_workers s) !! v = Some y -> swst_fd y = Some f -> ss_workers s !! v = Some y).
    { intros v y Hv Hy. destruct (decide (v = w)) as [->|]; [|by rewrite list_lookup_insert_ne in Hv].
      rewrite list_lookup_insert in Hv by done. injection Hv as <-. cbn in Hy. congruence. }
    split; [split; cbn; [done|done|]|split; [|done]].
    + intros v h Hv. destruct (decide (v = w)) as [->|]; [by rewrite list_lookup_insert in Hv|].
      rewrite list_lookup_insert_ne in Hv by done. by eapply F3.
    + destruct o as [|w1 x1|]; cbn [uses ss_queue ss_workers] in *; rewrite Eq in Ho.
      * destruct Ho as [(q1 & q2 & E & Hq1 & Hq2) Hw]. split.
        -- destruct q1 as [|g' q1]; cbn in E; injection E as -> E; [done|]. exists q1, q2. split; [done|]. split; [|done].
           intros Hin. apply Hq1. by right.
        -- intros v y Hv Hy. apply (Hw v y); [by apply Hwk|done].
      * destruct Ho as (Hq & Hw1 & Hf1 & Hu). split; [intros Hin; apply Hq; by right|]. split; [|split; [done|]].
        -- rewrite list_lookup_insert_ne; [done|]. intros ->. rewrite Ew in Hw1. injection Hw1 as <-. done.
        -- intros v y Hv Hy. apply (Hu v y); [by apply Hwk|done].
      * destruct Ho as [Hq Hw]. split; [intros Hin; apply Hq; by right|]. intros v y Hv Hy. apply (Hw v y); [by apply Hwk|done].
  - destruct Hgo as (x & g & Hx & Hg). eapply (Hlo w g x Hx Hg); [intros ->; apply Hno; by exists x|].
    by eapply (go_local hit ro e s w wr false).
  - destruct Hgo as (x & g & Hx & Hg). eapply (Hlo w g x Hx Hg); [intros ->; apply Hno; by exists x|].
    by eapply (go_local hit ro e s w wr true).
Qed.

(** ** The life of a session *)

(** [i] has its number, and its session is where it should be. *)
Definition held (f i : nat) (c : sconn) s (o : who) : Prop :=
  match o with
  | InQueue => sc_sess c = NoSess
  | Worker _ x =>
      match x with
      | SAcc _ => sc_sess c = NoSess
      | SRead _ j => j = i /\ sc_sess c = Live /\ ss_map s !! f = Some i
      | SPeek _ | SGot _ | SLeave _ => sc_sess c = Live /\ ss_map s !! f = Some i
      | SFree => False
      end
  | Nobody => sc_sess c = Freed
  end.
(** [i] has lost its number. *)
Definition lost (i : nat) (c : sconn) s : Prop :=
  (forall g, ss_fds s !! g <> Some i) /\ (forall w g, ss_workers s !! w <> Some (SRead g i)) /\
  (sc_sess c = NoSess \/ sc_sess c = Closed).
Definition life (i : nat) s : Prop := forall c, ss_conns s !! i = Some c ->
  (exists f o, frame f i s /\ uses f s o /\ held f i c s o) \/ lost i c s.

Lemma lost_step hit ro e s l s' i c c' :
  ssane s -> s_step hit ro e s l = Some s' -> ss_conns s !! i = Some c -> lost i c s -> ss_conns s' !! i = Some c' -> lost i c' s'.
Proof.
  intros Hsane H Hc (L1 & L2 & L3) Hc'.
  assert (Hsame : c' = c -> (forall g, ss_fds s' !! g = Some i -> exists h, ss_fds s !! h = Some i) ->
    (forall w g, ss_workers s' !! w = Some (SRead g i) -> exists v h, ss_workers s !! v = Some (SRead h i)) -> lost i c' s').
  { intros -> H1 H2. split; [|split; [|done]].
    - intros g Hg. destruct (H1 g Hg) as [h Hh]. by apply L1 in Hh.
    - intros w g Hg. destruct (H2 w g Hg) as (v & h & Hh). by apply L2 in Hh. }
  assert (Hput : forall j d, s' = sconn_put s j d -> (j = i -> sc_sess d = sc_sess c) -> lost i c' s').
  { intros j d -> Hd. cbn in Hc'. destruct (decide (j = i)) as [->|].
    - rewrite lookup_insert in Hc'. injection Hc' as <-. split; [done|]. split; [done|]. by rewrite Hd.
    - rewrite lookup_insert_ne in Hc' by done. assert (c' = c) as -> by congruence. by split. }
  assert (Hdel : forall g h, delete g (ss_fds s) !! h = Some i -> exists h, ss_fds s !! h = Some i).
  { intros g h Hh. apply lookup_delete_Some in Hh as [_ Hh]. by exists h. }
  assert (Hwk : forall w x, (forall h, x <> SRead h i) -> forall v g, <[w := x]> (ss_workers s) !! v = Some (SRead g i) ->
    exists v h, ss_workers s !! v = Some (SRead h i)).
  { intros w x Hx v g Hv. apply list_lookup_insert_Some in Hv as [(<- & Hv & _)|[_ Hv]]; [by apply Hx in Hv|by exists v, g]. }
  assert (Hlo : forall w x g, ss_workers s !! w = Some x -> swst_fd x = Some g -> (x = SGot g \/ x = SLeave g -> ss_map s !! g <> Some i) ->
    s' = sdown s \/ (exists x', local_step s s' w g x x') -> lost i c' s').
  { intros w x g Hx Hg Hm [->|[x' L]]; [apply Hsame; [cbn in Hc'; congruence|cbn; naive_solver|cbn; naive_solver]|].
    apply Hsame.
    - rewrite (lo_conns _ _ _ _ _ _ L) in Hc'; [congruence|done|done|]. intros ->. by apply L2 in Hx.
    - intros h Hh. exists h. by eapply fds_shrink.
    - intros v h Hv. rewrite (lo_workers _ _ _ _ _ _ L) in Hv. eapply Hwk; [|exact Hv].
      intros h' Hh'. destruct (lo_read _ _ _ _ _ _ L _ _ Hh') as [_ [[Hx' ?]| ->]]; [by apply Hm; [left|]|]. by apply L2 in Hx. }
  pose proof (step_go _ _ _ _ _ _ H) as Hgo. pose proof H as H0.
  unfold s_step in H. destruct (ss_down s) eqn:Ed; [done|].
  destruct l as [j g|j b|j bs|j|w|w wr|w wr].
  - destruct (decide _) as [[Hj Hg]|]; [|done]. injection H as <-. cbn in Hc'.
    assert (j <> i) by congruence. rewrite lookup_insert_ne in Hc' by done. apply Hsame; [congruence| |cbn; naive_solver].
    cbn. intros h Hh. apply lookup_insert_Some in Hh as [[_ ?]|[_ Hh]]; [done|by exists h].
  - destruct (ss_conns s !! j) as [d|] eqn:Ej; [|done]. cbn [mbind option_bind] in H. destruct (decide _); [|done]. injection H as H.
    eapply Hput; [done|]. intros ->. cbn. congruence.
  - destruct (ss_conns s !! j) as [d|] eqn:Ej; [|done]. cbn [mbind option_bind] in H. destruct (decide _); [|done]. injection H as H.
    eapply Hput; [done|]. intros ->. cbn. congruence.
  - destruct (ss_conns s !! j) as [d|] eqn:Ej; [|done]. injection H as H. eapply Hput; [done|]. intros ->. cbn. congruence.
  - destruct (ss_workers s !! w) as [[]|] eqn:Ew; try done. destruct (ss_queue s) as [|g q]; [done|]. injection H as <-. cbn in Hc'.
    apply Hsame; [congruence|cbn; naive_solver|cbn]. by apply Hwk.
  - destruct Hgo as (x & g & Hx & Hg). destruct (decide ((x = SGot g \/ x = SLeave g) /\ ss_map s !! g = Some i)) as [[Hxs Hm]|Hm].
    2:{ eapply (Hlo w x g Hx Hg); [naive_solver|]. by eapply (go_local hit ro e s w wr false). }
    rewrite Hx in H. cbn [mbind option_bind] in H. destruct Hxs as [-> | ->]; cbn [s_go] in H; rewrite Hm, Hc in H; cbn [mbind option_bind] in H.
    + destruct L3 as [E|E]; rewrite E in H; injection H as <-; cbn in Hc'; (apply Hsame; [congruence|cbn; naive_solver|]).
      * cbn. naive_solver.
      * by apply Hwk.
    + rewrite decide_False in H by (destruct L3 as [-> | ->]; done). injection H as <-. cbn in Hc'. rewrite lookup_insert in Hc'.
      injection Hc' as <-. apply Hsame; [done|cbn; naive_solver|by apply Hwk].
  - destruct Hgo as (x & g & Hx & Hg). eapply (Hlo w x g Hx Hg); [|by eapply (go_local hit ro e s w wr true)].
    intros Hxs. exfalso. rewrite Hx in H. by destruct Hxs as [-> | ->].
Qed.

Lemma no_read f i s w x : frame f i s -> uses f s (Worker w x) -> x <> SRead f i ->
  forall v g, ss_workers s !! v <> Some (SRead g i).
Proof.
  intros F (_ & Hw & _ & Hu) Hx v g Hv. pose proof (fr_read _ _ _ F _ _ Hv) as ->.
  pose proof (Hu _ _ Hv eq_refl) as ->. congruence.
Qed.
Lemma uses_same f s w x x' s' : uses f s (Worker w x) -> ss_queue s' = ss_queue s -> ss_workers s' = <[w := x']> (ss_workers s) ->
  (swst_fd x' = Some f -> uses f s' (Worker w x')) /\ (swst_fd x' = None -> uses f s' Nobody).
Proof.
  intros (Hq & Hw & Hf & Hu) Eq Ew. assert (Hlt : w < length (ss_workers s)) by (by eapply lookup_lt_Some). split; intros Hx.
  - cbn [uses]. rewrite Eq, Ew. split; [done|]. split; [by apply list_lookup_insert|]. split; [done|].
    intros v y Hv Hy. destruct (decide (v = w)) as [->|]; [done|]. rewrite list_lookup_insert_ne in Hv by done. by eapply Hu.
  - cbn [uses]. rewrite Eq, Ew. split; [done|]. intros v y Hv Hy. apply list_lookup_insert_Some in Hv as [(_ & <- & _)|[Hn Hv]]; [congruence|].
    apply Hn. symmetry. by eapply Hu.
Qed.

(** A call of HandleRead by the owner. *)
Lemma life_call hit ro e wr more s w f i c x s' c' :
  ssane s -> ss_down s = false -> frame f i s -> uses f s (Worker w x) -> ss_conns s !! i = Some c ->
  sc_sess c = Live -> ss_map s !! f = Some i -> (x = SGot f \/ x = SRead f i) ->
  s_call hit ro e wr more s w f i c = Some s' -> ss_conns s' !! i = Some c' ->
  (exists o, frame f i s' /\ uses f s' o /\ held f i c' s' o) \/ lost i c' s'.
Proof.
  intros Hsane Hd F Hu Hc Hl Hm Hx H Hc'. unfold s_call in H. rewrite bool_decide_eq_true_2 in H by (by apply fr_fd).
  assert (Hlt : w < length (ss_workers s)) by (destruct Hu as (_ & ? & _); by eapply lookup_lt_Some).
  assert (Hlost : forall s1, ss_fds s1 = delete f (ss_fds s) -> ss_workers s1 = <[w := SPeek f]> (ss_workers s) -> sc_sess c' = Closed -> lost i c' s1).
  { intros s1 E1 E2 E3. split; [|split; [|by right]].
    - intros g. rewrite E1. intros Hg. apply lookup_delete_Some in Hg as [Hn Hg]. apply Hn. eapply (sn_inj _ Hsane); [apply fr_fd; exact F|exact Hg].
    - intros v g. rewrite E2. intros Hv. apply list_lookup_insert_Some in Hv as [(_ & ? & _)|[Hn Hv]]; [done|].
      pose proof (fr_read _ _ _ F _ _ Hv) as ->. destruct Hu as (_ & _ & _ & Hu). by apply Hn, eq_sym, (Hu _ _ Hv). }
  assert (Hheld : held f i c s (Worker w x)) by (destruct Hx as [-> | ->]; done).
  assert (Hdown : s' = sdown s -> (exists o, frame f i s' /\ uses f s' o /\ held f i c' s' o) \/ lost i c' s').
  { intros ->. cbn in Hc'. assert (c' = c) as -> by congruence. left. exists (Worker w x). split; [by destruct F|done]. }
  destruct (handle_read_tls _ _ _ _ _ _) as [[v t]| | | | |]; try (injection H as H; by apply Hdown).
  - injection H as <-. destruct (sv_closed v) eqn:Ev.
    + right. cbn in Hc'. rewrite lookup_insert in Hc'. injection Hc' as <-. by apply Hlost.
    + left. exists (Worker w (SPeek f)). cbn in Hc'. rewrite lookup_insert in Hc'. injection Hc' as <-. split; [|split].
      * destruct F as [F1 F2 F3]. split; cbn; [done|done|]. intros v' g Hv.
        apply list_lookup_insert_Some in Hv as [(_ & ? & _)|[_ Hv]]; [done|by eapply F3].
      * eapply uses_same; [exact Hu|done|done|done].
      * done.
  - destruct (decide _); [done|]. injection H as <-. left. exists (Worker w (SRead f i)).
    cbn in Hc'. rewrite lookup_insert in Hc'. injection Hc' as <-. split; [|split].
    + destruct F as [F1 F2 F3]. split; cbn; [done|done|]. intros v' g Hv.
      apply list_lookup_insert_Some in Hv as [(_ & Hx' & _)|[_ Hv]]; [by injection Hx'|by eapply F3].
    + eapply uses_same; [exact Hu|done|done|done].
    + done.
Qed.

(** A connection comes to be by being accepted. *)
Lemma appears hit ro e s l s' i c :
  ssane s -> s_step hit ro e s l = Some s' -> ss_conns s !! i = None -> ss_conns s' !! i = Some c ->
  exists f, l = LAccept i f /\ c = sconn_new /\
    ss_fds s' = <[f := i]> (ss_fds s) /\ ss_map s' = ss_map s /\ ss_queue s' = ss_queue s ++ [f] /\ ss_workers s' = ss_workers s.
Proof.
  intros Hsane H Hn Hc. pose proof (step_go _ _ _ _ _ _ H) as Hgo.
  assert (Hnl : forall w x g, ss_workers s !! w = Some x -> s' = sdown s \/ (exists x', local_step s s' w g x x') -> False).
  { intros w x g Hx [->|[x' L]]; [cbn in Hc; congruence|]. rewrite (lo_conns _ _ _ _ _ _ L) in Hc; [congruence|..].
    - intros Hf. apply (sn_conn _ Hsane) in Hf as [? ?]. congruence.
    - intros _ Hf. apply (sn_map _ Hsane) in Hf as [? ?]. congruence.
    - intros ->. apply (sn_read _ Hsane) in Hx as [? ?]. congruence. }
  pose proof H as H0. unfold s_step in H. destruct (ss_down s); [done|].
  destruct l as [j g|j b|j bs|j|w|w wr|w wr].
  - destruct (decide _) as [[Hj Hg]|]; [|done]. injection H as <-. cbn in Hc.
    destruct (decide (j = i)) as [->|]; [|rewrite lookup_insert_ne in Hc by done; congruence].
    rewrite lookup_insert in Hc. injection Hc as <-. by exists g.
  - destruct (ss_conns s !! j) as [d|] eqn:Ej; [|done]. cbn [mbind option_bind] in H. destruct (decide _); [|done]. injection H as <-. cbn in Hc.
    rewrite lookup_insert_ne in Hc by congruence. congruence.
  - destruct (ss_conns s !! j) as [d|] eqn:Ej; [|done]. cbn [mbind option_bind] in H. destruct (decide _); [|done]. injection H as <-. cbn in Hc.
    rewrite lookup_insert_ne in Hc by congruence. congruence.
  - destruct (ss_conns s !! j) as [d|] eqn:Ej; [|done]. injection H as <-. cbn in Hc. rewrite lookup_insert_ne in Hc by congruence. congruence.
  - destruct (ss_workers s !! w) as [[]|] eqn:Ew; try done. destruct (ss_queue s) as [|g q]; [done|]. injection H as <-. cbn in Hc. congruence.
  - exfalso. destruct Hgo as (x & g & Hx & Hg). eapply (Hnl w x g Hx), (go_local hit ro e s w wr false); done.
  - exfalso. destruct Hgo as (x & g & Hx & Hg). eapply (Hnl w x g Hx), (go_local hit ro e s w wr true); done.
Qed.
Lemma accept_frame s s' f i : ssane s -> ss_conns s !! i = None -> uses f s Nobody ->
  ss_fds s' = <[f := i]> (ss_fds s) -> ss_map s' = ss_map s -> ss_queue s' = ss_queue s ++ [f] -> ss_workers s' = ss_workers s ->
  frame f i s' /\ uses f s' InQueue.
Proof.
  intros Hsane Hn [Hq Hw] E1 E2 E3 E4. split.
  - split; rewrite ?E1, ?E2, ?E4.
    + apply lookup_insert.
    + intros h Hh. apply (sn_map _ Hsane) in Hh as [? ?]. congruence.
    + intros v h Hh. apply (sn_read _ Hsane) in Hh as [? ?]. congruence.
  - cbn [uses]. rewrite E3, E4. split; [|done]. exists (ss_queue s), []. split; [done|]. split; [done|]. apply not_elem_of_nil.
Qed.

Lemma life_step hit ro e s l s' i :
  ssane s -> s_step hit ro e s l = Some s' -> (forall f, l = LAccept i f -> uses f s Nobody) -> life i s -> life i s'.
Proof.
  intros Hsane H Hown Hlife c' Hc'.
  destruct (ss_conns s !! i) as [c|] eqn:Hc.
  2:{ destruct (appears _ _ _ _ _ _ _ _ Hsane H Hc Hc') as (f & -> & -> & E1 & E2 & E3 & E4). left. exists f, InQueue.
      destruct (accept_frame s s' f i Hsane Hc (Hown f eq_refl) E1 E2 E3 E4). done. }
  destruct (Hlife c Hc) as [(f & o & F & Hu & Hh)|Hl]; [|right; by eapply lost_step].
  assert (Hno : ~ ours f i s l -> (exists f o, frame f i s' /\ uses f s' o /\ held f i c' s' o) \/ lost i c' s').
  { intros Hno. destruct (frame_step _ _ _ _ _ _ _ _ _ Hsane H F Hu Hno) as (F' & Hu' & Ec & Em). left. exists f, o.
    assert (c' = c) as -> by congruence. split; [done|]. split; [done|].
    destruct o as [|w x|]; [done| |done]. cbn [held] in *. rewrite Em. done. }
  assert (Hput : forall d, s' = sconn_put s i d -> sc_sess d = sc_sess c -> (exists f o, frame f i s' /\ uses f s' o /\ held f i c' s' o) \/ lost i c' s').
  { intros d -> Hd. cbn in Hc'. rewrite lookup_insert in Hc'. injection Hc' as <-. left. exists f, o. split; [by destruct F|]. split; [by destruct o|].
    destruct o as [|w x|]; cbn [held] in *; by rewrite Hd. }
  pose proof H as H0. unfold s_step in H. destruct (ss_down s) eqn:Ed; [done|].
  destruct l as [j g|j b|j bs|j|w|w wr|w wr].
  - apply Hno. cbn. tauto.
  - destruct (decide (j = i)) as [->|]; [|by apply Hno]. rewrite Hc in H. cbn [mbind option_bind] in H. destruct (decide _); [|done]. injection H as H.
    by eapply Hput.
  - destruct (decide (j = i)) as [->|]; [|by apply Hno]. rewrite Hc in H. cbn [mbind option_bind] in H. destruct (decide _); [|done]. injection H as H.
    by eapply Hput.
  - destruct (decide (j = i)) as [->|]; [|by apply Hno]. rewrite Hc in H. injection H as H. by eapply Hput.
  - destruct (ss_queue s) as [|g q] eqn:Eq; [apply Hno; cbn; rewrite Eq; by intros [? ?]|].
    destruct (decide (g = f)) as [->|]; [|apply Hno; cbn; rewrite Eq; intros [? ?]; congruence].
    destruct (ss_workers s !! w) as [[]|] eqn:Ew; try done. injection H as <-. cbn in Hc'. assert (c' = c) as -> by congruence.
    destruct o as [|w1 x1|]; cbn [uses] in Hu; rewrite Eq in Hu; [|exfalso; apply (proj1 Hu); left..].
    destruct Hu as [(q1 & q2 & E & Hq1 & Hq2) Hw].
    destruct q1 as [|g q1]; cbn in E; [injection E as ->|injection E as <- _; exfalso; apply Hq1; left].
    left. exists f, (Worker w (SAcc f)). split; [|split; [|done]].
    + destruct F as [F1 F2 F3]. split; cbn; [done|done|]. intros v g Hv.
      apply list_lookup_insert_Some in Hv as [(_ & ? & _)|[_ Hv]]; [done|by eapply F3].
    + cbn [uses ss_queue ss_workers]. split; [done|]. split; [apply list_lookup_insert; by eapply lookup_lt_Some|]. split; [done|].
      intros v y Hv Hy. apply list_lookup_insert_Some in Hv as [(? & _)|[_ Hv]]; [done|]. by apply Hw in Hv.
  - destruct (ss_workers s !! w) as [x|] eqn:Ew; [|done].
    destruct (decide (swst_fd x = Some f)) as [Hxf|Hxf]; [|apply Hno; cbn; intros (y & ? & ?); congruence].
    destruct o as [|w1 x1|]; [by apply (proj2 Hu) in Ew| |by apply (proj2 Hu) in Ew].
    assert (w = w1) as <- by (destruct Hu as (_ & _ & _ & Hu); by eapply Hu).
    assert (x1 = x) as -> by (destruct Hu as (_ & Hu & _); congruence).
    assert (Hstep : forall x', swst_fd x' = Some f -> (forall h j, x' <> SRead h j) -> s' = sput s w x' -> held f i c s (Worker w x') ->
      (exists f o, frame f i s' /\ uses f s' o /\ held f i c' s' o) \/ lost i c' s').
    { intros x' H1 H2 -> H3. cbn in Hc'. assert (c' = c) as -> by congruence. left. exists f, (Worker w x'). split; [|split].
      - destruct F as [F1 F2 F3]. split; cbn; [done|done|]. intros v g Hv.
        apply list_lookup_insert_Some in Hv as [(_ & Hv & _)|[_ Hv]]; [by apply H2 in Hv|by eapply F3].
      - by eapply uses_same.
      - done. }
    assert (Hdrop : x = SAcc f -> s' = sput (sclose s f) w (SLeave f) -> (exists f o, frame f i s' /\ uses f s' o /\ held f i c' s' o) \/ lost i c' s').
    { intros -> ->. cbn in Hc'. assert (c' = c) as -> by congruence. right. split; [|split; [|by left]].
      - cbn. intros g Hg. apply lookup_delete_Some in Hg as [Hn Hg]. apply Hn. eapply (sn_inj _ Hsane); [by apply fr_fd|done].
      - cbn. intros v g Hv. apply list_lookup_insert_Some in Hv as [(_ & ? & _)|[_ Hv]]; [done|]. by eapply no_read. }
    cbn [mbind option_bind] in H. destruct x as [|g|g|g|g j|g]; cbn [s_go] in H; try done; cbn in Hxf; injection Hxf as ->; cbn [held] in Hh.
    + rewrite (fr_fd _ _ _ F), Hc in H. cbn [mbind option_bind] in H. rewrite Hh in H. destruct (sc_hello c) as [[]|].
      * injection H as <-. cbn in Hc'. rewrite lookup_insert in Hc'. injection Hc' as <-. left. exists f, (Worker w (SPeek f)). split; [|split].
        -- destruct F as [F1 F2 F3]. split; cbn; [done| |].
           ++ intros g Hg. apply lookup_insert_Some in Hg as [[? _]|[_ Hg]]; [done|by apply F2].
           ++ intros v g Hv. apply list_lookup_insert_Some in Hv as [(_ & ? & _)|[_ Hv]]; [done|by eapply F3].
        -- by eapply uses_same.
        -- cbn. split; [done|apply lookup_insert].
      * injection H as H. by apply Hdrop.
      * destruct (sc_fin c); [|done]. injection H as H. by apply Hdrop.
    + rewrite (fr_fd _ _ _ F), Hc in H. cbn [mbind option_bind] in H. destruct (raw c); [|destruct (sc_fin c); [|done]]; injection H as H; refine (Hstep _ _ _ (eq_sym H) _); done.
    + destruct Hh as [Hl Hm]. rewrite Hm, Hc in H. cbn [mbind option_bind] in H. rewrite Hl in H.
      destruct (inside s w i).
      * injection H as <-. cbn in Hc'. assert (c' = c) as -> by congruence. left. exists f, (Worker w (SGot f)). split; [by destruct F|done].
      * edestruct life_call as [(o & ?)|?]; [exact Hsane|exact Ed|exact F|exact Hu|exact Hc|exact Hl|exact Hm|by left|exact H|exact Hc'|left; by exists f, o|by right].
    + destruct Hh as (-> & Hl & Hm). rewrite Hc in H. cbn [mbind option_bind] in H. rewrite decide_True in H by done.
      edestruct life_call as [(o & ?)|?]; [exact Hsane|exact Ed|exact F|exact Hu|exact Hc|exact Hl|exact Hm|by right|exact H|exact Hc'|left; by exists f, o|by right].
    + destruct Hh as [Hl Hm]. rewrite Hm, Hc in H. cbn [mbind option_bind] in H. rewrite decide_True in H by done. injection H as <-.
      cbn in Hc'. rewrite lookup_insert in Hc'. injection Hc' as <-. left. exists f, Nobody. split; [|split].
      * destruct F as [F1 F2 F3]. split; cbn; [done| |].
        -- intros g Hg. apply lookup_delete_Some in Hg as [_ Hg]. by apply F2.
        -- intros v g Hv. apply list_lookup_insert_Some in Hv as [(_ & ? & _)|[_ Hv]]; [done|by eapply F3].
      * by eapply uses_same.
      * done.
  - destruct (ss_workers s !! w) as [x|] eqn:Ew; [|done].
    destruct (decide (swst_fd x = Some f)) as [Hxf|Hxf]; [|apply Hno; cbn; intros (y & ? & ?); congruence].
    destruct o as [|w1 x1|]; [by apply (proj2 Hu) in Ew| |by apply (proj2 Hu) in Ew].
    assert (w = w1) as <- by (destruct Hu as (_ & _ & _ & Hu); by eapply Hu).
    assert (x1 = x) as -> by (destruct Hu as (_ & Hu & _); congruence).
    cbn [mbind option_bind] in H. destruct x as [|g|g|g|g j|g]; cbn [s_time] in H; try done; cbn in Hxf; injection Hxf as ->; cbn [held] in Hh.
    + injection H as <-. cbn in Hc'. assert (c' = c) as -> by congruence. right. split; [|split; [|by left]].
      * cbn. intros g Hg. apply lookup_delete_Some in Hg as [Hn Hg]. apply Hn. eapply (sn_inj _ Hsane); [by apply fr_fd|done].
      * cbn. intros v g Hv. apply list_lookup_insert_Some in Hv as [(_ & ? & _)|[_ Hv]]; [done|]. by eapply no_read.
    + injection H as <-. cbn in Hc'. assert (c' = c) as -> by congruence. left. exists f, (Worker w (SLeave f)). split; [|split].
      * destruct F as [F1 F2 F3]. split; cbn; [done|done|]. intros v g Hv.
        apply list_lookup_insert_Some in Hv as [(_ & ? & _)|[_ Hv]]; [done|by eapply F3].
      * by eapply uses_same.
      * done.
    + destruct Hh as (-> & Hl & Hm). rewrite Hc in H. cbn [mbind option_bind] in H. rewrite decide_True in H by done.
      edestruct life_call as [(o & ?)|?]; [exact Hsane|exact Ed|exact F|exact Hu|exact Hc|exact Hl|exact Hm|by right|exact H|exact Hc'|left; by exists f, o|by right].
Qed.

(** When connection [i] was accepted, no task and no worker used its number. *)
Definition s_own_number hit ro e (s0 : ssys U) (i : nat) (ls : list slab) : Prop :=
  forall pre f post s, ls = pre ++ LAccept i f :: post -> s_run hit ro e s0 pre = Some s -> uses f s Nobody.
Lemma s_own_number_snoc hit ro e s0 i ls l : s_own_number hit ro e s0 i (ls ++ [l]) -> s_own_number hit ro e s0 i ls.
Proof. intros H pre f post s -> Hr. eapply (H pre f (post ++ [l])); [by rewrite <- app_assoc|done]. Qed.

Lemma life_run hit ro e n w ls s i :
  s_run hit ro e (s_new n w) ls = Some s -> s_own_number hit ro e (s_new n w) i ls -> life i s.
Proof.
  revert s. induction ls as [|l ls IH] using rev_ind; intros s H Hown.
  - injection H as <-. intros c. unfold s_new. cbn [ss_conns]. by rewrite lookup_empty.
  - apply s_run_snoc in H as (s1 & H1 & H2). eapply life_step; [by eapply ssane_run|exact H2| |].
    + intros f ->. by eapply Hown.
    + apply IH; [done|by eapply s_own_number_snoc].
Qed.

(** ** Peers that send whole requests *)

(** The records that the peer of [i] has sent. *)
Definition srecs_by (i : nat) (ls : list slab) : list bytes :=
  ls ≫= fun l => match l with LSend j bs => if decide (j = i) then [bs] else [] | _ => [] end.
Lemma srecs_by_snoc i ls l : srecs_by i (ls ++ [l]) =
  srecs_by i ls ++ match l with LSend j bs => if decide (j = i) then [bs] else [] | _ => [] end.
Proof. unfold srecs_by. rewrite bind_app. f_equal. cbn. apply app_nil_r. Qed.
Definition xof (ls : list slab) : list xlab := ls ≫= fun l => match l with LSend j bs => [XSend j bs] | _ => [] end.
Lemma recs_xof i ls : recs_by i (xof ls) = srecs_by i ls.
Proof.
  induction ls as [|l ls IH]; [done|]. unfold xof, recs_by, srecs_by in *. cbn. rewrite bind_app, IH. f_equal.
  destruct l; try done. cbn. by rewrite app_nil_r.
Qed.
Definition as_t (c : sconn) : tconn :=
  TConn (sc_buf c) (sc_wire c) (sc_fin c) (sc_hello c) true true (sc_out c) (sc_sent c).

Lemma call_progress hit ro e n (w : world U) i c texts rs ls k :
  valid_order hit -> requests texts rs -> Forall (tame ro) rs ->
  xprogress ro i texts rs ls (as_t c) k -> concat (recs_by i ls) `prefix_of` concat texts ->
  let o := handle_read_tls hit (WTake n) ro e w (Tls (sc_buf c) ((Rec <$> sc_wire c) ++ []) (if sc_fin c then Eof else Wait)) in
  (o = Blocked /\
    (pending (as_t c) = [] \/ exists text rest, drop k texts = text :: rest /\ pending (as_t c) `prefix_of` text /\ pending (as_t c) <> text)) \/
  (exists v t, o = Ok (v, t) /\ sv_closed v = false /\ forall z m,
    let c' := SConn (tl_buf t) (records_of (tl_items t)) m (sc_fin c) (sc_hello c) z (sc_out c ++ sv_wrote v) (sc_sent c ++ sv_sent v) in
    xprogress ro i texts rs ls (as_t c') (S k) /\
    forall recss, grouped texts recss -> recs_by i ls `prefix_of` concat recss ->
      aligned i recss ls (as_t c) k -> aligned i recss ls (as_t c') (S k)).
Proof.
  intros Hit Hreq Ht Hk Hp o.
  pose proof (xread_progress hit ro e n (XSys w XFree ∅) i (as_t c) texts rs ls k Hit Hreq Ht Hk Hp) as H.
  cbv zeta in H. unfold xread in H. cbn [as_t tn_buf tn_wire tn_fin tn_hello tn_est tn_open tn_out tn_sent xs_world xs_conns] in H.
  fold o in H. destruct o as [[v t]| | | | |].
  - right. destruct H as [[_ H]|(w' & c' & H & Hk' & Hh & Hal)]; [done|].
    apply (f_equal (fun q => xs_conns q !! i)) in H. cbn [xs_conns] in H. rewrite !lookup_insert in H. apply (inj Some) in H. subst c'.
    exists v, t. split; [done|]. split; [destruct Hk' as [Ho _ _ _ _ _]; cbn in Ho; by destruct (sv_closed v)|].
    intros z m c'. split.
    + destruct Hk'. by split.
    + intros recss Hg Hrp Ha. by apply (Hal recss Hg Hrp Ha).
  - destruct H as [[_ H]|(w' & c' & H & _)]; done.
  - destruct H as [[_ H]|(w' & c' & H & _)]; done.
  - destruct H as [[_ H]|(w' & c' & H & _)]; done.
  - left. destruct H as [[Hx _]|(w' & c' & H & _)]; done.
  - destruct H as [[_ H]|(w' & c' & H & _)]; done.
Qed.

(** Where the server is with a connection whose peer sends whole requests. *)
Definition ready (f i : nat) (c : sconn) s : Prop :=
  sc_sess c = Live /\ ss_map s !! f = Some i /\ sc_hello c = Some true.
Definition at_place (f i : nat) (c : sconn) s (o : who) : Prop :=
  match o with
  | InQueue => sc_sess c = NoSess /\ sc_taken c = 0
  | Worker _ x =>
      match x with
      | SAcc _ => sc_sess c = NoSess /\ sc_taken c = 0
      | SPeek _ => ready f i c s /\ sc_taken c = 0
      | SGot _ => ready f i c s /\ sc_wire c <> []
      | SRead _ j => j = i /\ ready f i c s /\ sc_wire c <> []
      | _ => False
      end
  | Nobody => False
  end.
Record sholds ro (i : nat) (recss : list (list bytes)) rs (ls : list slab) s (f : nat) (o : who) (c : sconn) (k : nat) : Prop := {
  sh_frame : frame f i s; sh_uses : uses f s o; sh_conn : ss_conns s !! i = Some c;
  sh_hello : sc_wire c <> [] -> sc_hello c = Some true;
  sh_prog : xprogress ro i (map (@concat ascii) recss) rs (xof ls) (as_t c) k;
  sh_al : aligned i recss (xof ls) (as_t c) k;
  sh_place : at_place f i c s o }.

(** No wait for the peer of [i] times out; writing to it works. *)
Definition elsewhere (i : nat) s (w : nat) : Prop :=
  forall x f, ss_workers s !! w = Some x -> swst_fd x = Some f -> ss_fds s !! f <> Some i.
Definition scalm (i : nat) s (l : slab) : Prop :=
  match l with LTime w _ => elsewhere i s w | LGo w wr => (exists k, wr = WTake k) \/ elsewhere i s w | _ => True end.
Definition scalm_run hit ro e (s0 : ssys U) (i : nat) (ls : list slab) : Prop :=
  forall pre l post s, ls = pre ++ l :: post -> s_run hit ro e s0 pre = Some s -> scalm i s l.
Lemma scalm_run_snoc hit ro e s0 i ls l : scalm_run hit ro e s0 i (ls ++ [l]) -> scalm_run hit ro e s0 i ls.
Proof. intros H pre l' post s -> Hr. eapply (H pre l' (post ++ [l])); [by rewrite <- app_assoc|done]. Qed.
(** The peer of [i] shakes hands and does not close. *)
Definition sstays (i : nat) (l : slab) : Prop :=
  match l with LHello j good => j = i -> good = true | LFin j => j <> i | _ => True end.

Lemma concat_concat' (recss : list (list bytes)) : concat (concat recss) = concat (map (@concat ascii) recss).
Proof. induction recss as [|g recss IH]; [done|]. cbn. by rewrite concat_app, IH. Qed.
Lemma prefix_concat (a b : list bytes) : a `prefix_of` b -> concat a `prefix_of` concat b.
Proof. intros [q ->]. rewrite concat_app. by eexists. Qed.

Lemma call_holds hit ro e n s w x f i c k recss rs ls s' :
  valid_order hit -> requests (map (@concat ascii) recss) rs -> Forall (tame ro) rs -> Forall filled recss ->
  srecs_by i ls `prefix_of` concat recss ->
  sholds ro i recss rs ls s f (Worker w x) c k -> ready f i c s -> sc_wire c <> [] ->
  s_call hit ro e (WTake n) [] s w f i c = Some s' ->
  (exists c', sholds ro i recss rs ls s' f (Worker w (SPeek f)) c' (S k)) \/
  (exists c', sholds ro i recss rs ls s' f (Worker w (SRead f i)) c' k /\ srecs_by i ls <> concat recss).
Proof.
  intros Hit Hreq Ht Hfill Hpre [F Hu Hc Hh Hk Ha Hpl] (R1 & R2 & R3) Hne H.
  assert (Hp : concat (recs_by i (xof ls)) `prefix_of` concat (map (@concat ascii) recss)).
  { rewrite recs_xof, <- concat_concat'. by apply prefix_concat. }
  unfold s_call in H. rewrite bool_decide_eq_true_2 in H by (by apply fr_fd).
  destruct (call_progress hit ro e n (ss_world s) i c _ rs (xof ls) k Hit Hreq Ht Hk Hp) as [[E Hpart]|(v & t & E & Ev & Hnext)]; rewrite E in H.
  - right. destruct (decide _); [done|]. injection H as <-. exists (set_taken (length (sc_wire c)) c). split.
    + split; try done.
      * destruct F as [F1 F2 F3]. split; cbn; [done|done|]. intros v g Hv.
        apply list_lookup_insert_Some in Hv as [(_ & Hv & _)|[_ Hv]]; [by injection Hv|by eapply F3].
      * by eapply uses_same.
      * cbn. apply lookup_insert.
    + intros Hall. destruct Ha as [Ha1 Ha2]. destruct Hk as [_ _ _ _ Hin _]. cbn in Ha1.
      rewrite recs_xof, Hall in Ha2. cbn in Ha2. rewrite recs_xof, Hall, concat_concat' in Hin.
      assert (E' : concat (map (@concat ascii) recss) = concat (take k (map (@concat ascii) recss)) ++ concat (drop k (map (@concat ascii) recss))) by (by rewrite <- concat_app, take_drop).
      rewrite E' in Hin. apply app_inv_head in Hin. destruct Hpart as [Hx|(text & rest & Hd & Hpt & Hn)].
      * unfold pending in Hx. cbn in Hx. rewrite Ha1 in Hx. cbn in Hx. apply Hne, filled_concat_nil; [|done].
        pose proof (filled_concat_all _ Hfill) as Hf. rewrite Ha2 in Hf. by apply Forall_app in Hf as [_ ?].
      * rewrite Hd in Hin. cbn in Hin. apply Hn. destruct Hpt as [q Hq]. destruct q as [|a q]; [by rewrite app_nil_r in Hq|].
        apply (f_equal length) in Hin, Hq. rewrite app_length in Hin. rewrite app_length in Hq. simpl in Hq. unfold pending in Hq. cbn [as_t tn_buf tn_wire] in Hq. lia.
  - left. rewrite Ev in H. injection H as <-. destruct (Hnext (sc_sess c) 0) as [Hk' Hal]. eexists. split; cbn [ss_conns].
    + destruct F as [F1 F2 F3]. split; cbn; [done|done|]. intros v' g Hv.
      apply list_lookup_insert_Some in Hv as [(_ & Hv & _)|[_ Hv]]; [done|by eapply F3].
    + by eapply uses_same.
    + apply lookup_insert.
    + done.
    + done.
    + apply Hal; [by split|by rewrite recs_xof|done].
    + done.
Qed.

Lemma sholds_ls ro i recss rs ls ls' s f o c k :
  srecs_by i ls' = srecs_by i ls -> sholds ro i recss rs ls s f o c k -> sholds ro i recss rs ls' s f o c k.
Proof.
  intros E [F Hu Hc Hh Hk Ha Hpl]. split; try done.
  - destruct Hk. split; try done. by rewrite recs_xof, E, <- recs_xof.
  - destruct Ha as [Ha1 Ha2]. split; [done|]. by rewrite recs_xof, E, <- recs_xof.
Qed.

Lemma sholds_step hit ro e s l s' f o c k i recss rs ls :
  valid_order hit -> requests (map (@concat ascii) recss) rs -> Forall (tame ro) rs -> Forall filled recss ->
  ssane s -> s_step hit ro e s l = Some s' -> scalm i s l -> sstays i l ->
  srecs_by i (ls ++ [l]) `prefix_of` concat recss ->
  sholds ro i recss rs ls s f o c k ->
  exists o' c' k', sholds ro i recss rs (ls ++ [l]) s' f o' c' k' /\
    match l, o with
    | LPop w, InQueue => o' = InQueue \/ o' = Worker w (SAcc f)
    | LGo w _, Worker v x => v = w -> srecs_by i (ls ++ [l]) = concat recss ->
        match x with SAcc _ => o' = Worker w (SPeek f) /\ k' = k /\ sc_wire c' = sc_wire c
        | SPeek _ => o' = Worker w (SGot f) /\ k' = k
        | _ => o' = Worker w (SPeek f) /\ k' = S k end
    | _, _ => True
    end.
Proof.
  intros Hit Hreq Ht Hfill Hsane H Hsm Hst Hpre Hh.
  assert (Hpre0 : srecs_by i ls `prefix_of` concat recss) by (etrans; [|exact Hpre]; rewrite srecs_by_snoc; by eexists).
  assert (Hsame : (forall bs, l <> LSend i bs) -> srecs_by i (ls ++ [l]) = srecs_by i ls).
  { intros Hn. rewrite srecs_by_snoc. destruct l; rewrite ?app_nil_r; try done. case_decide; [|by rewrite app_nil_r]. subst. by destruct (Hn bs). }
  assert (Hno : ~ ours f i s l -> (forall bs, l <> LSend i bs) -> exists c' k', sholds ro i recss rs (ls ++ [l]) s' f o c' k').
  { intros Hno Hns. destruct Hh as [F Hu Hc Hhe Hk Ha Hpl].
    destruct (frame_step _ _ _ _ _ _ _ _ _ Hsane H F Hu Hno) as (F' & Hu' & Ec & Em). exists c, k.
    apply (sholds_ls ro i recss rs ls); [by apply Hsame|]. split; try done; [by rewrite Ec|].
    destruct o as [|v x|]; [done| |done]. cbn [at_place] in *. unfold ready in *. by rewrite Em. }
  assert (Hno2 : ~ ours f i s l -> (forall bs, l <> LSend i bs) -> (forall w wr, l = LGo w wr -> forall x, o <> Worker w x) ->
    exists o' c' k', sholds ro i recss rs (ls ++ [l]) s' f o' c' k' /\
    match l, o with
    | LPop w, InQueue => o' = InQueue \/ o' = Worker w (SAcc f)
    | LGo w _, Worker v x => v = w -> srecs_by i (ls ++ [l]) = concat recss ->
        match x with SAcc _ => o' = Worker w (SPeek f) /\ k' = k /\ sc_wire c' = sc_wire c
        | SPeek _ => o' = Worker w (SGot f) /\ k' = k
        | _ => o' = Worker w (SPeek f) /\ k' = S k end
    | _, _ => True
    end).
  { intros H1 H2 H3. destruct (Hno H1 H2) as (c' & k' & Hx). exists o, c', k'. split; [done|].
    destruct l as [| | | |w|w wr|]; try done; destruct o as [|v x|]; try done; [by left|]. intros ->. exfalso. by eapply H3. }
  clear Hno. pose proof H as H0. unfold s_step in H. destruct (ss_down s) eqn:Ed; [done|].
  destruct l as [j g|j b|j bs|j|w|w wr|w wr]; cbn [scalm sstays] in *.
  - by apply Hno2; [cbn; tauto|..].
  - destruct (decide (j = i)) as [->|]; [|by apply Hno2].
    destruct Hh as [F Hu Hc Hhe Hk Ha Hpl]. rewrite Hc in H. cbn [mbind option_bind] in H. destruct (decide _) as [[Hf Hn]|]; [|done]. injection H as <-.
    exists o. eexists _, k. split; [|done]. eapply sholds_ls; [by apply Hsame|]. rewrite (Hst eq_refl). split; cbn [ss_conns].
    + by destruct F.
    + by destruct o.
    + cbn. apply lookup_insert.
    + done.
    + destruct Hk. by split.
    + done.
    + destruct o as [|v x|]; [done| |done]. cbn [at_place] in *. unfold ready in *. destruct x; cbn in *; try done; naive_solver congruence.
  - destruct (decide (j = i)) as [->|]; [|by apply Hno2; [|congruence|]].
    destruct Hh as [F Hu Hc Hhe Hk Ha Hpl]. rewrite Hc in H. cbn [mbind option_bind] in H. destruct (decide _) as [[Hf Hn]|]; [|done]. injection H as <-.
    assert (Er : srecs_by i (ls ++ [LSend i bs]) = srecs_by i ls ++ [bs]) by (rewrite srecs_by_snoc; by rewrite decide_True).
    exists o. eexists _, k. split; [|done]. split; cbn [ss_conns].
    + by destruct F.
    + by destruct o.
    + cbn. apply lookup_insert.
    + done.
    + destruct Hk as [? ? ? ? Hin ?]. split; try done. rewrite recs_xof, Er, concat_app, <- recs_xof, Hin.
      unfold pending. cbn [as_t tn_buf tn_wire sc_buf sc_wire]. by rewrite (concat_app (sc_wire c)), !app_assoc.
    + destruct Ha as [Ha1 Ha2]. split; [done|]. rewrite recs_xof, Er, <- recs_xof, Ha2. cbn. by rewrite app_assoc.
    + destruct o as [|v x|]; [done| |done]. cbn [at_place] in *. unfold ready in *. destruct x; try done; cbn.
      * split; [by destruct Hpl|]. intros Hx. by apply app_eq_nil in Hx as [_ ?].
      * destruct Hpl as (-> & ? & ?). split; [done|]. split; [done|]. intros Hx. by apply app_eq_nil in Hx as [_ ?].
  - by apply Hno2.
  - destruct (ss_queue s) as [|g q] eqn:Eq; [apply Hno2; [cbn; rewrite Eq; by intros [? ?]|done|done]|].
    destruct (decide (g = f)) as [->|]; [|apply Hno2; [cbn; rewrite Eq; intros [? ?]; congruence|done|done]].
    destruct Hh as [F Hu Hc Hhe Hk Ha Hpl].
    destruct (ss_workers s !! w) as [[]|] eqn:Ew; try done. injection H as <-.
    destruct o as [|w1 x1|]; cbn [uses] in Hu; rewrite Eq in Hu; [|exfalso; apply (proj1 Hu); left..].
    destruct Hu as [(q1 & q2 & E & Hq1 & Hq2) Hw].
    destruct q1 as [|g q1]; cbn in E; [injection E as ->|injection E as <- _; exfalso; apply Hq1; left].
    exists (Worker w (SAcc f)), c, k. split; [|by right]. eapply sholds_ls; [by apply Hsame|]. split; try done.
    + destruct F as [F1 F2 F3]. split; cbn; [done|done|]. intros v g Hv.
      apply list_lookup_insert_Some in Hv as [(_ & ? & _)|[_ Hv]]; [done|by eapply F3].
    + cbn [uses ss_queue ss_workers]. split; [done|]. split; [apply list_lookup_insert; by eapply lookup_lt_Some|]. split; [done|].
      intros v y Hv Hy. apply list_lookup_insert_Some in Hv as [(? & _)|[_ Hv]]; [done|]. by apply Hw in Hv.
  - destruct (ss_workers s !! w) as [x|] eqn:Ew; [|done].
    destruct (decide (swst_fd x = Some f)) as [Hxf|Hxf].
    2:{ apply Hno2; [cbn; intros (y & ? & ?); congruence|done|]. intros v wr' [= <- <-] y ->.
        destruct Hh as [_ (_ & Hy & Hyf & _) _ _ _ _ _]. congruence. }
    pose proof Hh as [F Hu Hc Hhe Hk Ha Hpl].
    destruct Hsm as [[n ->]|Hsm]; [|by destruct (Hsm x f Ew Hxf (fr_fd _ _ _ F))].
    destruct o as [|w1 x1|]; [by apply (proj2 Hu) in Ew| |by apply (proj2 Hu) in Ew].
    assert (w = w1) as <- by (destruct Hu as (_ & _ & _ & Hu); by eapply Hu).
    assert (x1 = x) as -> by (destruct Hu as (_ & Hu & _); congruence).
    assert (Hls : srecs_by i (ls ++ [LGo w (WTake n)]) = srecs_by i ls) by (by apply Hsame).
    assert (Hfin : sc_fin c = false) by (by destruct Hk).
    cbn [mbind option_bind] in H. destruct x as [|g|g|g|g j|g]; cbn [s_go] in H; try done; cbn in Hxf; injection Hxf as ->; cbn [at_place] in Hpl.
    + destruct Hpl as [Hz Htk]. rewrite (fr_fd _ _ _ F), Hc in H. cbn [mbind option_bind] in H. rewrite Hz in H. destruct (sc_hello c) as [[]|] eqn:Ehe.
      * injection H as <-. exists (Worker w (SPeek f)), (set_sess Live c), k. split; [|done].
        eapply sholds_ls; [exact Hls|]. split.
        -- destruct F as [F1 F2 F3]. split; cbn; [done| |].
           ++ intros g Hg. apply lookup_insert_Some in Hg as [[? _]|[_ Hg]]; [done|by apply F2].
           ++ intros v g Hv. apply list_lookup_insert_Some in Hv as [(_ & ? & _)|[_ Hv]]; [done|by eapply F3].
        -- by eapply uses_same.
        -- cbn. apply lookup_insert.
        -- done.
        -- destruct Hk. by split.
        -- done.
        -- cbn. unfold ready. cbn. rewrite lookup_insert. done.
      * exfalso. destruct Hk as [_ _ Hx _ _ _]. by apply Hx.
      * by rewrite Hfin in H.
    + destruct Hpl as [[R1 [R2 R3]] Htk]. rewrite (fr_fd _ _ _ F), Hc in H. cbn [mbind option_bind] in H. rewrite Hfin in H.
      unfold raw in H. rewrite R1, Htk in H. destruct (sc_wire c) as [|r0 rest] eqn:Ewi; [done|]. cbn in H. injection H as <-.
      exists (Worker w (SGot f)), c, k. split; [|done]. eapply sholds_ls; [exact Hls|]. split; try done.
      * destruct F as [F1 F2 F3]. split; cbn; [done|done|].
        intros v g Hv. apply list_lookup_insert_Some in Hv as [(_ & ? & _)|[_ Hv]]; [done|by eapply F3].
      * by eapply uses_same.
      * cbn. by rewrite Ewi.
    + destruct Hpl as [R Hne]. pose proof R as (R1 & R2 & R3). rewrite R2, Hc in H. cbn [mbind option_bind] in H. rewrite R1 in H.
      assert (inside s w i = false) as Hin.
      { apply not_true_iff_false. rewrite inside_true. intros (v & g & Hv & Hg). pose proof (fr_read _ _ _ F _ _ Hg) as ->.
        destruct Hu as (_ & _ & _ & Hu). by apply Hv, (Hu _ _ Hg). }
      rewrite Hin in H.
      destruct (call_holds hit ro e n s w _ f i c k recss rs ls s' Hit Hreq Ht Hfill Hpre0 Hh R Hne H) as [[c' Hx]|(c' & Hx & Hnall)].
      * exists (Worker w (SPeek f)), c', (S k). split; [|done]. by eapply sholds_ls.
      * exists (Worker w (SRead f i)), c', k. split; [by eapply sholds_ls|]. intros _ Hall. congruence.
    + destruct Hpl as (-> & R & Hne). pose proof R as (R1 & R2 & R3). rewrite Hc in H. cbn [mbind option_bind] in H. rewrite decide_True in H by done.
      destruct (call_holds hit ro e n s w _ f i c k recss rs ls s' Hit Hreq Ht Hfill Hpre0 Hh R Hne H) as [[c' Hx]|(c' & Hx & Hnall)].
      * exists (Worker w (SPeek f)), c', (S k). split; [|done]. by eapply sholds_ls.
      * exists (Worker w (SRead f i)), c', k. split; [by eapply sholds_ls|]. intros _ Hall. congruence.
  - apply Hno2; [|done|done]. cbn. intros (x & Hx & Hxf). exact (Hsm x f Hx Hxf (fr_fd _ _ _ (sh_frame _ _ _ _ _ _ _ _ _ _ Hh))).
Qed.

Lemma srecs_none hit ro e n w s ls i : s_run hit ro e (s_new n w) ls = Some s -> ss_conns s !! i = None -> srecs_by i ls = [].
Proof.
  revert s. induction ls as [|l ls IH] using rev_ind; intros s H Hi; [done|].
  apply s_run_snoc in H as (s1 & H1 & Hl). rewrite srecs_by_snoc.
  assert (H0 : ss_conns s1 !! i = None /\ forall bs, l <> LSend i bs).
  { pose proof (step_go _ _ _ _ _ _ Hl) as Hgo. pose proof (ssane_run _ _ _ _ _ _ _ H1) as Hsane.
    assert (Hlo : forall w x g, s = sdown s1 \/ (exists x', local_step s1 s w g x x') -> ss_conns s1 !! i = None).
    { intros v x g [->|[x' L]]; [done|]. destruct (ss_conns s1 !! i) as [c|] eqn:E; [|done].
      destruct (lo_keep _ _ _ _ _ _ L i) as [? ?]; [by eexists|congruence]. }
    assert (Hput : forall j c, s = sconn_put s1 j c -> j <> i /\ ss_conns s1 !! i = None).
    { intros j c ->. cbn in Hi. by apply lookup_insert_None in Hi as [? ?]. }
    pose proof Hl as Hl0. unfold s_step in Hl. destruct (ss_down s1); [done|]. destruct l as [j g|j b|j bs|j|v|v wr|v wr].
    - destruct (decide _); [|done]. injection Hl as <-. cbn in Hi. by apply lookup_insert_None in Hi as [? _].
    - destruct (ss_conns s1 !! j) as [d|]; [|done]. cbn [mbind option_bind] in Hl. destruct (decide _); [|done]. injection Hl as Hl. by edestruct Hput.
    - destruct (ss_conns s1 !! j) as [d|]; [|done]. cbn [mbind option_bind] in Hl. destruct (decide _); [|done]. injection Hl as Hl.
      edestruct Hput as [Hj ?]; [done|]. split; [done|]. intros bs' [= ? _]. done.
    - destruct (ss_conns s1 !! j) as [d|]; [|done]. injection Hl as Hl. by edestruct Hput.
    - destruct (ss_workers s1 !! v) as [[]|]; try done. destruct (ss_queue s1); [done|]. by injection Hl as <-.
    - destruct Hgo as (x & g & Hx & Hg). split; [|done]. eapply Hlo, (go_local hit ro e s1 v wr false); done.
    - destruct Hgo as (x & g & Hx & Hg). split; [|done]. eapply Hlo, (go_local hit ro e s1 v wr true); done. }
  destruct H0 as [H0 Hns]. rewrite (IH s1 H1 H0). cbn. destruct l; try done. case_decide; [|done]. subst. by destruct (Hns bs).
Qed.

Theorem sholds_run hit ro e n w ls s i c recss rs :
  valid_order hit -> requests (map (@concat ascii) recss) rs -> Forall (tame ro) rs -> Forall filled recss ->
  s_run hit ro e (s_new n w) ls = Some s -> scalm_run hit ro e (s_new n w) i ls -> Forall (sstays i) ls ->
  s_own_number hit ro e (s_new n w) i ls -> srecs_by i ls `prefix_of` concat recss ->
  ss_conns s !! i = Some c -> exists f o k, sholds ro i recss rs ls s f o c k.
Proof.
  intros Hit Hreq Ht Hfill. revert s c. induction ls as [|l ls IH] using rev_ind; intros s c H Hsm Hst Hown Hpre Hc.
  { injection H as <-. unfold s_new in Hc. cbn [ss_conns] in Hc. by rewrite lookup_empty in Hc. }
  apply s_run_snoc in H as (s1 & H1 & Hl). pose proof (scalm_run_snoc _ _ _ _ _ _ _ Hsm) as Hsm1.
  pose proof (Hsm ls l [] s1 eq_refl H1) as Hsm2. apply Forall_app in Hst as [Hst1 Hst2]. apply Forall_cons in Hst2 as [Hst2 _].
  pose proof (ssane_run _ _ _ _ _ _ _ H1) as Hsane.
  assert (Hpre1 : srecs_by i ls `prefix_of` concat recss) by (etrans; [|exact Hpre]; rewrite srecs_by_snoc; by eexists).
  destruct (ss_conns s1 !! i) as [c1|] eqn:Ec.
  - destruct (IH s1 c1 H1 Hsm1 Hst1 (s_own_number_snoc _ _ _ _ _ _ _ Hown) Hpre1 Ec) as (f & o & k & Hh).
    destruct (sholds_step hit ro e s1 l s f o c1 k i recss rs ls Hit Hreq Ht Hfill Hsane Hl Hsm2 Hst2 Hpre Hh) as (o' & c' & k' & Hh' & _).
    exists f, o', k'. assert (c' = c) as -> by (destruct Hh' as [_ _ ? _ _ _ _]; congruence). done.
  - destruct (appears _ _ _ _ _ _ _ _ Hsane Hl Ec Hc) as (f & -> & -> & E1 & E2 & E3 & E4).
    assert (Hr0 : srecs_by i (ls ++ [LAccept i f]) = []) by (rewrite srecs_by_snoc; by rewrite (srecs_none _ _ _ _ _ _ _ _ H1 Ec)).
    destruct (accept_frame s1 s f i Hsane Ec (Hown ls f [] s1 eq_refl H1) E1 E2 E3 E4) as [F Hu].
    exists f, InQueue, 0. split; try done.
    + split; cbn; try done; [lia|by rewrite recs_xof, Hr0|constructor].
    + split; [done|]. by rewrite recs_xof, Hr0.
Qed.

(** ** The server has nothing left to do *)

Definition s_by_server (l : slab) : Prop := match l with LPop _ | LGo _ _ => True | _ => False end.
Definition s_at_rest hit ro e s : Prop :=
  ss_down s = false /\ forall l, s_by_server l -> s_step hit ro e s l = None.

(** A worker that has something to read goes on. *)
Lemma can_go hit ro e n s w x f i c k recss rs ls :
  valid_order hit -> requests (map (@concat ascii) recss) rs -> Forall (tame ro) rs -> Forall filled recss ->
  ss_down s = false -> srecs_by i ls = concat recss ->
  sholds ro i recss rs ls s f (Worker w x) c k -> sc_wire c <> [] ->
  exists s', s_step hit ro e s (LGo w (WTake n)) = Some s' /\ ss_down s' = false.
Proof.
  intros Hit Hreq Ht Hfill Hd Hall [F Hu Hc Hhe Hk Ha Hpl] Hne.
  assert (Hp : concat (recs_by i (xof ls)) `prefix_of` concat (map (@concat ascii) recss)).
  { rewrite recs_xof, Hall, concat_concat'. done. }
  assert (Hcall : exists s', s_call hit ro e (WTake n) [] s w f i c = Some s' /\ ss_down s' = false).
  { unfold s_call. rewrite bool_decide_eq_true_2 by (by apply fr_fd).
    destruct (call_progress hit ro e n (ss_world s) i c _ rs (xof ls) k Hit Hreq Ht Hk Hp) as [[E Hpart]|(v & t & E & _)]; rewrite E; [|eexists; split; [done|by destruct (sv_closed v)]].
    exfalso. destruct Ha as [Ha1 Ha2]. destruct Hk as [_ _ _ _ Hin _]. cbn in Ha1.
    rewrite recs_xof, Hall in Ha2. cbn in Ha2. rewrite recs_xof, Hall, concat_concat' in Hin.
    assert (E' : concat (map (@concat ascii) recss) = concat (take k (map (@concat ascii) recss)) ++ concat (drop k (map (@concat ascii) recss))) by (by rewrite <- concat_app, take_drop).
    rewrite E' in Hin. apply app_inv_head in Hin. destruct Hpart as [Hx|(text & rest & Hdr & Hpt & Hn)].
    * unfold pending in Hx. cbn in Hx. rewrite Ha1 in Hx. cbn in Hx. apply Hne, filled_concat_nil; [|done].
      pose proof (filled_concat_all _ Hfill) as Hf. rewrite Ha2 in Hf. by apply Forall_app in Hf as [_ ?].
    * rewrite Hdr in Hin. cbn [concat] in Hin. apply Hn. destruct Hpt as [q Hq]. destruct q as [|a q]; [by rewrite app_nil_r in Hq|].
      apply (f_equal length) in Hin, Hq. rewrite app_length in Hin. rewrite app_length in Hq. simpl in Hq. lia. }
  destruct Hu as (_ & Hw & Hxf & Hu). unfold s_step. rewrite Hd, Hw. cbn [mbind option_bind].
  destruct x as [|g|g|g|g j|g]; cbn [at_place] in Hpl; try done; cbn in Hxf; injection Hxf as ->; cbn [s_go].
  - destruct Hpl as [Hz Htk]. rewrite (fr_fd _ _ _ F), Hc. cbn [mbind option_bind]. rewrite Hz, (Hhe Hne). by eexists.
  - destruct Hpl as [(R1 & R2 & R3) Htk]. rewrite (fr_fd _ _ _ F), Hc. cbn [mbind option_bind]. unfold raw. rewrite R1, Htk.
    destruct (sc_wire c); [done|]. cbn. by eexists.
  - destruct Hpl as [(R1 & R2 & R3) _]. rewrite R2, Hc. cbn [mbind option_bind]. rewrite R1.
    assert (inside s w i = false) as ->; [|done].
    apply not_true_iff_false. rewrite inside_true. intros (v & g & Hv & Hg). pose proof (fr_read _ _ _ F _ _ Hg) as ->. by apply Hv, (Hu _ _ Hg).
  - destruct Hpl as (-> & (R1 & R2 & R3) & _). rewrite Hc. cbn [mbind option_bind]. by rewrite decide_True.
Qed.

(** Everything has been read: everything has been answered. *)
Lemma sall_done ro i recss rs ls s f o c k :
  requests (map (@concat ascii) recss) rs -> srecs_by i ls = concat recss ->
  sholds ro i recss rs ls s f o c k -> sc_wire c = [] -> Forall2 (answers ro) rs (sc_out c).
Proof.
  intros Hreq Hall [F Hu Hc Hhe Hk [Ha1 Ha2] Hpl] Hnil. destruct Hk as [_ _ _ _ Hin Hout]. cbn in Ha1.
  unfold pending in Hin. cbn [as_t tn_buf tn_wire tn_out] in *. rewrite recs_xof, Hall, concat_concat', Ha1, Hnil, app_nil_r in Hin.
  assert (E : take k (map (@concat ascii) recss) = map (@concat ascii) recss) by (apply HttpSystemProps.concat_take_all; [by eapply HttpSystemProps.requests_nonempty|done]).
  assert (Hl : length (map (@concat ascii) recss) <= k) by (rewrite <- E; rewrite take_length; lia).
  destruct Hreq as (HF & _). rewrite take_ge in Hout; [done|]. by rewrite <- (Forall2_length _ _ _ HF).
Qed.

(** ** Enough workers *)

Definition sbusy (x : swst) : nat := match x with SFree => 0 | _ => 1 end.
Definition nsbusy (ws : list swst) : nat := sum_list_with sbusy ws.
Lemma nsbusy_cons x ws : nsbusy (x :: ws) = sbusy x + nsbusy ws.
Proof. done. Qed.
Lemma nsbusy_insert ws w x y : ws !! w = Some x -> nsbusy (<[w := y]> ws) + sbusy x = nsbusy ws + sbusy y.
Proof.
  revert w. induction ws as [|z ws IH]; intros [|w] H; try done.
  - injection H as ->. change (<[0 := y]> (x :: ws)) with (y :: ws). rewrite !nsbusy_cons. lia.
  - change (<[S w := y]> (z :: ws)) with (z :: <[w := y]> ws). rewrite !nsbusy_cons. specialize (IH w H). lia.
Qed.
Lemma nsbusy_free ws : nsbusy ws < length ws -> exists w, ws !! w = Some SFree.
Proof.
  induction ws as [|x ws IH]; [cbn; lia|]. rewrite nsbusy_cons. cbn [length]. intros H. destruct x; [by exists 0|..];
    (destruct IH as [w Hw]; [cbn [sbusy] in H; lia|by exists (S w)]).
Qed.
Definition snaccepted (ls : list slab) : nat := length (List.filter (fun l => match l with LAccept _ _ => true | _ => false end) ls).
Lemma snaccepted_snoc ls l : snaccepted (ls ++ [l]) = snaccepted ls + match l with LAccept _ _ => 1 | _ => 0 end.
Proof. unfold snaccepted. rewrite List.filter_app, app_length. f_equal. by destruct l. Qed.

Lemma sload_step hit ro e s l s' : s_step hit ro e s l = Some s' ->
  length (ss_workers s') = length (ss_workers s) /\
  nsbusy (ss_workers s') + length (ss_queue s') <= nsbusy (ss_workers s) + length (ss_queue s) + match l with LAccept _ _ => 1 | _ => 0 end.
Proof.
  intros H. pose proof (step_go _ _ _ _ _ _ H) as Hgo.
  assert (Hlo : forall w x g, ss_workers s !! w = Some x -> swst_fd x = Some g -> s' = sdown s \/ (exists x', local_step s s' w g x x') ->
    length (ss_workers s') = length (ss_workers s) /\ nsbusy (ss_workers s') + length (ss_queue s') <= nsbusy (ss_workers s) + length (ss_queue s) + 0).
  { intros w x g Hx Hg [->|[x' L]]; [cbn [sdown ss_workers ss_queue]; split; [done|lia]|]. rewrite (lo_workers _ _ _ _ _ _ L), (lo_queue _ _ _ _ _ _ L), insert_length.
    split; [done|]. pose proof (nsbusy_insert _ _ _ x' Hx). destruct x; try done; destruct x'; cbn [sbusy] in *; lia. }
  pose proof H as H0. unfold s_step in H. destruct (ss_down s); [done|].
  destruct l as [j g|j b|j bs|j|w|w wr|w wr].
  - destruct (decide _); [|done]. injection H as <-. cbn [ss_workers ss_queue]. split; [done|]. rewrite app_length. cbn [length]. lia.
  - destruct (ss_conns s !! j); [|done]. cbn [mbind option_bind] in H. destruct (decide _); [|done]. injection H as <-. cbn [sconn_put ss_workers ss_queue]. split; [done|lia].
  - destruct (ss_conns s !! j); [|done]. cbn [mbind option_bind] in H. destruct (decide _); [|done]. injection H as <-. cbn [sconn_put ss_workers ss_queue]. split; [done|lia].
  - destruct (ss_conns s !! j); [|done]. injection H as <-. cbn [sconn_put ss_workers ss_queue]. split; [done|lia].
  - destruct (ss_workers s !! w) as [[]|] eqn:Ew; try done. destruct (ss_queue s) as [|g q]; [done|]. injection H as <-. cbn [ss_workers ss_queue].
    rewrite insert_length. split; [done|]. pose proof (nsbusy_insert _ _ _ (SAcc g) Ew). cbn [sbusy length] in *. lia.
  - destruct Hgo as (x & g & Hx & Hg). by eapply (Hlo w x g Hx Hg), (go_local hit ro e s w wr false).
  - destruct Hgo as (x & g & Hx & Hg). by eapply (Hlo w x g Hx Hg), (go_local hit ro e s w wr true).
Qed.
Lemma sload_run hit ro e n w ls s : s_run hit ro e (s_new n w) ls = Some s ->
  length (ss_workers s) = n /\ nsbusy (ss_workers s) + length (ss_queue s) <= snaccepted ls.
Proof.
  revert s. induction ls as [|l ls IH] using rev_ind; intros s H.
  - injection H as <-. cbn [s_new ss_workers ss_queue length]. rewrite replicate_length. split; [done|]. assert (nsbusy (replicate n SFree) = 0) as ->; [by induction n|]. lia.
  - apply s_run_snoc in H as (s1 & H1 & H2). destruct (IH s1 H1) as [L1 L2]. destruct (sload_step _ _ _ _ _ _ H2) as [M1 M2].
    rewrite snaccepted_snoc. lia.
Qed.

(** Serving the whole of what one peer has sent. *)
Lemma serve_rest hit ro e i recss rs f w : valid_order hit -> requests (map (@concat ascii) recss) rs -> Forall (tame ro) rs -> Forall filled recss ->
  forall m ls s x c k, ssane s -> ss_down s = false -> srecs_by i ls = concat recss -> length recss - k <= m ->
  sholds ro i recss rs ls s f (Worker w x) c k ->
  exists ls' s' c', Forall s_by_server ls' /\ s_run hit ro e s ls' = Some s' /\ ss_conns s' !! i = Some c' /\ Forall2 (answers ro) rs (sc_out c').
Proof.
  intros Hit Hreq Ht Hfill m ls s x c k Hsane Hd Hall Hm Hh.
  assert (Hlen : forall c ls s o k, sholds ro i recss rs ls s f o c k -> k <= length recss).
  { intros c0 ls0 s0 o0 k0 [_ _ _ _ [_ _ _ [_ Hx] _ _] _ _]. by rewrite map_length in Hx. }
  assert (Hone : forall ls s x c k, ssane s -> ss_down s = false -> srecs_by i ls = concat recss ->
    sholds ro i recss rs ls s f (Worker w x) c k -> sc_wire c <> [] ->
    exists s' o' c' k', s_step hit ro e s (LGo w (WTake 0)) = Some s' /\ ssane s' /\ ss_down s' = false /\
      srecs_by i (ls ++ [LGo w (WTake 0)]) = concat recss /\
      sholds ro i recss rs (ls ++ [LGo w (WTake 0)]) s' f o' c' k' /\
      match x with SAcc _ => o' = Worker w (SPeek f) /\ k' = k /\ sc_wire c' = sc_wire c
        | SPeek _ => o' = Worker w (SGot f) /\ k' = k
        | _ => o' = Worker w (SPeek f) /\ k' = S k end).
  { clear dependent ls s x c k. intros ls s x c k Hsane Hd Hall Hh Hne.
    destruct (can_go hit ro e 0 s w x f i c k recss rs ls Hit Hreq Ht Hfill Hd Hall Hh Hne) as (s' & Hs & Hd').
    assert (Hall' : srecs_by i (ls ++ [LGo w (WTake 0)]) = concat recss) by (rewrite srecs_by_snoc; by rewrite app_nil_r).
    destruct (sholds_step hit ro e s (LGo w (WTake 0)) s' f (Worker w x) c k i recss rs ls Hit Hreq Ht Hfill Hsane Hs) as (o' & c' & k' & Hh' & Hx).
    - left. by exists 0.
    - done.
    - by rewrite Hall'.
    - done.
    - exists s', o', c', k'. split; [done|]. split; [by eapply ssane_step|]. split; [done|]. split; [done|]. split; [done|]. by apply Hx. }
  (* whatever has to be done before the next answer takes a bounded number of steps *)
  set (rank := fun x : swst => match x with SAcc _ => 2 | SPeek _ => 1 | _ => 0 end).
  assert (Hgo : forall m ls s x c k, ssane s -> ss_down s = false -> srecs_by i ls = concat recss ->
    sholds ro i recss rs ls s f (Worker w x) c k -> 3 * (length recss - k) + rank x <= m ->
    exists ls' s' c', Forall s_by_server ls' /\ s_run hit ro e s ls' = Some s' /\ ss_conns s' !! i = Some c' /\ Forall2 (answers ro) rs (sc_out c')).
  2:{ by eapply Hgo. }
  clear dependent m ls s x c k. intros m. induction m as [m IH] using lt_wf_ind. intros ls s x c k Hsane Hd Hall Hh Hm.
  destruct (decide (sc_wire c = [])) as [Hnil|Hne].
  { exists [], s, c. split; [constructor|]. split; [done|]. split; [by destruct Hh|]. by eapply sall_done. }
  destruct (Hone _ _ _ _ _ Hsane Hd Hall Hh Hne) as (s' & o' & c' & k' & Hs & Hsane' & Hd' & Hall' & Hh' & Hx).
  assert (Hy : exists y, o' = Worker w y /\ 3 * (length recss - k') + rank y < 3 * (length recss - k) + rank x).
  { destruct Hh as [_ (_ & _ & Hxf & _) _ _ _ _ _]. pose proof (Hlen _ _ _ _ _ Hh').
    destruct x; try done; destruct Hx as [-> Hx]; [destruct Hx as [-> _]|..]; subst; (eexists; split; [reflexivity|]); unfold rank; lia. }
  destruct Hy as (y & -> & Hlt).
  destruct (IH (3 * (length recss - k') + rank y) ltac:(lia) _ s' y c' k' Hsane' Hd' Hall' Hh' ltac:(lia)) as (ls' & s2 & c2 & H1 & H2 & H3 & H4).
  exists (LGo w (WTake 0) :: ls'), s2, c2. split; [by constructor|]. split; [|done]. cbn [s_run]. by rewrite Hs.
Qed.

(** Taking tasks until it is the turn of [i]. *)
Lemma serve_all hit ro e i recss rs f : valid_order hit -> requests (map (@concat ascii) recss) rs -> Forall (tame ro) rs -> Forall filled recss ->
  forall m ls s o c k, length (ss_queue s) <= m -> ssane s -> ss_down s = false -> srecs_by i ls = concat recss ->
  nsbusy (ss_workers s) + length (ss_queue s) <= length (ss_workers s) -> o <> Nobody ->
  sholds ro i recss rs ls s f o c k ->
  exists ls' s' c', Forall s_by_server ls' /\ s_run hit ro e s ls' = Some s' /\ ss_conns s' !! i = Some c' /\ Forall2 (answers ro) rs (sc_out c').
Proof.
  intros Hit Hreq Ht Hfill m. induction m as [|m IH]; intros ls s o c k Hm Hsane Hd Hall Hload Hno Hh;
    (destruct o as [|w x|]; [|by eapply serve_rest|done]); pose proof (sh_uses _ _ _ _ _ _ _ _ _ _ Hh) as [(q1 & q2 & Eq & _) _].
  - rewrite Eq, app_length in Hm. cbn in Hm. lia.
  - destruct (nsbusy_free (ss_workers s)) as [w Hw]; [rewrite Eq, app_length in Hload; cbn in Hload; lia|].
    assert (Hs : exists s', s_step hit ro e s (LPop w) = Some s' /\ ss_down s' = false /\ S (length (ss_queue s')) = length (ss_queue s)).
    { unfold s_step. rewrite Hd, Hw. destruct (ss_queue s); [by destruct q1|]. by eexists. }
    destruct Hs as (s' & Hs & Hd' & Hq').
    assert (Hall' : srecs_by i (ls ++ [LPop w]) = concat recss) by (rewrite srecs_by_snoc; by rewrite app_nil_r).
    destruct (sholds_step hit ro e s (LPop w) s' f InQueue c k i recss rs ls Hit Hreq Ht Hfill Hsane Hs) as (o' & c' & k' & Hh' & Hx).
    + done.
    + done.
    + by rewrite Hall'.
    + done.
    + destruct (sload_step _ _ _ _ _ _ Hs) as [L1 L2].
      destruct (IH (ls ++ [LPop w]) s' o' c' k') as (ls' & s2 & c2 & H1 & H2 & H3 & H4); try done; [lia|by eapply ssane_step|lia|by destruct Hx as [->| ->]|].
      exists (LPop w :: ls'), s2, c2. split; [by constructor|]. split; [|done]. cbn [s_run]. by rewrite Hs.
Qed.
(** ** What ends the process *)

(** A session in the map has been made. *)
Definition made s : Prop := forall f i c, ss_map s !! f = Some i -> ss_conns s !! i = Some c -> sc_sess c <> NoSess.
Lemma made_call hit ro e wr more s w f i c s' :
  made s -> ss_conns s !! i = Some c -> s_call hit ro e wr more s w f i c = Some s' -> made s'.
Proof.
  intros M Hc H. unfold s_call in H. destruct (handle_read_tls _ _ _ _ _ _) as [[v t]| | | | |]; try (by injection H as <-).
  - injection H as <-. intros g j d Hg Hd.
    assert (Hm : ss_map s !! g = Some j) by (by destruct (sv_closed v)).
    assert (Hd' : <[i := SConn (tl_buf t) (if bool_decide (ss_fds s !! f = Some i) then records_of (tl_items t) else sc_wire c) 0 (sc_fin c) (sc_hello c)
                  (if sv_closed v then Closed else sc_sess c) (sc_out c ++ sv_wrote v) (sc_sent c ++ sv_sent v)]> (ss_conns s) !! j = Some d) by (by destruct (sv_closed v)).
    apply lookup_insert_Some in Hd' as [[<- <-]|[_ Hd']]; [|by eapply M]. cbn. destruct (sv_closed v); [done|by eapply M].
  - destruct (decide _); [done|]. injection H as <-. intros g j d Hg Hd. cbn in Hg, Hd.
    apply lookup_insert_Some in Hd as [[<- <-]|[_ Hd]]; [exact (M _ _ _ Hg Hc)|exact (M _ _ _ Hg Hd)].
Qed.
Lemma made_step hit ro e s l s' : ssane s -> made s -> s_step hit ro e s l = Some s' -> made s'.
Proof.
  intros Hsane M H. unfold s_step in H. destruct (ss_down s) eqn:Ed; [done|].
  assert (Hput : forall j c d, ss_conns s !! j = Some c -> sc_sess d = sc_sess c -> made (sconn_put s j d)).
  { intros j c d Hc Es g k b Hg Hb. cbn in Hg, Hb. apply lookup_insert_Some in Hb as [[<- <-]|[_ Hb]]; [rewrite Es|]; by eapply M. }
  destruct l as [j g|j b|j bs|j|w|w wr|w wr].
  - destruct (decide _) as [[Hj Hg]|]; [|done]. injection H as <-. intros h k d Hh Hd. cbn in Hh, Hd.
    apply lookup_insert_Some in Hd as [[<- _]|[_ Hd]]; [|by eapply M]. apply (sn_map _ Hsane) in Hh as [? ?]. congruence.
  - destruct (ss_conns s !! j) as [c|] eqn:Ej; [|done]. cbn [mbind option_bind] in H. destruct (decide _); [|done]. injection H as <-. by eapply Hput.
  - destruct (ss_conns s !! j) as [c|] eqn:Ej; [|done]. cbn [mbind option_bind] in H. destruct (decide _); [|done]. injection H as <-. by eapply Hput.
  - destruct (ss_conns s !! j) as [c|] eqn:Ej; [|done]. injection H as <-. by eapply Hput.
  - destruct (ss_workers s !! w) as [[]|]; try done. destruct (ss_queue s); [done|]. by injection H as <-.
  - destruct (ss_workers s !! w) as [x|]; [|done]. cbn [mbind option_bind] in H. destruct x as [|f|f|f|f i|f]; cbn [s_go] in H; try done.
    + destruct (ss_fds s !! f) as [j|]; [|by injection H as <-]. destruct (ss_conns s !! j) as [c|] eqn:Ec; [|done]. cbn [mbind option_bind] in H.
      assert (Hend : (if raw c || sc_fin c then Some (sput (sclose s f) w (SLeave f)) else None) = Some s' -> made s').
      { destruct (raw c || sc_fin c); [|done]. by intros [= <-]. }
      destruct (sc_sess c) eqn:Es; [|by apply Hend|by apply Hend|by apply Hend].
      destruct (sc_hello c) as [[]|]; [|by injection H as <-|destruct (sc_fin c); [by injection H as <-|done]].
      injection H as <-. intros h k d Hh Hd. cbn in Hh, Hd. apply lookup_insert_Some in Hd as [[<- <-]|[Hne Hd]]; [done|].
      apply lookup_insert_Some in Hh as [[_ ?]|[_ Hh]]; [congruence|by eapply M].
    + destruct (ss_fds s !! f) as [j|]; [|by injection H as <-]. destruct (ss_conns s !! j) as [c|]; [|done]. cbn [mbind option_bind] in H.
      destruct (raw c); [by injection H as <-|]. destruct (sc_fin c); [by injection H as <-|done].
    + destruct (ss_map s !! f) as [i|]; [|by injection H as <-]. destruct (ss_conns s !! i) as [c|] eqn:Ec; [|done]. cbn [mbind option_bind] in H.
      destruct (sc_sess c); try (by injection H as <-). destruct (inside s w i); [by injection H as <-|]. by eapply made_call.
    + destruct (ss_conns s !! i) as [c|] eqn:Ec; [|done]. cbn [mbind option_bind] in H. destruct (decide _); [|by injection H as <-]. by eapply made_call.
    + destruct (ss_map s !! f) as [i|] eqn:Em; [|by injection H as <-]. destruct (ss_conns s !! i) as [c|] eqn:Ec; [|done]. injection H as <-.
      intros h k d Hh Hd. cbn in Hh, Hd. apply lookup_delete_Some in Hh as [_ Hh].
      apply lookup_insert_Some in Hd as [[<- <-]|[_ Hd]]; [|by eapply M]. destruct (decide _); [done|by eapply M].
  - destruct (ss_workers s !! w) as [x|]; [|done]. cbn [mbind option_bind] in H. destruct x as [|f|f|f|f i|f]; cbn [s_time] in H; try done; try (by injection H as <-).
    destruct (ss_conns s !! i) as [c|] eqn:Ec; [|done]. cbn [mbind option_bind] in H. destruct (decide _); [|by injection H as <-]. by eapply made_call.
Qed.
Lemma made_run hit ro e n w ls s : s_run hit ro e (s_new n w) ls = Some s -> made s.
Proof.
  revert s. induction ls as [|l ls IH] using rev_ind; intros s H.
  - injection H as <-. intros f i c Hf. unfold s_new in Hf. cbn [ss_map] in Hf. by rewrite lookup_empty in Hf.
  - apply s_run_snoc in H as (s1 & H1 & H2). eapply made_step; [by eapply ssane_run|by apply IH|exact H2].
Qed.

(** A worker that goes on with a session of its own: only the call itself ends the
    process. *)
Lemma down_call hit ro e n w ls s l s' :
  s_run hit ro e (s_new n w) ls = Some s -> (forall i, s_own_number hit ro e (s_new n w) i ls) ->
  s_step hit ro e s l = Some s' -> ss_down s' = true ->
  exists v wr more f i c, (l = LGo v wr /\ more = [] \/ l = LTime v wr /\ more = [SGap]) /\
    (exists x, ss_workers s !! v = Some x /\ swst_fd x = Some f) /\
    ss_fds s !! f = Some i /\ ss_conns s !! i = Some c /\ s_call hit ro e wr more s v f i c = Some s'.
Proof.
  intros Hrun Hown H Hd'. pose proof (s_step_up _ _ _ _ _ _ H) as Hd. pose proof (ssane_run _ _ _ _ _ _ _ Hrun) as Hsane.
  pose proof (made_run _ _ _ _ _ _ _ Hrun) as M. unfold s_step in H. rewrite Hd in H.
  assert (Hsess : forall v x f i c, ss_workers s !! v = Some x -> swst_fd x = Some f -> ss_conns s !! i = Some c ->
    x = SRead f i \/ (x = SGot f /\ ss_map s !! f = Some i /\ sc_sess c <> Closed) -> sc_sess c = Live /\ ss_fds s !! f = Some i /\ inside s v i = false).
  { intros v x f i c Hx Hxf Hc Hcase.
    destruct (life_run hit ro e n w ls s i Hrun (Hown i) c Hc) as [(g & o & F & Hu & Hh)|(L1 & L2 & L3)].
    - assert (g = f) as -> by (destruct Hcase as [->|(-> & Hm & _)]; [by apply (fr_read _ _ _ F) in Hx|by apply (fr_map _ _ _ F) in Hm]).
      destruct o as [|v1 x1|]; [by apply (proj2 Hu) in Hx| |by apply (proj2 Hu) in Hx].
      destruct Hu as (_ & Hx1 & _ & Hu). pose proof (Hu _ _ Hx Hxf) as <-. rewrite Hx in Hx1. injection Hx1 as <-.
      split; [destruct Hcase as [->|(-> & _)]; cbn in Hh; naive_solver|]. split; [by apply fr_fd|].
      apply not_true_iff_false. rewrite inside_true. intros (v2 & g & Hv2 & Hg). pose proof (fr_read _ _ _ F _ _ Hg) as ->.
      by apply Hv2, (Hu _ _ Hg).
    - exfalso. destruct Hcase as [->|(-> & Hm & Hne)]; [by apply L2 in Hx|]. destruct L3; [by eapply M|done]. }
  destruct l as [j g|j b|j bs|j|v|v wr|v wr].
  - destruct (decide _); [|done]. by injection H as <-.
  - destruct (ss_conns s !! j); [|done]. cbn [mbind option_bind] in H. destruct (decide _); [|done]. injection H as <-. cbn in Hd'. congruence.
  - destruct (ss_conns s !! j); [|done]. cbn [mbind option_bind] in H. destruct (decide _); [|done]. injection H as <-. cbn in Hd'. congruence.
  - destruct (ss_conns s !! j); [|done]. injection H as <-. cbn in Hd'. congruence.
  - destruct (ss_workers s !! v) as [[]|]; try done. destruct (ss_queue s); [done|]. by injection H as <-.
  - destruct (ss_workers s !! v) as [x|] eqn:Ex; [|done]. cbn [mbind option_bind] in H. destruct x as [|f|f|f|f i|f]; cbn [s_go] in H; try done.
    + exfalso. destruct (ss_fds s !! f) as [j|]; [|injection H as <-; cbn in Hd'; congruence].
      destruct (ss_conns s !! j) as [c|] eqn:Ec; [|done]. cbn [mbind option_bind] in H.
      assert (Hend : (if raw c || sc_fin c then Some (sput (sclose s f) v (SLeave f)) else None) = Some s' -> False).
      { destruct (raw c || sc_fin c); [|done]. intros [= <-]. cbn in Hd'. congruence. }
      destruct (sc_sess c) eqn:Es; [|by apply Hend|by apply Hend|by apply Hend].
      destruct (sc_hello c) as [[]|]; [injection H as <-; cbn in Hd'; congruence..|].
      destruct (sc_fin c); [injection H as <-; cbn in Hd'; congruence|done].
    + exfalso. destruct (ss_fds s !! f) as [j|]; [|injection H as <-; cbn in Hd'; congruence].
      destruct (ss_conns s !! j) as [c|]; [|done]. cbn [mbind option_bind] in H.
      destruct (raw c); [injection H as <-; cbn in Hd'; congruence|]. destruct (sc_fin c); [injection H as <-; cbn in Hd'; congruence|done].
    + destruct (ss_map s !! f) as [i|] eqn:Em; [|injection H as <-; cbn in Hd'; congruence].
      destruct (ss_conns s !! i) as [c|] eqn:Ec; [|done]. cbn [mbind option_bind] in H.
      destruct (decide (sc_sess c = Closed)) as [Ecl|Ecl]; [rewrite Ecl in H; injection H as <-; cbn in Hd'; congruence|].
      destruct (Hsess v _ f i c Ex eq_refl Ec) as (El & Ef & Ei); [by right|]. rewrite El, Ei in H.
      exists v, wr, [], f, i, c. split; [by left|]. split; [by eexists|]. done.
    + destruct (ss_conns s !! i) as [c|] eqn:Ec; [|done]. cbn [mbind option_bind] in H.
      destruct (Hsess v _ f i c Ex eq_refl Ec) as (El & Ef & Ei); [by left|]. rewrite decide_True in H by done.
      exists v, wr, [], f, i, c. split; [by left|]. split; [by eexists|]. done.
    + exfalso. destruct (ss_map s !! f) as [i|]; [|injection H as <-; cbn in Hd'; congruence].
      destruct (ss_conns s !! i); [|done]. injection H as <-. cbn in Hd'. congruence.
  - destruct (ss_workers s !! v) as [x|] eqn:Ex; [|done]. cbn [mbind option_bind] in H. destruct x as [|f|f|f|f i|f]; cbn [s_time] in H; try done;
      try (injection H as <-; cbn in Hd'; congruence).
    destruct (ss_conns s !! i) as [c|] eqn:Ec; [|done]. cbn [mbind option_bind] in H.
    destruct (Hsess v _ f i c Ex eq_refl Ec) as (El & Ef & Ei); [by left|]. rewrite decide_True in H by done.
    exists v, wr, [SGap], f, i, c. split; [by right|]. split; [by eexists|]. done.
Qed.
End threads.
