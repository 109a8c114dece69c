(** C133-C137: the guardian of a server process (demo/util/process_ctrl.cpp). *)
From Verif.Model Require Import ProcessCtrl.

Local Open Scope Z_scope.

(** Runs of a guardian [g] with handler [h]. *)
Definition ps_reachable (h : option (Z → bool → bool)) (g : Z) (s : procs) : Prop :=
  1 < g ∧ ∃ ls, ps_run h ls (guard_start g) = Some s.
(** Process [p] executes the code after the call of Guard. *)
Definition works (s : procs) (p : Z) : Prop := ∃ q, ps_live s !! p = Some q ∧ pr_pc q = CWork.

(** ** The invariant *)
Definition no_child (g : Z) (s : procs) : Prop := ∀ p q, p ≠ g → ps_live s !! p = Some q → pr_pc q ≠ CWork.
Definition only_child (g c : Z) (s : procs) : Prop :=
  ∀ p q, p ≠ g → ps_live s !! p = Some q → pr_pc q = CWork → p = c ∧ pr_parent q = g.
Definition one_child (g : Z) (s : procs) : Prop :=
  ∀ p p' q q', p ≠ g → p' ≠ g → ps_live s !! p = Some q → ps_live s !! p' = Some q' →
    pr_pc q = CWork → pr_pc q' = CWork → p = p'.
Definition child_is (g c : Z) (s : procs) : Prop :=
  c = -1 ∨ (1 < c ∧ c ≠ g ∧ ((∃ q, ps_live s !! c = Some q ∧ pr_pc q = CWork ∧ pr_parent q = g) ∨ ∃ st, ps_zombies s !! c = Some (g, st))).
Definition g_inv (g : Z) (s : procs) : Prop :=
  match ps_live s !! g with
  | Some q =>
      match pr_pc q with
      | CParent c => only_child g c s ∧ child_is g c s ∧ pr_parent q = 1
      | CWait c => only_child g c s ∧ child_is g c s ∧ pr_parent q = 1 ∧ pr_var q = c
      | COther => one_child g s ∧ pr_parent q = 1
      | _ => no_child g s ∧ pr_parent q = 1
      end
  | None => one_child g s
  end.
Record pinv (g : Z) (s : procs) : Prop := {
  pi_pos : ∀ p q, ps_live s !! p = Some q → 1 < p;
  pi_disj : ∀ p, is_Some (ps_live s !! p) → ps_zombies s !! p = None;
  pi_kind : ∀ p q, ps_live s !! p = Some q → p ≠ g → (pr_pc q = COther ∧ pr_parent q = 1) ∨ pr_pc q = CWork;
  pi_g : g_inv g s }.

(** A step that changes neither where processes are nor their families. *)
Definition same_proc (q q' : proc) : Prop := pr_pc q' = pr_pc q ∧ pr_var q' = pr_var q ∧ pr_parent q' = pr_parent q.
Definition same_procs (s s' : procs) : Prop :=
  (∀ p, match ps_live s !! p, ps_live s' !! p with
        | Some q, Some q' => same_proc q q' | None, None => True | _, _ => False end) ∧
  ps_zombies s' = ps_zombies s.
Lemma same_fwd s s' p q : same_procs s s' → ps_live s !! p = Some q → ∃ q', ps_live s' !! p = Some q' ∧ same_proc q q'.
Proof. intros [H _] E. specialize (H p). rewrite E in H. destruct (ps_live s' !! p) as [q'|]; [by exists q'|done]. Qed.
Lemma same_bwd s s' p q' : same_procs s s' → ps_live s' !! p = Some q' → ∃ q, ps_live s !! p = Some q ∧ same_proc q q'.
Proof. intros [H _] E. specialize (H p). rewrite E in H. destruct (ps_live s !! p) as [q|]; [by exists q|done]. Qed.

Lemma same_only g c s s' : same_procs s s' → only_child g c s → only_child g c s'.
Proof.
  intros HS H p q' Hp Hq Hpc. destruct (same_bwd _ _ _ _ HS Hq) as (q & E & (E1 & _ & E3)).
  rewrite E1 in Hpc. destruct (H p q Hp E Hpc). by rewrite E3.
Qed.
Lemma same_one g s s' : same_procs s s' → one_child g s → one_child g s'.
Proof.
  intros HS H p p' q q' Hp Hp' Hq Hq' Hpc Hpc'. destruct (same_bwd _ _ _ _ HS Hq) as (q1 & E & (E1 & _ & _)).
  destruct (same_bwd _ _ _ _ HS Hq') as (q1' & E' & (E1' & _ & _)). rewrite E1 in Hpc. rewrite E1' in Hpc'. by eapply (H p p' q1 q1').
Qed.
Lemma same_none g s s' : same_procs s s' → no_child g s → no_child g s'.
Proof.
  intros HS H p q' Hp Hq. destruct (same_bwd _ _ _ _ HS Hq) as (q1 & E & (E1 & _ & _)). rewrite E1. by eapply H.
Qed.
Lemma same_child g c s s' : same_procs s s' → child_is g c s → child_is g c s'.
Proof.
  intros HS [->|(H1 & H2 & H3)]; [by left|right]. split; [done|]. split; [done|]. destruct H3 as [(q & E & E1 & E2)|(st & E)].
  - left. destruct (same_fwd _ _ _ _ HS E) as (q' & E' & (E3 & _ & E4)). exists q'. rewrite E3, E4. done.
  - right. exists st. by rewrite (proj2 HS).
Qed.
Lemma pinv_same g s s' : same_procs s s' → pinv g s → pinv g s'.
Proof.
  intros HS [H1 H2 H3 H4]. constructor.
  - intros p q' E. destruct (same_bwd _ _ _ _ HS E) as (q & E' & _). by eapply H1.
  - intros p [q' E]. destruct (same_bwd _ _ _ _ HS E) as (q & E' & _). rewrite (proj2 HS). apply H2. by exists q.
  - intros p q' E Hp. destruct (same_bwd _ _ _ _ HS E) as (q & E' & (E1 & _ & E3)). rewrite E1, E3. by eapply H3.
  - unfold g_inv in *. pose proof (proj1 HS g) as Hg. destruct (ps_live s !! g) as [q|] eqn:E, (ps_live s' !! g) as [q'|] eqn:E'; try done.
    + destruct Hg as (E1 & E2 & E3). rewrite E1, E2, E3. destruct (pr_pc q); destruct H4 as [H4 H5];
        (split; [first [by eapply same_only|by eapply same_one|by eapply same_none]|]); try done;
        destruct H5 as [H5 H6]; (split; [by eapply same_child|done]).
    + by eapply same_one.
Qed.

Lemma kill_same p v s : same_procs s (do_kill p v s).
Proof.
  split; [|done]. intros x. cbn [do_kill ps_live]. rewrite map_lookup_imap. destruct (ps_live s !! x) as [q|]; [|done].
  cbn. unfold hit. destruct (decide _); done.
Qed.

(** ** The end of a process *)
Lemma leave_lookup p st s q x : ps_live s !! p = Some q →
  ps_live (leave p st s) !! x = (if decide (x = p) then None else orphan p <$> ps_live s !! x).
Proof.
  intros E. unfold leave. rewrite E. cbn [ps_live]. rewrite lookup_fmap. destruct (decide (x = p)) as [->|Hx].
  - by rewrite lookup_delete.
  - by rewrite lookup_delete_ne.
Qed.
Lemma leave_zombies p st s q x z : ps_live s !! p = Some q → ps_zombies (leave p st s) !! x = Some z →
  (x = p ∧ z = (pr_parent q, st)) ∨ (ps_zombies s !! x = Some z ∧ z.1 ≠ p).
Proof.
  intros E. unfold leave. rewrite E. cbn [ps_zombies]. intros H.
  assert (HF : filter (λ kv : Z * (Z * (bool * Z)), kv.2.1 ≠ p) (ps_zombies s) !! x = Some z → ps_zombies s !! x = Some z ∧ z.1 ≠ p).
  { intros Hf. by apply map_filter_lookup_Some in Hf. }
  destruct (decide (is_Some _)); [|right; by apply HF]. destruct (decide (x = p)) as [->|Hx].
  - rewrite lookup_insert in H. injection H as <-. by left.
  - rewrite lookup_insert_ne in H by done. right. by apply HF.
Qed.

Lemma leave_back g p st s q x qx : ps_live s !! p = Some q → ps_live (leave p st s) !! x = Some qx →
  x ≠ p ∧ ∃ q0, ps_live s !! x = Some q0 ∧ pr_pc qx = pr_pc q0 ∧ pr_var qx = pr_var q0 ∧
    (pr_parent q0 ≠ p → pr_parent qx = pr_parent q0) ∧ (pr_parent q0 = 1 → pr_parent qx = 1) ∧ (p = g → pr_parent qx = g → pr_parent q0 = g).
Proof.
  intros E H. rewrite (leave_lookup _ _ _ _ _ E) in H. destruct (decide (x = p)); [done|]. split; [done|].
  destruct (ps_live s !! x) as [q0|]; [|done]. injection H as <-. exists q0. split; [done|]. unfold orphan.
  destruct (decide (pr_parent q0 = p)); cbn.
  - split_and!; try done; intros; congruence.
  - split_and!; done.
Qed.

Lemma pinv_leave g p st s q : 1 < g → ps_live s !! p = Some q → pinv g s → pinv g (leave p st s).
Proof.
  intros Hg E HI. pose proof HI as [H1 H2 H3 H4]. pose proof (H1 _ _ E) as Hp.
  assert (HB := leave_back g p st s q).
  constructor.
  - intros x qx Hx. destruct (HB _ _ E Hx) as (_ & q0 & E0 & _). by eapply H1.
  - intros x [qx Hx]. destruct (HB _ _ E Hx) as (Hne & q0 & E0 & _).
    destruct (ps_zombies (leave p st s) !! x) as [z|] eqn:Ez; [|done].
    destruct (leave_zombies _ _ _ _ _ _ E Ez) as [[-> _]|[Ez' _]]; [done|]. rewrite H2 in Ez'; [done|by exists q0].
  - intros x qx Hx Hxg. destruct (HB _ _ E Hx) as (Hne & q0 & E0 & P1 & P2 & P3 & P4 & P5).
    destruct (H3 _ _ E0 Hxg) as [[K1 K2]|K]; [left|right]; rewrite P1; [|done]. split; [done|]. by apply P4.
  - (* the guardian *)
    assert (HO : one_child g s → one_child g (leave p st s)).
    { intros HO x x' qx qx' Hx Hx' L L' C C'. destruct (HB _ _ E L) as (_ & q0 & E0 & P1 & _).
      destruct (HB _ _ E L') as (_ & q0' & E0' & P1' & _). eapply (HO x x' q0 q0'); congruence. }
    assert (HN : no_child g s → no_child g (leave p st s)).
    { intros HO' x qx Hx L. destruct (HB _ _ E L) as (_ & q0 & E0 & P1 & _). rewrite P1. by eapply HO'. }
    assert (HC : ∀ c, only_child g c s → one_child g s).
    { intros c HC x x' qx qx' Hx Hx' L L' C C'. destruct (HC _ _ Hx L C), (HC _ _ Hx' L' C'). congruence. }
    assert (HNO : no_child g s → one_child g s).
    { intros HO' x x' qx qx' Hx Hx' L L' C C'. by destruct (HO' _ _ Hx L). }
    unfold g_inv in *. destruct (decide (g = p)) as [<-|Hgp].
    + rewrite (leave_lookup _ _ _ _ _ E), decide_True by done. rewrite E in H4.
      destruct (pr_pc q); destruct H4 as [H4 _]; eauto.
    + rewrite (leave_lookup _ _ _ _ _ E), decide_False by done. destruct (ps_live s !! g) as [qg|] eqn:Eg; [|by apply HO].
      cbn [fmap option_fmap option_map].
      assert (Ho : pr_pc (orphan p qg) = pr_pc qg ∧ pr_var (orphan p qg) = pr_var qg ∧ (pr_parent qg = 1 → pr_parent (orphan p qg) = 1)).
      { unfold orphan. destruct (decide _); done. }
      destruct Ho as (O1 & O2 & O3). rewrite O1, O2.
      assert (HOC : ∀ c, only_child g c s → only_child g c (leave p st s)).
      { intros c HC' x qx Hx L C. destruct (HB _ _ E L) as (_ & q0 & E0 & P1 & P2 & P3 & _). rewrite P1 in C.
        destruct (HC' _ _ Hx E0 C) as [-> K]. split; [done|]. rewrite P3; congruence. }
      assert (HCI : ∀ c, child_is g c s → child_is g c (leave p st s)).
      { intros c [->|(K1 & K2 & K3)]; [by left|right]. split; [done|]. split; [done|].
        assert (HZ : ∀ z, ps_zombies s !! c = Some (g, z) → ps_zombies (leave p st s) !! c = Some (g, z)).
        { intros z Ez. assert (c ≠ p). { intros ->. rewrite H2 in Ez; [done|by exists q]. }
          unfold leave. rewrite E. cbn [ps_zombies].
          assert (filter (λ kv : Z * (Z * (bool * Z)), kv.2.1 ≠ p) (ps_zombies s) !! c = Some (g, z)).
          { apply map_filter_lookup_Some. done. }
          destruct (decide (is_Some _)); [by rewrite lookup_insert_ne|done]. }
        destruct K3 as [(qc & Ec & C1 & C2)|(z & Ez)]; [|right; exists z; by apply HZ].
        destruct (decide (c = p)) as [->|Hcp].
        - right. assert (qc = q) as -> by congruence. exists st. unfold leave. rewrite E. cbn [ps_zombies].
          rewrite decide_True; [by rewrite lookup_insert, C2|]. rewrite C2. rewrite lookup_delete_ne by done. by exists qg.
        - left. exists (orphan p qc). rewrite (leave_lookup _ _ _ _ _ E), decide_False, Ec by done. cbn. split; [done|].
          unfold orphan. rewrite decide_False by congruence. done. }
      destruct (pr_pc qg); destruct H4 as [H4 H5]; (split; [by eauto|]); try (by auto);
        destruct H5 as [H5 H6]; (split; [by eauto|]); [by auto|destruct H6; by auto].
Qed.

Lemma pinv_start g : 1 < g → pinv g (guard_start g).
Proof.
  intros Hg. constructor; cbn.
  - intros p q H. apply lookup_singleton_Some in H as [<- _]. done.
  - intros p _. apply lookup_empty.
  - intros p q H Hp. apply lookup_singleton_Some in H as [<- _]. done.
  - unfold g_inv. cbn. rewrite lookup_singleton. cbn. split; [|done].
    intros p q Hp H. cbn in H. apply lookup_singleton_Some in H as [<- _]. done.
Qed.

(** A step of the guardian that only moves it. *)
Lemma pinv_move g s q q' zs : pinv g s → ps_live s !! g = Some q → (∀ x z, zs !! x = Some z → ps_zombies s !! x = Some z) →
  (let s' := Procs (<[g := q']> (ps_live s)) zs (ps_kills s) in g_inv g s') → pinv g (Procs (<[g := q']> (ps_live s)) zs (ps_kills s)).
Proof.
  intros [H1 H2 H3 H4] E Hz HG. constructor; cbn.
  - intros p q0 L. apply lookup_insert_Some in L as [[<- _]|[_ L]]; by eapply H1.
  - intros p [q0 L]. assert (Hs : ps_zombies s !! p = None).
    { apply lookup_insert_Some in L as [[<- _]|[_ L]]; apply H2; [by exists q|by exists q0]. }
    destruct (zs !! p) as [z|] eqn:Ez; [|done]. apply Hz in Ez. congruence.
  - intros p q0 L Hp. rewrite lookup_insert_ne in L by done. by eapply H3.
  - done.
Qed.
Lemma only_move g c s q' zs : only_child g c s ↔ only_child g c (Procs (<[g := q']> (ps_live s)) zs (ps_kills s)).
Proof.
  unfold only_child. cbn. split; intros H p q Hp L; [rewrite lookup_insert_ne in L by done|]; eapply H; try done.
  by rewrite lookup_insert_ne.
Qed.
Lemma none_move g s q' zs : no_child g s ↔ no_child g (Procs (<[g := q']> (ps_live s)) zs (ps_kills s)).
Proof.
  unfold no_child. cbn. split; intros H p q Hp L; [rewrite lookup_insert_ne in L by done|]; eapply H; try done.
  by rewrite lookup_insert_ne.
Qed.
Lemma child_move g c s q' : child_is g c s → child_is g c (Procs (<[g := q']> (ps_live s)) (ps_zombies s) (ps_kills s)).
Proof.
  intros [->|(K1 & K2 & K3)]; [by left|right]. split; [done|]. split; [done|]. cbn. rewrite lookup_insert_ne by done. done.
Qed.

(** waitpid returns when the child is gone. *)
Lemma wait_gone g c s r : pinv g s → only_child g c s → child_is g c s → wait_for g c s = Some r → no_child g s.
Proof.
  intros HI HO HC H p q Hp L C. destruct (HO _ _ Hp L C) as [-> Hpar]. unfold wait_for in H.
  destruct (filter _ (map_to_list (ps_zombies s))) as [|[z [? ?]] l] eqn:Ez.
  - destruct (filter _ (map_to_list (ps_live s))) as [|x l] eqn:El; [|done].
    assert (Hin : (c, q) ∈ filter (λ kv : Z * proc, pr_parent kv.2 = g ∧ bool_decide (c = -1 ∨ kv.1 = c) = true) (map_to_list (ps_live s))).
    { apply elem_of_list_filter. split; [|by apply elem_of_map_to_list]. cbn. split; [done|]. apply bool_decide_eq_true. by right. }
    rewrite El in Hin. by apply elem_of_nil in Hin.
  - assert (Hin : (z, (z0, p)) ∈ filter (λ kv : Z * (Z * (bool * Z)), kv.2.1 = g ∧ bool_decide (c = -1 ∨ kv.1 = c) = true) (map_to_list (ps_zombies s))).
    { rewrite Ez. by left. }
    apply elem_of_list_filter in Hin as [[_ Hb] Hin]. apply elem_of_map_to_list in Hin. cbn in Hb.
    apply bool_decide_eq_true in Hb as [->| ->].
    + pose proof (pi_pos _ _ HI _ _ L). lia.
    + rewrite (pi_disj _ _ HI c) in Hin; [done|by exists q].
Qed.

Lemma kind_g g s p q : pinv g s → ps_live s !! p = Some q → pr_pc q ≠ COther → pr_pc q ≠ CWork → p = g.
Proof. intros HI E H1 H2. destruct (decide (p = g)); [done|]. by destruct (pi_kind _ _ HI _ _ E n) as [[]|]. Qed.

Lemma pid_free_spec x s : pid_free x s = true → 1 < x ∧ ps_live s !! x = None ∧ ps_zombies s !! x = None.
Proof. unfold pid_free. intros H. apply bool_decide_eq_true in H as (? & ? & ? & ?). split; [lia|done]. Qed.

Lemma pinv_step h g l s s' : 1 < g → pinv g s → ps_step h l s = Some s' → pinv g s'.
Proof.
  intros Hg HI H. pose proof HI as [H1 H2 H3 H4].
  destruct l as [p r|p|p|p|p|p code|p|p|p|p]; cbn [ps_step] in H.
  - destruct (ps_live s !! p) as [q|] eqn:E; [|done]. cbn in H. destruct (pr_pc q) eqn:Epc; try done.
    assert (p = g) as -> by (by eapply kind_g; [done|done|congruence|congruence]).
    unfold g_inv in H4. rewrite E, Epc in H4. destruct H4 as [HN HP]. destruct r as [c|].
    + destruct (pid_free c s) eqn:Ef; [|done]. injection H as <-. apply pid_free_spec in Ef as (F1 & F2 & F3).
      assert (Hcg : c ≠ g) by congruence. constructor; cbn.
      * intros x qx L. apply lookup_insert_Some in L as [[<- _]|[_ L]]; [done|]. apply lookup_insert_Some in L as [[<- _]|[_ L]]; [done|by eapply H1].
      * intros x [qx L]. apply lookup_insert_Some in L as [[<- _]|[_ L]]; [apply H2; by exists q|].
        apply lookup_insert_Some in L as [[<- _]|[_ L]]; [done|]. apply H2. by exists qx.
      * intros x qx L Hx. rewrite lookup_insert_ne in L by done. apply lookup_insert_Some in L as [[<- <-]|[_ L]]; [by right|by eapply H3].
      * unfold g_inv. cbn. rewrite lookup_insert. cbn. split_and!; [| |done].
        -- intros x qx Hx L C. cbn in L. rewrite lookup_insert_ne in L by done. apply lookup_insert_Some in L as [[<- <-]|[_ L]]; [done|].
           by destruct (HN x qx).
        -- right. split; [done|]. split; [done|]. left. eexists. cbn. rewrite lookup_insert_ne, lookup_insert by done. done.
    + injection H as <-. apply (pinv_move g s q); [done..|]. cbn. unfold g_inv. cbn. rewrite lookup_insert. cbn. split_and!; [|by left|done].
      apply only_move. intros x qx Hx L C. by destruct (HN x qx).
  - destruct (ps_live s !! p) as [q|] eqn:E; [|done]. cbn in H. destruct (pr_pc q) as [|c| | | | |] eqn:Epc; try done. injection H as <-.
    assert (p = g) as -> by (by eapply kind_g; [done|done|congruence|congruence]).
    unfold g_inv in H4. rewrite E, Epc in H4. destruct H4 as (HO & HC & HP).
    apply (pinv_move g s q); [done..|]. cbn. unfold g_inv. cbn. rewrite lookup_insert. cbn. split_and!; [by apply only_move|by apply child_move|done|done].
  - destruct (ps_live s !! p) as [q|] eqn:E; [|done]. cbn in H. destruct (pr_pc q) as [| |c| | | |] eqn:Epc; try done.
    assert (p = g) as -> by (by eapply kind_g; [done|done|congruence|congruence]).
    unfold g_inv in H4. rewrite E, Epc in H4. destruct H4 as (HO & HC & HP & HV).
    destruct (wait_for g c s) as [r|] eqn:Ew; [|done]. pose proof (wait_gone _ _ _ _ HI HO HC Ew) as HN.
    destruct r as [[z [normal code]]|]; injection H as <-.
    + apply (pinv_move g s q); [done|done| |].
      * intros x y Hx. by apply lookup_delete_Some in Hx as [_ Hx].
      * cbn. unfold g_inv. cbn. rewrite lookup_insert. cbn. split; [by apply none_move|done].
    + apply (pinv_move g s q); [done..|]. cbn. unfold g_inv. cbn. rewrite lookup_insert. cbn. split; [by apply none_move|done].
  - destruct (ps_live s !! p) as [q|] eqn:E; [|done]. cbn in H. destruct (pr_pc q) eqn:Epc; try done. injection H as <-.
    assert (p = g) as -> by (by eapply kind_g; [done|done|congruence|congruence]).
    unfold g_inv in H4. rewrite E, Epc in H4. destruct H4 as [HN HP].
    apply (pinv_move g s q); [done..|]. cbn. unfold g_inv. cbn. rewrite lookup_insert. cbn.
    destruct (match h with Some f => _ | None => _ end); (split; [by apply none_move|done]).
  - destruct (ps_live s !! p) as [q|] eqn:E; [|done]. cbn in H. destruct (decide _) as [Epc|]; [|done]. injection H as <-.
    assert (p = g) as -> by (by eapply kind_g; [done|done|congruence|congruence]).
    unfold g_inv in H4. rewrite E, Epc in H4. destruct H4 as [HN HP].
    apply (pinv_move g s q); [done..|]. cbn. unfold g_inv. cbn. rewrite lookup_insert. cbn. split; [by apply none_move|done].
  - destruct (ps_live s !! p) as [q|] eqn:E; [|done]. cbn in H. destruct (decide _); [|done]. injection H as <-. by eapply pinv_leave.
  - destruct (ps_live s !! p) as [q|] eqn:E; [|done]. cbn in H. injection H as <-. by eapply pinv_leave.
  - destruct (ps_live s !! p) as [q|] eqn:E; [|done]. cbn in H. injection H as <-. eapply pinv_same; [|done].
    split; [|done]. intros x. cbn. destruct (decide (x = p)) as [->|Hx].
    + by rewrite E, lookup_insert.
    + rewrite lookup_insert_ne by done. destruct (ps_live s !! x); done.
  - destruct (ps_live s !! p) as [q|] eqn:E; [|done]. cbn in H. destruct (pr_pending q); [|done].
    destruct (decide _); injection H as <-; [by eapply pinv_leave|]. unfold end_guard. destruct (decide _); [by eapply pinv_leave|].
    destruct (same_fwd _ _ _ _ (kill_same p (pr_var q) s) E) as (q' & E' & _). eapply pinv_leave; [done|done|].
    eapply pinv_same; [apply kill_same|done].
  - destruct (pid_free p s) eqn:Ef; [|done]. injection H as <-. apply pid_free_spec in Ef as (F1 & F2 & F3).
    assert (HB : ∀ x qx, <[p := Proc COther 0 false 1]> (ps_live s) !! x = Some qx → pr_pc qx = CWork → ps_live s !! x = Some qx).
    { intros x qx L C. by apply lookup_insert_Some in L as [[_ <-]|[_ L]]. }
    constructor; cbn.
    + intros x qx L. apply lookup_insert_Some in L as [[<- _]|[_ L]]; [done|by eapply H1].
    + intros x [qx L]. apply lookup_insert_Some in L as [[<- _]|[_ L]]; [done|]. apply H2. by exists qx.
    + intros x qx L Hx. apply lookup_insert_Some in L as [[_ <-]|[_ L]]; [by left|by eapply H3].
    + unfold g_inv in *. cbn. destruct (decide (p = g)) as [->|Hpg].
      * rewrite lookup_insert. cbn. rewrite F2 in H4. split; [|done].
        intros x x' qx qx' Hx Hx' L L' C C'. by apply (H4 x x' qx qx' Hx Hx' (HB _ _ L C) (HB _ _ L' C')).
      * rewrite lookup_insert_ne by done.
        assert (KO : one_child g s → one_child g (set_live (<[p:=Proc COther 0 false 1]> (ps_live s)) s)).
        { intros HO x x' qx qx' Hx Hx' L L' C C'. by apply (HO x x' qx qx' Hx Hx' (HB _ _ L C) (HB _ _ L' C')). }
        assert (KN : no_child g s → no_child g (set_live (<[p:=Proc COther 0 false 1]> (ps_live s)) s)).
        { intros HO x qx Hx L C. by apply (HO x qx Hx (HB _ _ L C)). }
        assert (KC : ∀ c, only_child g c s → only_child g c (set_live (<[p:=Proc COther 0 false 1]> (ps_live s)) s)).
        { intros c HO x qx Hx L C. by apply (HO x qx Hx (HB _ _ L C)). }
        assert (KI : ∀ c, child_is g c s → child_is g c (set_live (<[p:=Proc COther 0 false 1]> (ps_live s)) s)).
        { intros c [->|(K1 & K2 & K3)]; [by left|right]. split; [done|]. split; [done|]. cbn.
          destruct K3 as [(qc & Ec & ?)|?]; [left|by right]. exists qc. rewrite lookup_insert_ne by congruence. done. }
        destruct (ps_live s !! g) as [qg|]; [|by auto].
        destruct (pr_pc qg); destruct H4 as [H4 H5]; (split; [by auto|]); try done; destruct H5 as [H5 H6]; (split; [by auto|done]).
Qed.

Lemma pinv_run h g ls s s' : 1 < g → pinv g s → ps_run h ls s = Some s' → pinv g s'.
Proof.
  intros Hg. revert s. induction ls as [|l ls IH]; intros s HI H; cbn in H; [by injection H as <-|].
  destruct (ps_step h l s) as [s1|] eqn:E; [|done]. cbn in H. eapply IH; [|done]. by eapply pinv_step.
Qed.
Lemma pinv_reachable h g s : ps_reachable h g s → pinv g s.
Proof. intros (Hg & ls & H). eapply pinv_run; [done|by apply pinv_start|done]. Qed.

(** ** C133 *)

(** At most one process at a time executes the guarded code. *)
Theorem one_worker : ∀ h g s p p', ps_reachable h g s → works s p → works s p' → p = p'.
Proof.
  intros h g s p p' HR (q & E & C) (q' & E' & C'). pose proof (pinv_reachable _ _ _ HR) as HI.
  pose proof (pi_g _ _ HI) as HG. unfold g_inv in HG.
  destruct (decide (p = g)) as [->|Hp], (decide (p' = g)) as [->|Hp']; [done|..].
  - rewrite E, C in HG. by destruct (proj1 HG p' q').
  - rewrite E', C' in HG. by destruct (proj1 HG p q).
  - destruct (ps_live s !! g) as [qg|]; [|by eapply (HG p p')].
    destruct (pr_pc qg); destruct HG as [HG _]; try (by destruct (HG p q)); try (by eapply (HG p p')).
    + destruct (HG _ _ Hp E C), (HG _ _ Hp' E' C'). congruence.
    + destruct (HG _ _ Hp E C), (HG _ _ Hp' E' C'). congruence.
Qed.

(** The handler of demo/web-server/main.cpp:29-39: go on unless the child has ended
    by itself. *)
Definition web_handler : option (Z → bool → bool) := Some (λ _ normal, negb normal).

(** The first child crashes, the second ends. *)
Definition two_children : list plabel :=
  [PFork 100 (Some 101); PAssign 100; PDie 101; PWaitpid 100; PCheck 100; PWake 100; PFork 100 (Some 102); PAssign 100].
Definition run_with (h : option (Z → bool → bool)) (ls : list plabel) : procs := default (guard_start 100) (ps_run h ls (guard_start 100)).
Notation run_of := (run_with web_handler).
Lemma run_reach h ls : is_Some (ps_run h ls (guard_start 100)) → ps_reachable h 100 (run_with h ls).
Proof. intros [s H]. split; [lia|]. exists ls. unfold run_with. by rewrite H. Qed.
Example one_worker_ex : works (run_of two_children) 102 ∧ ∀ p, works (run_of two_children) p → p = 102.
Proof.
  assert (H : works (run_of two_children) 102). { eexists. by vm_compute. }
  split; [done|]. intros p Hp. refine (one_worker web_handler 100 _ p 102 _ Hp H). apply run_reach. by eexists.
Qed.

(** ** C134 *)

(** The process that calls Guard does not execute the guarded code itself. *)
Definition guardian_only_guards_full : Prop := ∀ h g s, ps_reachable h g s → ¬ works s g.

Lemma guardian_step h g l s s' : (∀ f, h = Some f → ∀ c n, f c n = true) → 1 < g → pinv g s →
  ps_step h l s = Some s' → ¬ works s g → ¬ works s' g.
Proof.
  intros Hh Hg HI H HW (q' & E' & C').
  assert (HL : ∀ p st s0 q, ps_live s0 !! p = Some q → works (leave p st s0) g → works s0 g).
  { intros p st s0 q E (q0 & E0 & C0). destruct (leave_back g _ _ _ _ _ _ E E0) as (_ & q1 & E1 & P1 & _).
    exists q1. split; [done|]. by rewrite <- P1. }
  assert (HW' : works s' g) by by exists q'. clear q' E' C'.
  destruct l as [p r|p|p|p|p|p code|p|p|p|p]; cbn [ps_step] in H.
  - destruct (ps_live s !! p) as [q|] eqn:E; [|done]. cbn in H. destruct (pr_pc q) eqn:Epc; try done.
    assert (p = g) as -> by (by eapply kind_g; [done|done|congruence|congruence]).
    destruct r as [c|]; [destruct (pid_free c s); [|done]|]; injection H as <-; destruct HW' as (q0 & L & C); cbn in L;
      rewrite lookup_insert in L; by injection L as <-.
  - destruct (ps_live s !! p) as [q|] eqn:E; [|done]. cbn in H. destruct (pr_pc q) eqn:Epc; try done. injection H as <-.
    assert (p = g) as -> by (by eapply kind_g; [done|done|congruence|congruence]).
    destruct HW' as (q0 & L & C); cbn in L; rewrite lookup_insert in L; by injection L as <-.
  - destruct (ps_live s !! p) as [q|] eqn:E; [|done]. cbn in H. destruct (pr_pc q) as [| |c| | | |] eqn:Epc; try done.
    assert (p = g) as -> by (by eapply kind_g; [done|done|congruence|congruence]).
    destruct (wait_for g c s) as [[[z [normal code]]|]|]; [..|done]; injection H as <-; destruct HW' as (q0 & L & C); cbn in L;
      rewrite lookup_insert in L; by injection L as <-.
  - destruct (ps_live s !! p) as [q|] eqn:E; [|done]. cbn in H. destruct (pr_pc q) eqn:Epc; try done. injection H as <-.
    assert (p = g) as -> by (by eapply kind_g; [done|done|congruence|congruence]).
    destruct HW' as (q0 & L & C); cbn in L; rewrite lookup_insert in L. injection L as <-. cbn in C.
    destruct h as [f|]; [rewrite (Hh f eq_refl) in C|]; done.
  - destruct (ps_live s !! p) as [q|] eqn:E; [|done]. cbn in H. destruct (decide _) as [Epc|]; [|done]. injection H as <-.
    assert (p = g) as -> by (by eapply kind_g; [done|done|congruence|congruence]).
    destruct HW' as (q0 & L & C); cbn in L; rewrite lookup_insert in L; by injection L as <-.
  - destruct (ps_live s !! p) as [q|] eqn:E; [|done]. cbn in H. destruct (decide _); [|done]. injection H as <-. by eapply HW, HL.
  - destruct (ps_live s !! p) as [q|] eqn:E; [|done]. cbn in H. injection H as <-. by eapply HW, HL.
  - destruct (ps_live s !! p) as [q|] eqn:E; [|done]. cbn in H. injection H as <-. apply HW. destruct HW' as (q0 & L & C). cbn in L.
    apply lookup_insert_Some in L as [[<- <-]|[_ L]]; [by exists q|by exists q0].
  - destruct (ps_live s !! p) as [q|] eqn:E; [|done]. cbn in H. destruct (pr_pending q); [|done].
    destruct (decide _); injection H as <-; [by eapply HW, HL|]. unfold end_guard in HW'. destruct (decide _); [by eapply HW, HL|].
    destruct (same_fwd _ _ _ _ (kill_same p (pr_var q) s) E) as (q' & E' & _).
    destruct (HL _ _ _ _ E' HW') as (q0 & L & C). destruct (same_bwd _ _ _ _ (kill_same p (pr_var q) s) L) as (q1 & L1 & (P1 & _)).
    apply HW. exists q1. split; [done|]. by rewrite <- P1.
  - destruct (pid_free p s); [|done]. injection H as <-. apply HW. destruct HW' as (q0 & L & C). cbn in L.
    apply lookup_insert_Some in L as [[_ <-]|[_ L]]; [done|by exists q0].
Qed.

(** Missing: handlers that tell Guard to stop (as that of the web server does when
    its child has ended by itself): Guard then returns in the guardian, too. *)
Theorem guardian_only_guards_partial : ∀ h g s, (∀ f, h = Some f → ∀ c n, f c n = true) →
  ps_reachable h g s → ¬ works s g.
Proof.
  intros h g s Hh (Hg & ls & H).
  assert (HS : pinv g (guard_start g) ∧ ¬ works (guard_start g) g).
  { split; [by apply pinv_start|]. intros (q & E & C). cbn in E. apply lookup_singleton_Some in E as [_ <-]. done. }
  revert HS H. generalize (guard_start g) as s0. induction ls as [|l ls IH]; intros s0 [HI HW] H; cbn in H; [by injection H as <-|].
  destruct (ps_step h l s0) as [s1|] eqn:E; [|done]. cbn in H. eapply IH; [|done]. split; [by eapply pinv_step|by eapply guardian_step].
Qed.
(** The worker ends (say because its port is in use); the guardian goes on as a server. *)
Theorem guardian_only_guards_refuted : ¬ guardian_only_guards_full.
Proof.
  intros H. eapply (H web_handler 100 (run_of [PFork 100 (Some 101); PAssign 100; PExit 101 0; PWaitpid 100; PCheck 100])).
  - apply run_reach. by eexists.
  - eexists. by vm_compute.
Qed.
Example guardian_only_ex : ¬ works (run_with None (two_children ++ [PExit 102 0; PWaitpid 100; PCheck 100])) 100.
Proof.
  apply (guardian_only_guards_partial None 100); [done|]. apply run_reach. by eexists.
Qed.

(** ** C135 *)

(** A signal to the guardian ends the worker: when the guardian has ended by a signal,
    no worker is left that has not got a signal. *)
Definition stop_reaches_worker_full : Prop := ∀ h g s s' q p, ps_reachable h g s →
  ps_live s !! g = Some q → pr_pc q ≠ COther → ps_step h (PHandle g) s = Some s' →
  works s' p → ∃ q', ps_live s' !! p = Some q' ∧ pr_pending q' = true.

(** Missing: a signal between fork and the assignment to child_pid_. *)
Theorem stop_reaches_worker_partial : ∀ h g s s' q p, ps_reachable h g s →
  ps_live s !! g = Some q → pr_pc q ≠ COther → (∀ c, pr_pc q ≠ CParent c) → ps_step h (PHandle g) s = Some s' →
  works s' p → ∃ q', ps_live s' !! p = Some q' ∧ pr_pending q' = true.
Proof.
  intros h g s s' q p HR E Ho Hc H HW. pose proof (pinv_reachable _ _ _ HR) as HI.
  cbn [ps_step] in H. rewrite E in H. cbn in H. destruct (pr_pending q); [|done]. rewrite decide_False in H by done.
  injection H as <-. unfold end_guard in *.
  assert (HL : ∀ s0 q0, ps_live s0 !! g = Some q0 → works (leave g (true, 0) s0) p → p ≠ g ∧ works s0 p).
  { intros s0 q0 E0 (q1 & E1 & C1). destruct (leave_back g _ _ _ _ _ _ E0 E1) as (Hne & q2 & E2 & P2 & _).
    split; [done|]. exists q2. split; [done|]. by rewrite <- P2. }
  pose proof (pi_g _ _ HI) as HG. unfold g_inv in HG. rewrite E in HG.
  assert (HNO : no_child g s → False).
  { intros HN. destruct (decide _).
    - destruct (HL _ _ E HW) as [Hp (q1 & E1 & C1)]. by destruct (HN p q1).
    - destruct (same_fwd _ _ _ _ (kill_same g (pr_var q) s) E) as (q' & E' & _).
      destruct (HL _ _ E' HW) as [Hp (q1 & E1 & C1)].
      destruct (same_bwd _ _ _ _ (kill_same g (pr_var q) s) E1) as (q2 & E2 & (P2 & _)). destruct (HN p q2); [done|done|congruence]. }
  destruct (pr_pc q) as [|c|c| | | |] eqn:Epc; try (exfalso; by apply HNO, HG); [by destruct (Hc c)| |done].
  destruct HG as (HO & HC & HP & HV). rewrite HV in *.
  rewrite decide_False in HW |- *; [|destruct HC as [->|[? _]]; lia ..].
  destruct (same_fwd _ _ _ _ (kill_same g c s) E) as (qg & Eg & _).
  pose proof HW as (q1 & E1 & C1). destruct (HL _ _ Eg HW) as [Hp (q2 & E2 & C2)].
  destruct (same_bwd _ _ _ _ (kill_same g c s) E2) as (q3 & E3 & (P3 & _)). rewrite P3 in C2.
  destruct (HO _ _ Hp E3 C2) as [-> _]. exists q1. split; [done|].
  rewrite (leave_lookup _ _ _ _ _ Eg), decide_False, E2 in E1 by done. injection E1 as <-.
  assert (Hpen : pr_pending q2 = true).
  { cbn in E2. rewrite map_lookup_imap, E3 in E2. cbn in E2. injection E2 as <-. unfold hit.
    rewrite decide_True; [done|]. unfold kill_hits. pose proof (pi_pos _ _ HI _ _ E3).
    rewrite decide_False by lia. rewrite decide_True by (by exists q3). by left. }
  unfold orphan. destruct (decide _); done.
Qed.
Theorem stop_reaches_worker_refuted : ¬ stop_reaches_worker_full.
Proof.
  intros H.
  destruct (H web_handler 100 (run_of [PFork 100 (Some 101); PSignal 100])
    (run_of [PFork 100 (Some 101); PSignal 100; PHandle 100]) (Proc (CParent 101) 0 true 1) 101) as (q & E & C).
  - apply run_reach. by eexists.
  - by vm_compute.
  - done.
  - by vm_compute.
  - eexists. by vm_compute.
  - vm_compute in E. injection E as <-. done.
Qed.
Example stop_ex : ∃ q', ps_live (run_of (two_children ++ [PSignal 100; PHandle 100])) !! 102 = Some q' ∧ pr_pending q' = true.
Proof.
  eapply (stop_reaches_worker_partial web_handler 100 (run_of (two_children ++ [PSignal 100])) _ (Proc (CWait 102) 102 true 1)).
  - apply run_reach. by eexists.
  - by vm_compute.
  - done.
  - done.
  - by vm_compute.
  - eexists. by vm_compute.
Qed.

(** ** C136 *)

(** EndGuard sends its signal to a worker of this guardian and to nobody else. *)
Definition kills_only_worker_full : Prop := ∀ h g s s' p, ps_reachable h g s → ps_step h (PHandle p) s = Some s' →
  ∀ k, ps_kills s' = ps_kills s ++ [k] → ∀ x, x ∈ kl_hit k → x ≠ g ∧ works s x.

(** Missing: workers that get a signal themselves and are not the first (they have
    inherited the pid of their predecessor), the guardian outside waitpid, and fork
    failing (the signal then goes to every process). *)
Theorem kills_only_worker_partial : ∀ h g s s' q c, ps_reachable h g s → ps_live s !! g = Some q → pr_pc q = CWait c → c ≠ -1 →
  ps_step h (PHandle g) s = Some s' →
  ∃ k, ps_kills s' = ps_kills s ++ [k] ∧ ∀ x, x ∈ kl_hit k ↔ x ≠ g ∧ works s x.
Proof.
  intros h g s s' q c HR E C Hc H. pose proof (pinv_reachable _ _ _ HR) as HI.
  cbn [ps_step] in H. rewrite E in H. cbn in H. destruct (pr_pending q); [|done]. rewrite decide_False in H by congruence.
  injection H as <-. pose proof (pi_g _ _ HI) as HG. unfold g_inv in HG. rewrite E, C in HG. destruct HG as (HO & HC & HP & HV).
  destruct HC as [->|(K1 & K2 & K3)]; [done|]. unfold end_guard. rewrite HV, decide_False by lia.
  destruct (same_fwd _ _ _ _ (kill_same g c s) E) as (qg & Eg & _). unfold leave. rewrite Eg. cbn [ps_kills do_kill].
  eexists. split; [done|]. cbn [kl_hit]. intros x. unfold kill_hits. rewrite decide_False by done. split.
  - intros Hx. destruct (decide _) as [Hl|]; [|by apply elem_of_nil in Hx]. apply elem_of_list_singleton in Hx as ->.
    split; [done|]. destruct K3 as [(qc & Ec & Cc & _)|(st & Ez)]; [by exists qc|]. rewrite (pi_disj _ _ HI c Hl) in Ez. done.
  - intros [Hx (qx & Ex & Cx)]. destruct (HO _ _ Hx Ex Cx) as [-> _]. rewrite decide_True by (by exists qx). by left.
Qed.
(** The first worker crashes, its pid is given to another program; the second worker
    gets a signal. *)
Theorem kills_only_worker_refuted : ¬ kills_only_worker_full.
Proof.
  intros H. destruct (H web_handler 100 (run_of (two_children ++ [PSpawn 101; PSignal 102]))
    (run_of (two_children ++ [PSpawn 101; PSignal 102; PHandle 102])) 102) with (k := Killed 102 101 [101]) (x := 101) as [_ (q & E & C)].
  - apply run_reach. by eexists.
  - by vm_compute.
  - by vm_compute.
  - by left.
  - vm_compute in E. by injection E as <-.
Qed.
(** fork fails: the guardian believes its child has the pid -1, and a signal that ends
    it goes to every process. *)
Theorem fork_failure_kills_everybody : ∃ s s', ps_reachable None 100 s ∧ ps_step None (PHandle 100) s = Some s' ∧
  ps_kills s' = ps_kills s ++ [Killed 100 (-1) [7]] ∧ ps_live s !! 7 = Some (Proc COther 0 false 1).
Proof.
  exists (run_with None [PSpawn 7; PFork 100 None; PAssign 100; PSignal 100]),
    (run_with None [PSpawn 7; PFork 100 None; PAssign 100; PSignal 100; PHandle 100]).
  split; [apply run_reach; by eexists|]. split; [by vm_compute|]. split; by vm_compute.
Qed.
Example kills_ex : ∃ k, ps_kills (run_of (two_children ++ [PSpawn 101; PSignal 100; PHandle 100])) = [] ++ [k] ∧
  ∀ x, x ∈ kl_hit k ↔ x ≠ 100 ∧ works (run_of (two_children ++ [PSpawn 101; PSignal 100])) x.
Proof.
  apply (kills_only_worker_partial web_handler 100 (run_of (two_children ++ [PSpawn 101; PSignal 100])) _ (Proc (CWait 102) 102 true 1) 102).
  - apply run_reach. by eexists.
  - by vm_compute.
  - done.
  - done.
  - by vm_compute.
Qed.

(** ** C137 *)

(** A worker that has ended is replaced: as long as the handler agrees and fork works,
    the guardian by itself gets to a state with a new worker. *)
Definition by_guardian (g : Z) (l : plabel) : Prop :=
  match l with PFork p (Some _) | PAssign p | PWaitpid p | PCheck p | PWake p => p = g | _ => False end.
Theorem worker_is_replaced : ∀ h g s q c', (∀ f, h = Some f → ∀ c n, f c n = true) → ps_reachable h g s →
  ps_live s !! g = Some q → pr_pc q ≠ COther → (∀ p, p ≠ g → ¬ works s p) →
  pid_free c' s = true →
  ∃ ls s', Forall (by_guardian g) ls ∧ ps_run h ls s = Some s' ∧ works s' c'.
Proof.
  intros h g s q c' Hh HR E Ho HN Hf. pose proof (pinv_reachable _ _ _ HR) as HI. pose proof HR as [Hg _].
  pose proof (guardian_only_guards_partial h g s Hh HR) as HW.
  (* from CFork *)
  assert (F1 : ∀ s q, ps_live s !! g = Some q → pr_pc q = CFork → pid_free c' s = true →
    ∃ ls s', Forall (by_guardian g) ls ∧ ps_run h ls s = Some s' ∧ works s' c').
  { clear. intros s q E C Hf. exists [PFork g (Some c')]. eexists. split; [by repeat constructor|]. cbn [ps_run ps_step].
    rewrite E. cbn. rewrite C, Hf. split; [done|]. pose proof (pid_free_spec _ _ Hf) as (_ & K & _).
    eexists. cbn. rewrite lookup_insert_ne, lookup_insert by congruence. done. }
  assert (HF : ∀ s q q', ps_live s !! g = Some q → pid_free c' s = true → pid_free c' (set_live (<[g := q']> (ps_live s)) s) = true).
  { clear. intros s q q' E Hf. unfold pid_free in *. apply bool_decide_eq_true in Hf as (K1 & K2 & K3 & K4). apply bool_decide_eq_true.
    cbn. rewrite lookup_insert_ne by congruence. done. }
  assert (F2 : ∀ s q, ps_live s !! g = Some q → pr_pc q = CSleep → pid_free c' s = true →
    ∃ ls s', Forall (by_guardian g) ls ∧ ps_run h ls s = Some s' ∧ works s' c').
  { intros s0 q0 E0 C0 Hf0. destruct (F1 (set_live (<[g := set_pc CFork q0]> (ps_live s0)) s0) (set_pc CFork q0)) as (ls & s' & L1 & L2 & L3);
      [by cbn; rewrite lookup_insert|done|by eapply HF|]. exists (PWake g :: ls), s'. split; [by constructor|]. split; [|done].
    cbn [ps_run ps_step]. rewrite E0. cbn. by rewrite decide_True. }
  assert (F3 : ∀ s q n c, ps_live s !! g = Some q → pr_pc q = CCheck n c → pid_free c' s = true →
    ∃ ls s', Forall (by_guardian g) ls ∧ ps_run h ls s = Some s' ∧ works s' c').
  { intros s0 q0 n0 c0 E0 C0 Hf0. destruct (F2 (set_live (<[g := set_pc CSleep q0]> (ps_live s0)) s0) (set_pc CSleep q0)) as (ls & s' & L1 & L2 & L3);
      [by cbn; rewrite lookup_insert|done|by eapply HF|]. exists (PCheck g :: ls), s'. split; [by constructor|]. split; [|done].
    cbn [ps_run ps_step]. rewrite E0. cbn. rewrite C0.
    assert (Hgo : match h with Some f => f c0 n0 | None => true end = true) by (destruct h as [f|]; [by apply Hh|done]). rewrite Hgo. done. }
  assert (F4 : ∀ s q c, pinv g s → (∀ p, p ≠ g → ¬ works s p) → ps_live s !! g = Some q → pr_pc q = CWait c → pid_free c' s = true →
    ∃ ls s', Forall (by_guardian g) ls ∧ ps_run h ls s = Some s' ∧ works s' c').
  { clear s q E Ho HN Hf HI HR HW. intros s q c HI HN E C Hf. destruct (wait_for g c s) as [r|] eqn:Ew.
    - destruct r as [[z [normal code]]|].
      + destruct (F3 (Procs (<[g := set_pc (CCheck normal code) q]> (ps_live s)) (delete z (ps_zombies s)) (ps_kills s)) (set_pc (CCheck normal code) q) normal code)
          as (ls & s' & L1 & L2 & L3); [by cbn; rewrite lookup_insert|done| |].
        { unfold pid_free in *. apply bool_decide_eq_true in Hf as (K1 & K2 & K3 & K4). apply bool_decide_eq_true. cbn.
          rewrite lookup_insert_ne by congruence. split_and!; try done. apply lookup_delete_None. by right. }
        exists (PWaitpid g :: ls), s'. split; [by constructor|]. split; [|done]. cbn [ps_run ps_step]. rewrite E. cbn. by rewrite C, Ew.
      + destruct (F3 (set_live (<[g := set_pc (CCheck true 0) q]> (ps_live s)) s) (set_pc (CCheck true 0) q) true 0)
          as (ls & s' & L1 & L2 & L3); [by cbn; rewrite lookup_insert|done|by eapply HF|].
        exists (PWaitpid g :: ls), s'. split; [by constructor|]. split; [|done]. cbn [ps_run ps_step]. rewrite E. cbn. by rewrite C, Ew.
    - exfalso. unfold wait_for in Ew. destruct (filter _ (map_to_list (ps_zombies s))) as [|[z [z0 st]] l] eqn:Ez; [|done].
      destruct (filter _ (map_to_list (ps_live s))) as [|[x qx] l] eqn:El; [done|].
      assert (Hin : (x, qx) ∈ filter (λ kv : Z * proc, pr_parent kv.2 = g ∧ bool_decide (c = -1 ∨ kv.1 = c) = true) (map_to_list (ps_live s))).
      { rewrite El. by left. }
      apply elem_of_list_filter in Hin as [[Hp _] Hin]. apply elem_of_map_to_list in Hin. cbn in Hp.
      destruct (decide (x = g)) as [->|Hx].
      + pose proof (pi_g _ _ HI) as HG. unfold g_inv in HG. rewrite E, C in HG. destruct HG as (_ & _ & HP & _). assert (qx = q) by congruence. subst. lia.
      + destruct (pi_kind _ _ HI _ _ Hin Hx) as [[_ K]|K]; [lia|]. apply (HN x Hx). by exists qx. }
  destruct (pr_pc q) as [|c|c|n c| | |] eqn:C; [by eapply F1| |by eapply (F4 s q c)|by eapply F3|by eapply F2| |done].
  - pose (s1 := set_live (<[g := Proc (CWait c) c (pr_pending q) (pr_parent q)]> (ps_live s)) s).
    assert (Hst : ps_step h (PAssign g) s = Some s1). { cbn. rewrite E. cbn. by rewrite C. }
    destruct (F4 s1 (Proc (CWait c) c (pr_pending q) (pr_parent q)) c) as (ls & s' & L1 & L2 & L3); [by eapply pinv_step| |by cbn; rewrite lookup_insert|done|by eapply HF|].
    { intros p Hp (qp & Ep & Cp). cbn in Ep. rewrite lookup_insert_ne in Ep by done. apply (HN p Hp). by exists qp. }
    exists (PAssign g :: ls), s'. split; [by constructor|]. split; [|done]. cbn [ps_run]. by rewrite Hst.
  - destruct HW. by exists q.
Qed.
Example replaced_ex : ∃ ls s', Forall (by_guardian 100) ls ∧
  ps_run None ls (run_with None [PFork 100 (Some 101); PAssign 100; PDie 101]) = Some s' ∧ works s' 205.
Proof.
  eapply (worker_is_replaced None 100 _ (Proc (CWait 101) 101 false 1)).
  - done.
  - apply run_reach. by eexists.
  - by vm_compute.
  - done.
  - intros p Hp (q & E & C). vm_compute in E. destruct p as [|p|p]; [done| |done].
    repeat (destruct p as [p|p|]; cbn in E; try done).
  - by vm_compute.
Qed.

Print Assumptions one_worker.
Print Assumptions guardian_only_guards_partial.
Print Assumptions guardian_only_guards_refuted.
Print Assumptions stop_reaches_worker_partial.
Print Assumptions stop_reaches_worker_refuted.
Print Assumptions kills_only_worker_partial.
Print Assumptions kills_only_worker_refuted.
Print Assumptions fork_failure_kills_everybody.
Print Assumptions worker_is_replaced.
