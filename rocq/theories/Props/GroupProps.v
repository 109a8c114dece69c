(** C154-C156: middleware (HttpGroup::Use) and registrations with several callbacks
    (src/cppnet/http/server/http_server.cpp:12-89). *)
From Verif.Proof Require Import RouterProof.
From Verif.Props Require Import RouterProps.

(** How an application configures a server: calls on the server or on its groups,
    which have the route [g]. *)
Inductive call (U : Type) : Type :=
| CUse (g : bytes) (h : handler U) (fs : list filter_fn)
| CRoute (m : http_method) (g path : bytes) (h : handler U) (fs : list filter_fn)
| CRoutes (m : http_method) (g path : bytes) (hs : list (handler U)) (fs : list filter_fn)
| CHandlers (g path : bytes) (hs : list (handler U)) (fs : list filter_fn) (exact : bool).
Arguments CUse {U}. Arguments CRoute {U}. Arguments CRoutes {U}. Arguments CHandlers {U}.

Definition do_call {U} (c : call U) (ro : router U) : outcome (Z * router U) :=
  match c with
  | CUse g h fs => group_Use g h fs ro
  | CRoute m g path h fs => group_method m g path h fs ro
  | CRoutes m g path hs fs => group_method_list m g path hs fs ro
  | CHandlers g path hs fs exact => register_list g path hs fs exact ro
  end.
Fixpoint do_calls {U} (cs : list (call U)) (ro : router U) : outcome (router U) :=
  match cs with
  | [] => Ok ro
  | c :: cs' => r ← do_call c ro; do_calls cs' r.2
  end.

(** What the calls ask for: callbacks of Use for everything below the route of the
    group, those of GET and POST for exactly one path; several callbacks in their
    order. *)
Definition asked {U} (c : call U) : list (registration U) :=
  match c with
  | CUse g h fs => [(g, [], Entry (Some h) false fs)]
  | CRoute _ g path h fs => [(g, path, Entry (Some h) true fs)]
  | CRoutes _ g path hs fs => map (fun h => (g, path, Entry (Some h) true fs)) hs
  | CHandlers g path hs fs exact => map (fun h => (g, path, Entry (Some h) exact fs)) hs
  end.
Definition all_asked {U} (cs : list (call U)) : list (registration U) := concat (map asked cs).
Definition ascii_calls {U} (cs : list (call U)) : Prop := ascii_registrations (all_asked cs).

(** The callbacks of a call. *)
Definition callbacks {U} (c : call U) : list (handler U) :=
  match c with
  | CUse _ h _ | CRoute _ _ _ h _ => [h]
  | CRoutes _ _ _ hs _ | CHandlers _ _ hs _ _ => hs
  end.

Lemma register_code {U} g path (e : entry U) ro r : register g path e ro = Ok r -> r.1 = kSuccess.
Proof.
  unfold register. intros H. destruct (trie_get (ro_trie ro) path) as [[i|]| | | | |]; try done; simpl in H.
  - destruct (ro_heap ro !! i); [|done]. by injection H as <-.
  - destruct (set_node (ro_trie ro) (g ++ path) (length (ro_heap ro))); try done. by injection H as <-.
Qed.

Lemma do_call_registers {U} (c : call U) ro :
  do_call c ro = (r ← register_all (asked c) ro; Ok (kSuccess, r)).
Proof.
  assert (H1 : forall g path (e : entry U) ro, register g path e ro =
    (r ← register_all [(g, path, e)] ro; Ok (kSuccess, r))).
  { intros g path e ro0. cbn [register_all]. destruct (register g path e ro0) as [[rc r]| | | | |] eqn:E; try done.
    apply register_code in E. simpl in E. subst. done. }
  destruct c as [g h fs|m g path h fs|m g path hs fs|g path hs fs exact]; cbn [do_call asked].
  - apply H1.
  - apply H1.
  - revert ro. induction hs as [|h hs IH]; intros ro; cbn [group_method_list map register_all]; [done|].
    unfold group_method. destruct (register g path (Entry (Some h) true fs) ro) as [r| | | | |] eqn:E; try done.
    cbn [mbind outcome_bind]. rewrite (register_code _ _ _ _ _ E). cbn [Z.eqb]. rewrite Z.eqb_refl. apply IH.
  - revert ro. induction hs as [|h hs IH]; intros ro; cbn [register_list map register_all]; [done|].
    destruct (register g path (Entry (Some h) exact fs) ro) as [r| | | | |] eqn:E; try done.
    cbn [mbind outcome_bind]. rewrite (register_code _ _ _ _ _ E), Z.eqb_refl. apply IH.
Qed.

Lemma do_calls_register {U} (cs : list (call U)) ro : do_calls cs ro = register_all (all_asked cs) ro.
Proof.
  revert ro. induction cs as [|c cs IH]; intros ro; [done|]. cbn [do_calls]. rewrite do_call_registers.
  etransitivity; [|symmetry; exact (register_all_app (asked c) (all_asked cs) ro)].
  destruct (register_all (asked c) ro); try done. cbn [mbind outcome_bind snd]. apply IH.
Qed.

(** ** C154 *)
Definition calls_take_effect_full : Prop := forall U (cs : list (call U)) p c w,
  ascii_calls cs -> ascii_only p ->
  exists ro, do_calls cs router_new = Ok ro /\
    chain (concerning (registered (all_asked cs)) p) (c, w) (dispatch ro p c w).

(** Missing: registrations that the look-up of the bare path confuses with others. *)
Theorem calls_take_effect_partial : forall U (cs : list (call U)) p c w,
  ascii_calls cs -> ascii_only p -> all_well_placed (all_asked cs) ->
  exists ro, do_calls cs router_new = Ok ro /\
    chain (concerning (registered (all_asked cs)) p) (c, w) (dispatch ro p c w).
Proof. intros U cs p c w Ha Hp Hw. rewrite do_calls_register. by apply handlers_run_partial. Qed.

(** Several callbacks for one path of the server itself. *)
Theorem callbacks_run_in_order : forall U m path (hs : list (handler U)) fs p c w,
  ascii_only path -> ascii_only p ->
  exists ro, do_calls [CRoutes m [] path hs fs] router_new = Ok ro /\
    (p = path -> chain (map (fun h => Entry (Some h) true fs) hs) (c, w) (dispatch ro p c w)) /\
    (p <> path -> dispatch ro p c w = Ok (c, w)).
Proof.
  intros U m path hs fs p c w Hp Hpp. rewrite do_calls_register. unfold all_asked. cbn [map concat asked].
  rewrite app_nil_r. rewrite <- (map_map (fun h => Entry (Some h) true fs) (fun e => ([], path, e))).
  apply group_accumulates_partial; [done|done|]. apply Forall_forall. intros e He.
  by apply elem_of_list_fmap in He as (h & -> & _).
Qed.

(** Of two callbacks given to GET of a group only the second runs. *)
Theorem calls_take_effect_refuted : ~ calls_take_effect_full.
Proof.
  intros H.
  destruct (H _ [CRoutes mGET (B "/api") (B "/x") [note 1; note 2] []] (B "/api/x") c0 w0) as (ro & Hro & Hch).
  - unfold ascii_calls, ascii_registrations. by_compute.
  - by_compute.
  - vm_compute in Hro. injection Hro as <-.
    assert (Hx : chain (concerning (registered (all_asked [CRoutes mGET (B "/api") (B "/x") [note 1; note 2] []])) (B "/api/x"))
      (c0, w0) (Ok (c0, World true (w_fs w0) [] ∅ [1; 2]))).
    { change (concerning _ _) with [noting 1; noting 2].
      eapply chain_called; [done| |done|done|]; [intros f Hf; by apply elem_of_nil in Hf|].
      eapply chain_called; [done| |done|done|constructor]. intros f Hf. by apply elem_of_nil in Hf. }
    pose proof (chain_det _ _ _ _ Hch Hx) as Hd. vm_compute in Hd. congruence.
Qed.

(** ** C155 *)
(** A callback given to Use of a group runs for every request below the group; seen
    from outside: it leaves a mark [P] which no callback removes. *)
Definition use_guards_full : Prop := forall U (cs : list (call U)) g h fs (P : world U -> Prop) p c w,
  ascii_calls cs -> ascii_only p -> CUse g h fs ∈ cs -> g `prefix_of` p ->
  (forall x h, x ∈ cs -> h ∈ callbacks x -> benign h) ->
  (forall f, f ∈ fs -> f (cx_req c) = true) -> w_running w = true ->
  (forall c w c' w', h c w = Ok (c', w') -> P w') ->
  (forall x h c w c' w', x ∈ cs -> h ∈ callbacks x -> h c w = Ok (c', w') -> P w -> P w') ->
  exists ro, do_calls cs router_new = Ok ro /\
    forall c' w', dispatch ro p c w = Ok (c', w') -> P w'.

Lemma asked_callback {U} (cs : list (call U)) x h :
  x ∈ all_asked cs -> e_callback x.2 = Some h -> exists y, y ∈ cs /\ h ∈ callbacks y.
Proof.
  unfold all_asked. intros Hx Hh. apply elem_of_list_In, in_concat in Hx as (l & Hl & Hx).
  apply in_map_iff in Hl as (y & <- & Hy). apply elem_of_list_In in Hx, Hy. exists y. split; [done|].
  destruct y as [g h' fs|m g path h' fs|m g path hs fs|g path hs fs exact]; cbn [asked callbacks] in *.
  - apply elem_of_list_singleton in Hx as ->. injection Hh as <-. left.
  - apply elem_of_list_singleton in Hx as ->. injection Hh as <-. left.
  - apply elem_of_list_fmap in Hx as (h' & -> & Hin). by injection Hh as <-.
  - apply elem_of_list_fmap in Hx as (h' & -> & Hin). by injection Hh as <-.
Qed.

Lemma use_asked {U} (cs : list (call U)) g h fs :
  CUse g h fs ∈ cs -> (g, [], Entry (Some h) false fs) ∈ all_asked cs.
Proof.
  intros Hin. apply elem_of_list_In, in_concat. exists (asked (CUse g h fs)). split; [|by left].
  apply in_map. by apply elem_of_list_In.
Qed.

Lemma table_keys {U} (regs : list (registration U)) T : table_after regs T ->
  forall k, T k <> [] -> keys regs k.
Proof.
  induction 1 as [|regs T g path e c H IH [Hl _]|regs T g path e H IH Hno]; intros k Hk; [done|..];
    unfold keys; rewrite map_app; apply elem_of_app.
  - left. destruct (decide (k = c)) as [->|]; by apply IH.
  - destruct (decide (k = g ++ path)) as [->|]; [right; by apply elem_of_list_singleton|left; by apply IH].
Qed.

Lemma table_entries {U} (regs : list (registration U)) T : table_after regs T ->
  forall k e, e ∈ T k -> exists x, x ∈ regs /\ x.2 = e.
Proof.
  induction 1 as [|regs T g path e c H IH Hl|regs T g path e H IH Hno]; intros k e' He'.
  - by apply elem_of_nil in He'.
  - destruct (decide (k = c)) as [->|].
    + apply elem_of_app in He' as [He'|He']; [destruct (IH _ _ He') as (x & Hx & ?); exists x; set_solver|].
      apply elem_of_list_singleton in He' as ->. exists (g, path, e). set_solver.
    + destruct (IH _ _ He') as (x & Hx & ?). exists x. set_solver.
  - destruct (decide (k = g ++ path)) as [->|].
    + apply elem_of_list_singleton in He' as ->. exists (g, path, e). set_solver.
    + destruct (IH _ _ He') as (x & Hx & ?). exists x. set_solver.
Qed.

(** What is registered for the root is never lost. *)
Lemma root_kept {U} (regs : list (registration U)) T : table_after regs T ->
  forall e, ([], [], e) ∈ regs -> e ∈ T [].
Proof.
  induction 1 as [|regs T g path e c H IH Hl|regs T g path e H IH Hno]; intros e' He'.
  - by apply elem_of_nil in He'.
  - apply elem_of_app in He' as [He'|He'].
    + destruct (decide ([] = c)) as [<-|]; [apply elem_of_app; left|]; by apply IH.
    + apply elem_of_list_singleton in He' as [= <- <- <-]. destruct Hl as [_ Hl].
      rewrite decide_True in Hl by done. subst c. rewrite decide_True by done. apply elem_of_app. right. left.
  - apply elem_of_app in He' as [He'|He'].
    + pose proof (IH _ He') as Hin. rewrite decide_False; [done|]. intros Hgp.
      destruct g; [|done]. destruct path; [|done]. apply (Hno []). split; [intros E; rewrite E in Hin; by apply elem_of_nil in Hin|].
      by rewrite decide_True.
    + apply elem_of_list_singleton in He' as [= <- <- <-]. cbn [app]. rewrite decide_True by done. left.
Qed.

(** Missing: groups.  A callback given to Use of the server itself runs for every
    request, whatever else is registered and in whatever order. *)
Theorem use_guards_partial : forall U (cs : list (call U)) h fs (P : world U -> Prop) p c w,
  ascii_calls cs -> ascii_only p -> CUse [] h fs ∈ cs ->
  (forall x h, x ∈ cs -> h ∈ callbacks x -> benign h) ->
  (forall f, f ∈ fs -> f (cx_req c) = true) -> w_running w = true ->
  (forall c w c' w', h c w = Ok (c', w') -> P w') ->
  (forall x h c w c' w', x ∈ cs -> h ∈ callbacks x -> h c w = Ok (c', w') -> P w -> P w') ->
  exists ro, do_calls cs router_new = Ok ro /\
    forall c' w', dispatch ro p c w = Ok (c', w') -> P w'.
Proof.
  intros U cs h fs P p c w Ha Hp Hin Hb Hf Hrun Hmark Hkeep. rewrite do_calls_register.
  destruct (handlers_run_table U (all_asked cs) Ha) as (ro & T & Hro & HT & Hch).
  exists ro. split; [done|]. intros c' w' Hres. specialize (Hch p c w Hp).
  set (e := Entry (Some h) false fs : entry U).
  assert (Hl : e ∈ concerning T p).
  { apply elem_of_concerning. exists 0. split; [lia|]. split; [|done]. cbn [take].
    apply (root_kept _ _ HT). by apply use_asked. }
  assert (Hreg : forall e', e' ∈ concerning T p -> exists x, x ∈ all_asked cs /\ x.2 = e').
  { intros e' He'. apply elem_of_concerning in He' as (i & _ & He' & _). by eapply table_entries. }
  apply elem_of_list_lookup in Hl as [n Hn].
  destruct (called_if (concerning T p) n e c w Hn) as (st' & Hcall & _);
    [done|by apply accepts_true|done| |].
  { apply Forall_forall. intros e' He' h' Hh'. apply elem_of_take in He' as (j & Hj & _).
    destruct (Hreg e') as (x & Hx & <-); [by eapply elem_of_list_lookup_2|].
    destruct (asked_callback _ _ _ Hx Hh') as (y & Hy & Hc). by eapply Hb. }
  eapply (chain_marks P _ (c, w)); [exact Hch|exact Hcall|exact Hn|done|exact Hmark| |exact Hres].
  intros e' h' c1 w1 c2 w2 He' Hh'. destruct (Hreg e' He') as (x & Hx & <-).
  destruct (asked_callback _ _ _ Hx Hh') as (y & Hy & Hc). by eapply Hkeep.
Qed.

Lemma group_kept {U} (before after : list (registration U)) g e T :
  (forall x, x ∈ before -> reg_key x <> []) -> (forall x, x ∈ after -> reg_key x <> g) ->
  table_after (before ++ (g, [], e) :: after) T -> e ∈ T g.
Proof.
  intros Hroot. revert T. induction after as [|y after IH] using rev_ind; intros T Hg HT.
  - inversion HT as [E|regs' T' g' path' e1 c HT' Hl E|regs' T' g' path' e1 HT' Hno E].
    + by destruct before.
    + exfalso. apply app_inj_tail in E as [-> [= -> -> ->]]. destruct Hl as [Hk Hc].
      rewrite decide_True in Hc by done. subst c. apply (table_keys _ _ HT') in Hk.
      unfold keys in Hk. apply elem_of_list_fmap in Hk as (x & Hx & Hin). symmetry in Hx. by apply (Hroot x).
    + apply app_inj_tail in E as [-> [= -> -> ->]]. cbn beta. rewrite app_nil_r, decide_True by done. left.
  - assert (Hg' : forall x, x ∈ after -> reg_key x <> g) by (intros x Hx; apply Hg; set_solver).
    assert (Hy : reg_key y <> g) by (apply Hg; set_solver).
    rewrite app_comm_cons, app_assoc in HT.
    inversion HT as [E|regs' T' g' path' e1 c HT' Hl E|regs' T' g' path' e1 HT' Hno E].
    + by destruct before.
    + apply app_inj_tail in E as [-> <-]. cbn beta. pose proof (IH _ Hg' HT') as Hin.
      destruct (decide (g = c)) as [<-|]; [apply elem_of_app; by left|done].
    + apply app_inj_tail in E as [-> <-]. cbn beta. pose proof (IH _ Hg' HT') as Hin.
      rewrite decide_False; [done|]. intros ->. by apply Hy.
Qed.

(** The first Use of a group works too if the server itself has none before and nothing
    is registered for the same path later. *)
Theorem use_guards_group : forall U (before after : list (call U)) g h fs (P : world U -> Prop) p c w,
  let cs := before ++ CUse g h fs :: after in
  ascii_calls cs -> ascii_only p -> g `prefix_of` p ->
  (forall x, x ∈ all_asked before -> reg_key x <> []) -> (forall x, x ∈ all_asked after -> reg_key x <> g) ->
  (forall x h, x ∈ cs -> h ∈ callbacks x -> benign h) ->
  (forall f, f ∈ fs -> f (cx_req c) = true) -> w_running w = true ->
  (forall c w c' w', h c w = Ok (c', w') -> P w') ->
  (forall x h c w c' w', x ∈ cs -> h ∈ callbacks x -> h c w = Ok (c', w') -> P w -> P w') ->
  exists ro, do_calls cs router_new = Ok ro /\
    forall c' w', dispatch ro p c w = Ok (c', w') -> P w'.
Proof.
  intros U before after g h fs P p c w cs Ha Hp Hg Hroot Hafter Hb Hf Hrun Hmark Hkeep.
  rewrite do_calls_register.
  destruct (handlers_run_table U (all_asked cs) Ha) as (ro & T & Hro & HT & Hch).
  exists ro. split; [done|]. intros c' w' Hres. specialize (Hch p c w Hp).
  set (e := Entry (Some h) false fs : entry U).
  assert (Hl : e ∈ concerning T p).
  { apply elem_of_concerning. destruct Hg as [r Hr]. exists (length g).
    split; [rewrite Hr, app_length; lia|]. split; [|done]. rewrite Hr, take_app.
    apply (group_kept (all_asked before) (all_asked after)); [done|done|].
    replace (all_asked before ++ (g, [], e) :: all_asked after) with (all_asked cs); [done|].
    unfold cs, all_asked. by rewrite map_app, concat_app. }
  assert (Hreg : forall e', e' ∈ concerning T p -> exists x, x ∈ all_asked cs /\ x.2 = e').
  { intros e' He'. apply elem_of_concerning in He' as (i & _ & He' & _). by eapply table_entries. }
  apply elem_of_list_lookup in Hl as [n Hn].
  destruct (called_if (concerning T p) n e c w Hn) as (st' & Hcall & _);
    [done|by apply accepts_true|done| |].
  { apply Forall_forall. intros e' He' h' Hh'. apply elem_of_take in He' as (j & Hj & _).
    destruct (Hreg e') as (x & Hx & <-); [by eapply elem_of_list_lookup_2|].
    destruct (asked_callback _ _ _ Hx Hh') as (y & Hy & Hc). by eapply Hb. }
  eapply (chain_marks P _ (c, w)); [exact Hch|exact Hcall|exact Hn|done|exact Hmark| |exact Hres].
  intros e' h' c1 w1 c2 w2 He' Hh'. destruct (Hreg e' He') as (x & Hx & <-).
  destruct (asked_callback _ _ _ Hx Hh') as (y & Hy & Hc). by eapply Hkeep.
Qed.

(** The second Use of a group replaces the first: a login check that is registered
    before a counter never runs. *)
Theorem use_guards_refuted : ~ use_guards_full.
Proof.
  intros H.
  destruct (H _ [CUse (B "/admin") (note 1) []; CUse (B "/admin") (note 2) []] (B "/admin") (note 1) []
    (fun w => 1 ∈ w_user w) (B "/admin/users") c0 w0) as (ro & Hro & Hd).
  - unfold ascii_calls, ascii_registrations. by_compute.
  - by_compute.
  - left.
  - by exists (B "/users").
  - intros x h Hx Hh. apply elem_of_cons in Hx as [->|Hx]; [|apply elem_of_list_singleton in Hx as ->];
      apply elem_of_list_singleton in Hh as ->; apply note_benign.
  - intros f Hf. by apply elem_of_nil in Hf.
  - done.
  - intros c w c' w' [= <- <-]. cbn. set_solver.
  - intros x h c w c' w' Hx Hh. apply elem_of_cons in Hx as [->|Hx]; [|apply elem_of_list_singleton in Hx as ->];
      apply elem_of_list_singleton in Hh as ->; intros [= <- <-]; cbn; set_solver.
  - vm_compute in Hro. injection Hro as <-.
    assert (Hx : 1 ∈ [2]) by (refine (Hd c0 (World true (w_fs w0) [] ∅ [2]) _); vm_compute; reflexivity). apply elem_of_list_singleton in Hx. done.
Qed.

(** ** C156 *)
(** A callback given to Use of a group does not run for requests outside the group;
    seen from outside: what all other callbacks keep is kept. *)
Definition use_stays_inside_full : Prop := forall U (before after : list (call U)) g h fs (Q : world U -> Prop) p c w,
  ascii_calls (before ++ CUse g h fs :: after) -> ascii_only p -> ~ g `prefix_of` p ->
  (forall x h c w c' w', x ∈ before ++ after -> h ∈ callbacks x -> h c w = Ok (c', w') -> Q w -> Q w') ->
  Q w ->
  exists ro, do_calls (before ++ CUse g h fs :: after) router_new = Ok ro /\
    forall c' w', dispatch ro p c w = Ok (c', w') -> Q w'.

Lemma stays_at {U} (before after : list (registration U)) g e T :
  (forall x, x ∈ before -> reg_key x <> []) ->
  table_after (before ++ (g, [], e) :: after) T ->
  forall k e', e' ∈ T k -> (exists x, x ∈ before ++ after /\ x.2 = e') \/ k = g.
Proof.
  intros Hroot. revert T. induction after as [|y after IH] using rev_ind; intros T HT k e' He'.
  - inversion HT as [E|regs' T' g' path' e1 c HT' Hl E|regs' T' g' path' e1 HT' Hno E].
    + by destruct before.
    + exfalso. apply app_inj_tail in E as [-> [= -> -> ->]]. destruct Hl as [Hk Hc].
      rewrite decide_True in Hc by done. subst c. apply (table_keys _ _ HT') in Hk.
      unfold keys in Hk. apply elem_of_list_fmap in Hk as (x & Hx & Hin). symmetry in Hx. by apply (Hroot x).
    + apply app_inj_tail in E as [-> [= -> -> ->]]. subst T. cbn beta in He'.
      rewrite app_nil_r in He'. destruct (decide (k = g)); [by right|]. left.
      destruct (table_entries _ _ HT' _ _ He') as (x & Hx & ?). exists x. set_solver.
  - rewrite app_comm_cons, app_assoc in HT.
    inversion HT as [E|regs' T' g' path' e1 c HT' Hl E|regs' T' g' path' e1 HT' Hno E].
    + by destruct before.
    + apply app_inj_tail in E as [-> <-]. subst T. cbn beta in He'.
      assert (Hc : e' ∈ T' k \/ e' = e1).
      { destruct (decide (k = c)) as [->|]; [|by left]. apply elem_of_app in He' as [?|He']; [by left|].
        right. by apply elem_of_list_singleton in He'. }
      destruct Hc as [Hc| ->].
      * destruct (IH _ HT' _ _ Hc) as [(x & Hx & ?)|?]; [left|by right]. exists x. set_solver.
      * left. exists (g', path', e1). set_solver.
    + apply app_inj_tail in E as [-> <-]. subst T. cbn beta in He'.
      destruct (decide (k = g' ++ path')) as [->|].
      * apply elem_of_list_singleton in He' as ->. left. exists (g', path', e1). set_solver.
      * destruct (IH _ HT' _ _ He') as [(x & Hx & ?)|?]; [left|by right]. exists x. set_solver.
Qed.

(** Missing: a Use of a group after one of the server itself. *)
Theorem use_stays_inside_partial : forall U (before after : list (call U)) g h fs (Q : world U -> Prop) p c w,
  ascii_calls (before ++ CUse g h fs :: after) -> ascii_only p -> ~ g `prefix_of` p ->
  (forall x h c w c' w', x ∈ before ++ after -> h ∈ callbacks x -> h c w = Ok (c', w') -> Q w -> Q w') ->
  (forall x, x ∈ all_asked before -> reg_key x <> []) ->
  Q w ->
  exists ro, do_calls (before ++ CUse g h fs :: after) router_new = Ok ro /\
    forall c' w', dispatch ro p c w = Ok (c', w') -> Q w'.
Proof.
  intros U before after g h fs Q p c w Ha Hp Hg Hkeep Hroot Hq. rewrite do_calls_register.
  destruct (handlers_run_table U _ Ha) as (ro & T & Hro & HT & Hch).
  exists ro. split; [done|]. intros c' w' Hres. specialize (Hch p c w Hp).
  assert (Eall : all_asked (before ++ CUse g h fs :: after) =
    all_asked before ++ (g, [], Entry (Some h) false fs) :: all_asked after).
  { unfold all_asked. rewrite map_app, concat_app. done. }
  rewrite Eall in HT.
  assert (Hab : all_asked before ++ all_asked after = all_asked (before ++ after)).
  { unfold all_asked. by rewrite map_app, concat_app. }
  eapply (chain_keeps Q _ (c, w)); [exact Hch| |exact Hq|exact Hres].
  intros e' h' c1 w1 c2 w2 He' Hh'. apply elem_of_concerning in He' as (i & Hi & He' & _).
  destruct (stays_at _ _ _ _ _ Hroot HT _ _ He') as [(x & Hx & <-)|Hk].
  - rewrite Hab in Hx. destruct (asked_callback _ _ _ Hx Hh') as (y & Hy & Hc). by eapply Hkeep.
  - exfalso. apply Hg. rewrite <- Hk. exists (drop i p). by rewrite take_drop.
Qed.

(** After a Use of the server itself, one of a group is for all requests. *)
Theorem use_stays_inside_refuted : ~ use_stays_inside_full.
Proof.
  intros H.
  destruct (H _ [CUse [] (note 1) []] [] (B "/admin") (note 2) [] (fun w => 2 ∉ w_user w) (B "/public") c0 w0)
    as (ro & Hro & Hd).
  - unfold ascii_calls, ascii_registrations. by_compute.
  - by_compute.
  - by_compute.
  - intros x h c w c' w' Hx Hh. apply elem_of_list_singleton in Hx as ->.
    apply elem_of_list_singleton in Hh as ->. intros [= <- <-]. cbn. set_solver.
  - cbn. apply not_elem_of_nil.
  - vm_compute in Hro. injection Hro as <-.
    assert (Hx : 2 ∉ [1; 2]) by (refine (Hd c0 (World true (w_fs w0) [] ∅ [1; 2]) _); vm_compute; reflexivity). set_solver.
Qed.

Print Assumptions calls_take_effect_partial.
Print Assumptions callbacks_run_in_order.
Print Assumptions calls_take_effect_refuted.
Print Assumptions use_guards_partial.
Print Assumptions use_guards_group.
Print Assumptions use_guards_refuted.
Print Assumptions use_stays_inside_partial.
Print Assumptions use_stays_inside_refuted.

(** Non-vacuity: middleware of the server, two callbacks for a page, handlers for a
    prefix, a group registered before. *)
Definition ex_calls : list (call (list nat)) :=
  [CUse (B "/admin") (note 9) []; CRoute mPOST [] (B "/p") (note 7) [];
   CUse [] (note 0) []; CRoutes mGET [] (B "/page") [note 1; note 2] [];
   CHandlers [] (B "/page/") [note 3; note 4] [] false].
Definition calls_log (cs : list (call (list nat))) (p : bytes) : outcome (list nat) :=
  ro ← do_calls cs router_new; r ← dispatch ro p c0 w0; Ok (w_user r.2).
Example ex_calls_log :
  calls_log ex_calls (B "/page") = Ok [0; 1; 2] /\ calls_log ex_calls (B "/page/x") = Ok [0; 3; 4] /\
  calls_log ex_calls (B "/admin/x") = Ok [0; 9] /\ calls_log ex_calls (B "/other") = Ok [0] /\
  calls_log ex_calls (B "/p") = Ok [0; 7].
Proof. by vm_compute. Qed.
Example ex_calls_ascii : ascii_calls ex_calls /\ CUse [] (note 0) [] ∈ ex_calls.
Proof. split; [unfold ascii_calls, ascii_registrations; by_compute|set_solver]. Qed.
Example ex_calls_placed : all_well_placed (all_asked (drop 1 ex_calls)).
Proof.
  apply root_server_well_placed. intros before g path e after H.
  do 6 (destruct before as [|? before];
    [injection H as <- <- _ _; split; [done|];
     first [by left | right; right; intros k Hk; unfold keys in Hk; cbn in Hk; revert k Hk; apply Forall_forall; by_compute
           | right; left; unfold keys; cbn; by_compute]
    |injection H as <- H]).
  by destruct before.
Qed.
Example ex_group_use :
  ex_calls = [] ++ CUse (B "/admin") (note 9) [] :: drop 1 ex_calls /\
  (forall x, x ∈ all_asked (drop 1 ex_calls) -> reg_key x <> B "/admin") /\ B "/admin" `prefix_of` B "/admin/x".
Proof. split; [done|]. split; [|by exists (B "/x")]. apply Forall_forall. repeat constructor; by vm_compute. Qed.
Example ex_stays : forall x, x ∈ all_asked (take 0 ex_calls) -> reg_key x <> [].
Proof. intros x Hx. by apply elem_of_nil in Hx. Qed.
