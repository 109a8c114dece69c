(** C36-C41: which handlers run (src/cppnet/http/server/http_server.cpp, the
    router; the request loop is in ServerProps). *)
From Verif.Proof Require Import RouterProof.

(** A handler that writes its number into the application's log. *)
Definition note (n : nat) : handler (list nat) := fun c w =>
  Ok (c, World (w_running w) (w_fs w) (w_opened w) (w_custom w) (w_user w ++ [n])).
Definition noting (n : nat) : entry (list nat) := Entry (Some (note n)) true [].
Definition noting_all (n : nat) : entry (list nat) := Entry (Some (note n)) false [].
Definition w0 : world (list nat) := World true (fun _ => Absent true) [] ∅ [].
Definition c0 : ctx := ctx_new req_new resp_new.
(** The log after a request for [p] on a server with the registrations [regs]. *)
Definition log_of (regs : list (registration (list nat))) (p : bytes) : outcome (list nat) :=
  ro ← register_all regs router_new; r ← dispatch ro p c0 w0; Ok (w_user r.2).

(** ** C36 *)
Definition handlers_run_full : Prop := forall U (regs : list (registration U)) p c w,
  ascii_registrations regs -> ascii_only p ->
  exists ro, register_all regs router_new = Ok ro /\
    chain (concerning (registered regs) p) (c, w) (dispatch ro p c w).

(** Missing: registrations that the look-up of the bare path confuses with
    others (see [well_placed_needed] for the exact border). *)
Theorem handlers_run_partial : forall U (regs : list (registration U)) p c w,
  ascii_registrations regs -> ascii_only p -> all_well_placed regs ->
  exists ro, register_all regs router_new = Ok ro /\
    chain (concerning (registered regs) p) (c, w) (dispatch ro p c w).
Proof.
  intros U regs p c w Ha Hp Hw. destruct (register_all_table regs Ha) as (ro & T & Hro & Hrep & HT).
  exists ro. split; [done|]. pose proof (table_registered regs T HT Hw) as Heq.
  rewrite (dispatch_table ro T p c w Hrep Hp).
  replace (concerning T p) with (concerning (registered regs) p); [apply run_chain|].
  unfold concerning. rewrite !flat_map_concat_map. f_equal. apply map_ext. intros i. by rewrite Heq.
Qed.

(** What runs in general: the entries of the table that the look-ups lead to. *)
Theorem handlers_run_table : forall U (regs : list (registration U)),
  ascii_registrations regs ->
  exists ro T, register_all regs router_new = Ok ro /\ table_after regs T /\
    forall p c w, ascii_only p -> chain (concerning T p) (c, w) (dispatch ro p c w).
Proof.
  intros U regs Ha. destruct (register_all_table regs Ha) as (ro & T & Hro & Hrep & HT).
  exists ro, T. split; [done|]. split; [done|]. intros p c w Hp.
  rewrite (dispatch_table ro T p c w Hrep Hp). apply run_chain.
Qed.

(** A registration that is not well placed is not found under its own path, or
    makes the earlier ones there disappear. *)
Theorem well_placed_needed : forall U (regs : list (registration U)) g path e T,
  all_well_placed regs -> table_after (regs ++ [(g, path, e)]) T ->
  (T (g ++ path) = registered regs (g ++ path) ++ [e] <-> well_placed regs g path).
Proof.
  intros U regs g path e T Hw HT.
  inversion HT as [E|regs' T' g' path' e' c HT' Hl E|regs' T' g' path' e' HT' Hno E].
  - by destruct regs.
  - apply app_inj_tail in E as [-> [= -> -> ->]].
    pose proof (table_registered regs T' HT' Hw) as Heq.
    assert (Hext : forall k, T' k <> [] <-> keys regs k).
    { intros k'. rewrite Heq. apply registered_keys. }
    apply (leads_to_ext _ (keys regs)) in Hl; [|done].
    destruct (decide (g ++ path = c)) as [Hc|Hc].
    + rewrite Heq, Hc. split; [|done]. intros _. left. by rewrite Hc.
    + rewrite Heq. split.
      * intros H. apply (f_equal length) in H. rewrite app_length in H. cbn in H. lia.
      * intros [Hx|[Hx _]]; [|by destruct (Hx c)]. destruct Hc. by eapply leads_to_unique.
  - apply app_inj_tail in E as [-> [= -> -> ->]].
    pose proof (table_registered regs T' HT' Hw) as Heq.
    assert (Hext : forall k, T' k <> [] <-> keys regs k).
    { intros k'. rewrite Heq. apply registered_keys. }
    rewrite decide_True by done. split.
    + intros H. right. split.
      * intros c Hc. apply (Hno c). by eapply leads_to_ext.
      * rewrite <- registered_keys. intros Hne. apply (f_equal length) in H.
        rewrite app_length in H. cbn in H. destruct (registered regs (g ++ path)); [done|]. cbn in H. lia.
    + intros [Hx|[_ Hx]].
      * exfalso. eapply Hno. eapply leads_to_ext; [|exact Hx]. done.
      * rewrite <- registered_keys in Hx. destruct (registered regs (g ++ path)); [done|].
        exfalso. by apply Hx.
Qed.

(** A readable condition: no groups, and a path is not registered for the first
    time after one that extends it. *)
Theorem root_server_well_placed : forall U (regs : list (registration U)),
  (forall before g path e after, regs = before ++ (g, path, e) :: after ->
    g = [] /\ (path = [] \/ keys before path \/ forall k, keys before k -> ~ path `prefix_of` k)) ->
  all_well_placed regs.
Proof.
  intros U regs H before [[g path] e] after ->. cbn.
  destruct (H before g path e after eq_refl) as [-> Hp]. cbn [app]. unfold well_placed, leads_to.
  destruct (decide (path = [])) as [->|Hne].
  - destruct (decide ([] ∈ map reg_key before)) as [Hin|Hin]; [by left|].
    right. split; [|done]. intros c [Hc ->]. done.
  - destruct Hp as [?|[Hp|Hp]]; [done|by left|].
    right. split; [|intros Hk; by eapply Hp].
    intros c (Hc & Hpc & _). by apply (Hp c).
Qed.

Theorem handlers_run_refuted : ~ handlers_run_full.
Proof.
  intros H. pose (regs := [([], B "/hello", noting 1); ([], B "/hel", noting 2)] : list (registration (list nat))).
  destruct (H _ regs (B "/hel") c0 w0) as (ro & Hro & Hch).
  - unfold ascii_registrations. by_compute.
  - by_compute.
  - vm_compute in Hro. injection Hro as <-.
    assert (Hx : chain (concerning (registered regs) (B "/hel")) (c0, w0)
      (Ok (c0, World true (w_fs w0) [] ∅ [2]))).
    { change (concerning (registered regs) (B "/hel")) with [noting 2].
      eapply chain_called; [done| |done|done|constructor]. intros f Hf. by apply elem_of_nil in Hf. }
    pose proof (chain_det _ _ _ _ Hch Hx) as Hd. vm_compute in Hd. congruence.
Qed.

(** ** C37 *)

(** Observed from outside: a handler that leaves a mark which no handler removes. *)
Definition reachable_full : Prop := forall U (regs : list (registration U)) g path e h (P : world U -> Prop) c w,
  ascii_registrations regs -> (g, path, e) ∈ regs -> e_callback e = Some h ->
  (forall x h, x ∈ regs -> e_callback x.2 = Some h -> benign h) ->
  accepts e (cx_req c) = true -> w_running w = true ->
  (forall c w c' w', h c w = Ok (c', w') -> P w') ->
  (forall x h c w c' w', x ∈ regs -> e_callback x.2 = Some h -> h c w = Ok (c', w') -> P w -> P w') ->
  exists ro, register_all regs router_new = Ok ro /\
    forall c' w', dispatch ro (g ++ path) c w = Ok (c', w') -> P w'.

Lemma elem_of_registered {U} (regs : list (registration U)) k e :
  e ∈ registered regs k <-> exists x, x ∈ regs /\ reg_key x = k /\ x.2 = e.
Proof.
  unfold registered. rewrite elem_of_list_omap. split.
  - intros (x & Hx & H). exists x. destruct (decide (reg_key x = k)); [|done]. naive_solver.
  - intros (x & Hx & Hk & He). exists x. split; [done|]. rewrite decide_True by done. by subst.
Qed.

Lemma elem_of_concerning {U} (T : bytes -> list (entry U)) p e :
  e ∈ concerning T p <-> exists i, i <= length p /\ e ∈ T (take i p) /\ (e_exact e = true -> i = length p).
Proof.
  unfold concerning. rewrite elem_of_list_In, in_flat_map. split.
  - intros (i & Hi & He). apply in_seq in Hi. apply filter_In in He as [He Hx].
    exists i. split; [lia|]. split; [by apply elem_of_list_In|]. intros Hex. rewrite Hex in Hx.
    apply Nat.eqb_eq in Hx. done.
  - intros (i & Hi & He & Hx). exists i. split; [apply in_seq; lia|].
    apply filter_In. split; [by apply elem_of_list_In|].
    destruct (e_exact e); [|done]. cbn. apply Nat.eqb_eq. by apply Hx.
Qed.

(** Missing: see C36. *)
Theorem reachable_partial : forall U (regs : list (registration U)) g path e h (P : world U -> Prop) c w,
  all_well_placed regs ->
  ascii_registrations regs -> (g, path, e) ∈ regs -> e_callback e = Some h ->
  (forall x h, x ∈ regs -> e_callback x.2 = Some h -> benign h) ->
  accepts e (cx_req c) = true -> w_running w = true ->
  (forall c w c' w', h c w = Ok (c', w') -> P w') ->
  (forall x h c w c' w', x ∈ regs -> e_callback x.2 = Some h -> h c w = Ok (c', w') -> P w -> P w') ->
  exists ro, register_all regs router_new = Ok ro /\
    forall c' w', dispatch ro (g ++ path) c w = Ok (c', w') -> P w'.
Proof.
  intros U regs g path e h P c w Hw Ha Hin Hh Hb Hacc Hrun Hmark Hkeep.
  assert (Hgp : ascii_only (g ++ path)).
  { unfold ascii_registrations in Ha. rewrite Forall_forall in Ha. destruct (Ha _ Hin) as [H1 H2].
    by apply Forall_app. }
  destruct (handlers_run_partial U regs (g ++ path) c w Ha Hgp Hw) as (ro & Hro & Hch).
  exists ro. split; [done|]. intros c' w' Hres.
  set (l := concerning (registered regs) (g ++ path)) in *.
  assert (Hreg : forall e', e' ∈ l -> exists x, x ∈ regs /\ x.2 = e').
  { intros e' He'. apply elem_of_concerning in He' as (i & _ & He' & _).
    apply elem_of_registered in He' as (x & Hx & _ & <-). eauto. }
  assert (Hl : e ∈ l).
  { apply elem_of_concerning. exists (length (g ++ path)). split; [done|]. split; [|done].
    rewrite take_ge by done. apply elem_of_registered. by exists (g, path, e). }
  apply elem_of_list_lookup in Hl as [n Hn].
  destruct (called_if l n e c w Hn) as (st' & Hcall & _); [congruence|done|done| |].
  { apply Forall_forall. intros e' He' h' Hh'. apply elem_of_take in He' as (j & Hj & _).
    destruct (Hreg e') as (x & Hx & <-); [by eapply elem_of_list_lookup_2|]. by eapply Hb. }
  eapply (chain_marks P l (c, w)); [exact Hch|exact Hcall|exact Hn|exact Hh|exact Hmark| |exact Hres].
  intros e' h' c1 w1 c2 w2 He' Hh'. destruct (Hreg e' He') as (x & Hx & <-). by eapply Hkeep.
Qed.

Lemma note_benign n : benign (note n).
Proof. intros c w. by do 2 eexists. Qed.

Theorem reachable_refuted : ~ reachable_full.
Proof.
  intros H. pose (regs := [([], B "/hello", noting 1); ([], B "/hel", noting 2)] : list (registration (list nat))).
  destruct (H _ regs [] (B "/hel") (noting 2) (note 2) (fun w => 2 ∈ w_user w) c0 w0)
    as (ro & Hro & Hd).
  - unfold ascii_registrations. by_compute.
  - right. left.
  - done.
  - intros x h Hx Hh.
    apply elem_of_cons in Hx as [->|Hx]; [injection Hh as <-; apply note_benign|].
    apply elem_of_list_singleton in Hx as ->. injection Hh as <-. apply note_benign.
  - done.
  - done.
  - intros c w c' w' [= <- <-]. cbn. set_solver.
  - intros x h c w c' w' Hx Hh.
    apply elem_of_cons in Hx as [->|Hx]; [|apply elem_of_list_singleton in Hx as ->];
      injection Hh as <-; intros [= <- <-]; cbn; set_solver.
  - vm_compute in Hro. injection Hro as <-.
    specialize (Hd c0 w0). cbn [app] in Hd. cbn in Hd. by apply elem_of_nil in Hd.
Qed.

(** ** C38 *)
Definition method_routes_full : Prop := forall U m g path (h : handler U) filters c w,
  ascii_only g -> ascii_only path -> rq_method (cx_req c) <> m ->
  exists ro, group_method m g path h filters router_new = Ok (kSuccess, ro) /\
    dispatch ro (g ++ path) c w = Ok (c, w).

(** Whatever was registered, an entry is only called for requests that all its
    filters accept. *)
Theorem called_only_if_accepted : forall U (regs : list (registration U)) T p c w n st',
  table_after regs T -> called (concerning T p) (c, w) n st' ->
  exists e h, concerning T p !! n = Some e /\ e_callback e = Some h /\
    forall f, f ∈ e_filters e -> f (cx_req st'.1) = true.
Proof. intros U regs T p c w n st' _ Hc. by eapply called_entry. Qed.

Lemma single_registration {U} g path (e : entry U) p c w :
  ascii_only g -> ascii_only path -> ascii_only p ->
  exists ro, register g path e router_new = Ok (kSuccess, ro) /\
    chain (if decide (p = g ++ path) then [e]
           else if decide (g ++ path `prefix_of` p) then List.filter (fun e => negb (e_exact e)) [e] else [])
          (c, w) (dispatch ro p c w).
Proof.
  intros Hg Hp Hpp.
  destruct (handlers_run_partial U [(g, path, e)] p c w) as (ro & Hro & Hch).
  - by repeat constructor.
  - done.
  - intros before x after Hx. destruct before as [|y before]; [|by destruct before].
    cbn. unfold well_placed. right. split.
    + intros c1 [Hk _]. by apply elem_of_nil in Hk.
    + intros Hk. by apply elem_of_nil in Hk.
  - destruct (register_rep router_new (fun _ => []) g path e rep_new Hg Hp) as (ro' & Hreg & _).
    cbn [register_all] in Hro. rewrite Hreg in Hro. cbn in Hro. injection Hro as ->.
    exists ro. split; [done|].
    assert (Hone : forall k, registered [(g, path, e)] k = if decide (g ++ path = k) then [e] else []).
    { intros k. unfold registered, reg_key. cbn. by destruct (decide (g ++ path = k)). }
    assert (Hcon : concerning (registered [(g, path, e)]) p =
      if decide (g ++ path `prefix_of` p)
      then List.filter (fun e => negb (e_exact e) || (length (g ++ path) =? length p)) [e] else []).
    { unfold concerning. destruct (decide (g ++ path `prefix_of` p)) as [[r Hr]|Hn].
      - assert (Hsplit : seq 0 (S (length p)) = seq 0 (length (g ++ path)) ++ length (g ++ path) :: seq (S (length (g ++ path))) (length r)).
        { rewrite Hr. rewrite (app_length (g ++ path)).
          replace (S (length (g ++ path) + length r)) with (length (g ++ path) + S (length r)) by lia.
          rewrite seq_app. f_equal. }
        rewrite Hsplit, flat_map_app. cbn [flat_map].
        assert (Hnil : forall l, (forall i, i ∈ l -> i <= length p /\ i <> length (g ++ path)) ->
          flat_map (fun i => List.filter (fun e => negb (e_exact e) || (i =? length p))
            (registered [(g, path, e)] (take i p))) l = []).
        { induction l as [|i l IH]; intros Hl; [done|]. cbn [flat_map]. rewrite IH.
          2: { intros j Hj. apply Hl. by right. }
          rewrite app_nil_r. rewrite Hone. rewrite decide_False; [done|].
          intros Heq. destruct (Hl i) as [Hi Hne]; [by left|].
          apply (f_equal length) in Heq. rewrite take_length in Heq. lia. }
        rewrite (Hnil (seq 0 _)), (Hnil (seq (S _) _)).
        + cbn [app]. rewrite app_nil_r, Hone. rewrite decide_True; [done|].
          rewrite Hr. by rewrite take_app.
        + intros i Hi. apply elem_of_seq in Hi. rewrite Hr. rewrite !app_length in *. lia.
        + intros i Hi. apply elem_of_seq in Hi. rewrite Hr. rewrite !app_length in *. lia.
      - rewrite flat_map_concat_map.
        assert (Hm : Forall (fun l => l = []) (map (fun i => List.filter (fun e => negb (e_exact e) || (i =? length p))
            (registered [(g, path, e)] (take i p))) (seq 0 (S (length p))))).
        { apply Forall_forall. intros l Hl. apply elem_of_list_fmap in Hl as (i & -> & _).
          rewrite Hone, decide_False; [done|]. intros Heq. apply Hn. rewrite Heq.
          exists (drop i p). by rewrite take_drop. }
        induction Hm as [|x l -> Hl IH]; [done|]. done. }
    rewrite Hcon in Hch. destruct (decide (p = g ++ path)) as [->|Hne].
    + rewrite decide_True in Hch by done. cbn in Hch. rewrite Nat.eqb_refl, orb_true_r in Hch. done.
    + destruct (decide (g ++ path `prefix_of` p)) as [[r Hr]|Hn]; [|done].
      assert (length (g ++ path) =? length p = false) as Hl.
      { apply Nat.eqb_neq. intros Hl. apply Hne. rewrite Hr in Hl. rewrite !app_length in Hl.
        destruct r; [by rewrite app_nil_r in Hr|cbn in Hl; lia]. }
      cbn in Hch. cbn. rewrite Hl, orb_false_r in Hch. done.
Qed.

(** Missing: the method is only checked if the caller passes such a filter. *)
Theorem method_routes_partial : forall U m g path (h : handler U) filters c w,
  ascii_only g -> ascii_only path -> method_filter m ∈ filters -> rq_method (cx_req c) <> m ->
  exists ro, group_method m g path h filters router_new = Ok (kSuccess, ro) /\
    dispatch ro (g ++ path) c w = Ok (c, w).
Proof.
  intros U m g path h filters c w Hg Hp Hf Hm.
  destruct (single_registration g path (Entry (Some h) true filters) (g ++ path) c w) as (ro & Hr & Hch);
    [done|done|by apply Forall_app|].
  exists ro. split; [done|]. rewrite decide_True in Hch by done.
  apply (chain_det _ _ _ _ Hch). eapply chain_rejected; [exact Hf| |constructor].
  unfold method_filter. by apply bool_decide_eq_false.
Qed.

Theorem method_routes_refuted : ~ method_routes_full.
Proof.
  intros H. pose (c := ctx_new (Req mPOST v1_1 ∅ route_new []) resp_new).
  destruct (H (list nat) mGET [] (B "/form") (note 1) [] c w0) as (ro & Hro & Hd); [by_compute|by_compute|done|].
  vm_compute in Hro. injection Hro as <-. vm_compute in Hd. congruence.
Qed.

(** StaticDir and StaticFile do check it. *)
Theorem static_routes_only_get : forall U alive g path target filters p c (w : world U),
  ascii_only g -> ascii_only path -> ascii_only p -> rq_method (cx_req c) <> mGET ->
  (exists ro, group_StaticDir alive g path target filters router_new = Ok (kSuccess, ro) /\
    dispatch ro p c w = Ok (c, w)) /\
  (exists ro, group_StaticFile alive g path target filters router_new = Ok (kSuccess, ro) /\
    dispatch ro p c w = Ok (c, w)).
Proof.
  intros U alive g path target filters p c w Hg Hp Hpp Hm.
  assert (Hex : forall h ex, exists ro, register g path (Entry (Some h) ex (filters ++ [method_filter mGET])) router_new
    = Ok (kSuccess, ro) /\ dispatch ro p c w = Ok (c, w)).
  { intros h ex.
    destruct (single_registration g path (Entry (Some h) ex (filters ++ [method_filter mGET])) p c w Hg Hp Hpp)
      as (ro & Hr & Hch).
    exists ro. split; [done|].
    assert (Hrej : chain [Entry (Some h) ex (filters ++ [method_filter mGET])] (c, w) (Ok (c, w))).
    { eapply (chain_rejected _ (method_filter mGET)); [apply elem_of_app; right; left| |constructor].
      unfold method_filter. by apply bool_decide_eq_false. }
    destruct (decide (p = g ++ path)); [by apply (chain_det _ _ _ _ Hch)|].
    destruct (decide (_ `prefix_of` p)); cbn in Hch; destruct ex; cbn in Hch;
      by (apply (chain_det _ _ _ _ Hch); done || constructor). }
  split; apply Hex.
Qed.

(** ** C39 *)
Definition group_accumulates_full : Prop := forall U g path (es : list (entry U)) p c w,
  ascii_only g -> ascii_only path -> ascii_only p -> Forall (fun e => e_exact e = true) es ->
  exists ro, register_all (map (fun e => (g, path, e)) es) router_new = Ok ro /\
    (p = g ++ path -> chain es (c, w) (dispatch ro p c w)) /\
    (p <> g ++ path -> dispatch ro p c w = Ok (c, w)).

Lemma registered_same {U} g path (es : list (entry U)) k :
  registered (map (fun e => (g, path, e)) es) k = if decide (g ++ path = k) then es else [].
Proof.
  unfold registered. induction es as [|e es IH]; [by destruct (decide _)|].
  cbn. unfold reg_key in *. cbn in *. destruct (decide (g ++ path = k)); cbn; by rewrite IH.
Qed.

Lemma concerning_exact {U} (es : list (entry U)) k p :
  Forall (fun e => e_exact e = true) es ->
  concerning (fun q => if decide (k = q) then es else []) p = if decide (p = k) then es else [].
Proof.
  intros Hex. unfold concerning. rewrite seq_S, flat_map_app. cbn [flat_map Nat.add].
  rewrite app_nil_r.
  assert (Hpre : flat_map (fun i => List.filter (fun e => negb (e_exact e) || (i =? length p))
    (if decide (k = take i p) then es else [])) (seq 0 (length p)) = []).
  { assert (Hl : forall i, i ∈ seq 0 (length p) -> i < length p) by (intros i Hi; apply elem_of_seq in Hi; lia).
    revert Hl. generalize (seq 0 (length p)) as l. induction l as [|i l IH]; intros Hl; [done|].
    cbn [flat_map]. rewrite IH by (intros j Hj; apply Hl; by right). rewrite app_nil_r.
    destruct (decide (k = take i p)); [|done].
    assert (Hne : i =? length p = false) by (apply Nat.eqb_neq; specialize (Hl i (elem_of_list_here _ _)); lia).
    rewrite Hne. clear -Hex. induction Hex as [|e es He Hes IH]; [done|]. cbn. rewrite He. cbn. exact IH. }
  rewrite Hpre. cbn [app]. rewrite take_ge by done.
  destruct (decide (k = p)) as [->|Hn].
  - rewrite decide_True by done. rewrite Nat.eqb_refl.
    clear. induction es as [|e es IH]; [done|]. cbn. rewrite orb_true_r. f_equal. exact IH.
  - by rewrite decide_False by done.
Qed.

(** Missing: groups other than the server itself (there the second registration
    replaces the first, see below). *)
Theorem group_accumulates_partial : forall U path (es : list (entry U)) p c w,
  ascii_only path -> ascii_only p -> Forall (fun e => e_exact e = true) es ->
  exists ro, register_all (map (fun e => ([], path, e)) es) router_new = Ok ro /\
    (p = path -> chain es (c, w) (dispatch ro p c w)) /\
    (p <> path -> dispatch ro p c w = Ok (c, w)).
Proof.
  intros U path es p c w Hp Hpp Hex.
  destruct (handlers_run_partial U (map (fun e => ([], path, e)) es) p c w) as (ro & Hro & Hch).
  - unfold ascii_registrations. apply Forall_forall. intros x Hx. apply elem_of_list_fmap in Hx as (e & -> & _).
    by split; [constructor|].
  - done.
  - apply root_server_well_placed. intros before g path' e after Heq.
    assert (Hall : forall x, x ∈ map (fun e : entry U => ([] : bytes, path, e)) es -> x.1 = ([], path)).
    { intros x Hx. by apply elem_of_list_fmap in Hx as (e' & -> & _). }
    rewrite Heq in Hall. pose proof (Hall (g, path', e)) as H1.
    assert (Hgp : (g, path') = ([], path)) by (apply H1; apply elem_of_app; right; left).
    injection Hgp as -> ->. split; [done|]. right.
    destruct before as [|x before]; [right; intros k Hk; by apply elem_of_nil in Hk|].
    left. unfold keys. cbn [map]. specialize (Hall x (elem_of_list_here _ _)).
    destruct x as [x1 x2]. cbn in Hall. subst x1. left.
  - exists ro. split; [done|].
    assert (Hcon : concerning (registered (map (fun e => ([], path, e)) es)) p = if decide (p = path) then es else []).
    { rewrite <- (concerning_exact es path p Hex). unfold concerning. rewrite !flat_map_concat_map. f_equal.
      apply map_ext. intros i. by rewrite registered_same. }
    rewrite Hcon in Hch. split; intros Hx.
    + by rewrite decide_True in Hch.
    + rewrite decide_False in Hch by done. by inversion Hch.
Qed.

(** In a group, two registrations for the same path: the server behaves as if
    the first one had never been made (unless the path repeats the group's
    route, so that the group's path begins with it). *)
Theorem group_second_replaces_first : forall U g path (e1 e2 : entry U),
  ascii_only g -> ascii_only path -> g <> [] -> (path = [] \/ ~ path `prefix_of` g ++ path) ->
  exists ro ro', register_all [(g, path, e1); (g, path, e2)] router_new = Ok ro /\
    register_all [(g, path, e2)] router_new = Ok ro' /\
    forall p c w, ascii_only p -> dispatch ro p c w = dispatch ro' p c w.
Proof.
  intros U g path e1 e2 Hg Hp Hne Hpath.
  destruct (register_rep router_new (fun _ => []) g path e2 rep_new Hg Hp) as (ro2 & Hreg2 & H2).
  destruct (register_rep router_new (fun _ => []) g path e1 rep_new Hg Hp) as (ro1 & Hreg1 & H1).
  destruct H2 as [(c & [Hc _] & _)|[_ Hrep2]]; [done|].
  destruct H1 as [(c & [Hc _] & _)|[_ Hrep1]]; [done|].
  destruct (register_rep _ _ g path e2 Hrep1 Hg Hp) as (ro3 & Hreg3 & H3).
  exists ro3, ro2. cbn [register_all]. rewrite Hreg1, Hreg2. cbn [mbind outcome_bind snd].
  rewrite Hreg3. split; [done|]. split; [done|]. intros p c w Hpp.
  destruct H3 as [(c1 & [Hc Hl] & _)|[_ Hrep3]].
  - exfalso. destruct (decide (c1 = g ++ path)) as [->|]; [|done].
    destruct Hpath as [->|Hpath].
    + rewrite decide_True in Hl by done. by destruct g.
    + destruct (decide (path = [])) as [->|]; [by destruct g|]. by destruct Hl.
  - rewrite (dispatch_table _ _ _ _ _ Hrep3 Hpp), (dispatch_table _ _ _ _ _ Hrep2 Hpp).
    replace (concerning _ p) with (concerning (fun k => if decide (k = g ++ path) then [e2] else []) p); [done|].
    unfold concerning. rewrite !flat_map_concat_map. f_equal. apply map_ext. intros i.
    by destruct (decide (take i p = g ++ path)).
Qed.

Theorem group_accumulates_refuted : ~ group_accumulates_full.
Proof.
  intros H. destruct (H _ (B "/api") (B "/x") [noting 1; noting 2] (B "/api/x") c0 w0) as (ro & Hro & Hch & _);
    [by_compute|by_compute|by_compute|by_compute|].
  specialize (Hch eq_refl). vm_compute in Hro. injection Hro as <-.
  assert (Hx : chain [noting 1; noting 2] (c0, w0) (Ok (c0, World true (w_fs w0) [] ∅ [1; 2]))).
  { eapply chain_called; [done| |done|done|].
    { intros f Hf. by apply elem_of_nil in Hf. }
    eapply chain_called; [done| |done|done|constructor]. intros f Hf. by apply elem_of_nil in Hf. }
  pose proof (chain_det _ _ _ _ Hch Hx) as Hd. vm_compute in Hd. congruence.
Qed.

(** ** C40 *)
Definition abort_stops_full : Prop := forall U path (h1 h2 : handler U) c w c1 w1,
  ascii_only path -> h1 c w = Ok (ctx_Abort c1, w1) -> w_running w1 = true ->
  exists ro, register_all [([], path, Entry (Some h1) true []); ([], path, Entry (Some h2) true [])] router_new = Ok ro /\
    dispatch ro path c w = Ok (ctx_Abort c1, w1).

(** What Abort does: nothing; the next handler runs on the aborted context. *)
Theorem abort_is_ignored : forall U path (h1 h2 : handler U) c w c1 w1 c2 w2,
  ascii_only path -> h1 c w = Ok (ctx_Abort c1, w1) -> w_running w1 = true ->
  h2 (ctx_Abort c1) w1 = Ok (c2, w2) ->
  exists ro, register_all [([], path, Entry (Some h1) true []); ([], path, Entry (Some h2) true [])] router_new = Ok ro /\
    dispatch ro path c w = Ok (c2, w2).
Proof.
  intros U path h1 h2 c w c1 w1 c2 w2 Hp H1 Hw H2.
  destruct (group_accumulates_partial U path [Entry (Some h1) true []; Entry (Some h2) true []] path c w)
    as (ro & Hro & Hch & _); [done|done|by repeat constructor|].
  exists ro. split; [done|]. apply (chain_det _ _ _ _ (Hch eq_refl)).
  assert (Hnil : forall r f, f ∈ ([] : list filter_fn) -> f r = true) by (intros r f Hf; by apply elem_of_nil in Hf).
  eapply chain_called; [done|apply Hnil|exact H1|done|].
  destruct (w_running w2) eqn:E.
  - eapply chain_called; [done|apply Hnil|exact H2|done|constructor].
  - eapply chain_stopped; [done|apply Hnil|exact H2|done].
Qed.

(** What does stop the chain: stopping the server. *)
Theorem stopped_server_stops_chain_partial : forall U path (h1 h2 : handler U) c w c1 w1,
  ascii_only path -> h1 c w = Ok (c1, w1) -> w_running w1 = false ->
  exists ro, register_all [([], path, Entry (Some h1) true []); ([], path, Entry (Some h2) true [])] router_new = Ok ro /\
    dispatch ro path c w = Ok (c1, w1).
Proof.
  intros U path h1 h2 c w c1 w1 Hp H1 Hw.
  destruct (group_accumulates_partial U path [Entry (Some h1) true []; Entry (Some h2) true []] path c w)
    as (ro & Hro & Hch & _); [done|done|by repeat constructor|].
  exists ro. split; [done|]. apply (chain_det _ _ _ _ (Hch eq_refl)).
  eapply chain_stopped; [done| |exact H1|done]. intros f Hf. by apply elem_of_nil in Hf.
Qed.

Theorem abort_stops_refuted : ~ abort_stops_full.
Proof.
  intros H. destruct (H (list nat) (B "/x") (fun c w => Ok (ctx_Abort c, w)) (note 2) c0 w0 c0 w0)
    as (ro & Hro & Hd); [by_compute|done|done|].
  vm_compute in Hro. injection Hro as <-. vm_compute in Hd. congruence.
Qed.

(** ** C41 *)
Definition whole_segments_full : Prop := forall U m (e : entry U) p c w,
  ascii_only m -> ascii_only p -> p <> m -> ~ m ++ B "/" `prefix_of` p ->
  exists ro, register [] m e router_new = Ok (kSuccess, ro) /\ dispatch ro p c w = Ok (c, w).

(** What holds: a handler mounted at [m] runs for all paths that begin with [m]
    and no others; if [m] ends in a slash this is what the title says. *)
Theorem whole_segments_partial : forall U m (e : entry U) p c w,
  ascii_only m -> ascii_only p -> e_exact e = false ->
  exists ro, register [] m e router_new = Ok (kSuccess, ro) /\
    (m `prefix_of` p -> chain [e] (c, w) (dispatch ro p c w)) /\
    (~ m `prefix_of` p -> dispatch ro p c w = Ok (c, w)).
Proof.
  intros U m e p c w Hm Hp He.
  destruct (single_registration [] m e p c w) as (ro & Hr & Hch); [by constructor|done|done|].
  exists ro. split; [done|]. cbn [app List.filter] in Hch. rewrite He in Hch. cbn [negb] in Hch.
  split; intros Hx.
  - destruct (decide (p = m)); [done|]. by rewrite decide_True in Hch.
  - rewrite decide_False in Hch by (intros ->; by apply Hx). rewrite decide_False in Hch by done.
    by inversion Hch.
Qed.

Theorem whole_segments_refuted : ~ whole_segments_full.
Proof.
  intros H. destruct (H _ (B "/a") (noting_all 1) (B "/ab") c0 w0) as (ro & Hro & Hd);
    [by_compute|by_compute|done|by_compute|].
  vm_compute in Hro. injection Hro as <-. vm_compute in Hd. congruence.
Qed.

Print Assumptions handlers_run_partial.
Print Assumptions handlers_run_table.
Print Assumptions well_placed_needed.
Print Assumptions root_server_well_placed.
Print Assumptions handlers_run_refuted.
Print Assumptions reachable_partial.
Print Assumptions reachable_refuted.
Print Assumptions called_only_if_accepted.
Print Assumptions method_routes_partial.
Print Assumptions method_routes_refuted.
Print Assumptions static_routes_only_get.
Print Assumptions group_accumulates_partial.
Print Assumptions group_second_replaces_first.
Print Assumptions group_accumulates_refuted.
Print Assumptions abort_is_ignored.
Print Assumptions stopped_server_stops_chain_partial.
Print Assumptions abort_stops_refuted.
Print Assumptions whole_segments_partial.
Print Assumptions whole_segments_refuted.

(** Non-vacuity: a server with a middleware for everything, one below /api/ and
    several exact routes; and a group. *)
Definition ex_regs : list (registration (list nat)) :=
  [([], [], noting_all 0); ([], B "/api/", noting_all 1); ([], B "/api/user", noting 2);
   ([], B "/api/user", noting 3); ([], B "/api/user/x", noting 4); (B "/g", B "/y", noting 5)].
Example ex_placed : all_well_placed (take 5 ex_regs).
Proof.
  apply root_server_well_placed. intros before g path e after H.
  assert (Hin : forall k, keys before k <-> k ∈ map reg_key before) by done.
  do 5 (destruct before as [|? before];
    [injection H as <- <- _ _; split; [done|];
     first [by left | right; right; intros k Hk; unfold keys in Hk; cbn in Hk; revert k Hk; apply Forall_forall; by_compute
           | right; left; unfold keys; cbn; by_compute]
    |injection H as <- H]).
  by destruct before.
Qed.
Example ex_run : log_of ex_regs (B "/api/user") = Ok [0; 1; 2; 3] /\
  log_of ex_regs (B "/api/user/x") = Ok [0; 1; 4] /\ log_of ex_regs (B "/api/us") = Ok [0; 1] /\
  log_of ex_regs (B "/g/y") = Ok [0; 5].
Proof. by vm_compute. Qed.
Example ex_group_lost :
  log_of [(B "/api", B "/x", noting 1); (B "/api", B "/x", noting 2)] (B "/api/x") = Ok [2].
Proof. by vm_compute. Qed.
