(** The router runs the entries of a table; the table and the registrations. *)
From Verif.Proof Require Export TrieProof.
From Verif.Spec Require Export RouterSpec.

Section proof.
Context {U : Type}.
Local Notation entry := (entry U).
Local Notation world := (world U).
Local Notation router := (router U).
Local Notation registration := (registration U).
Implicit Types (ro : router) (T : bytes -> list entry) (e : entry) (st : ctx * world).

(** ** The representation *)
Definition rep ro T : Prop :=
  wf_root (ro_trie ro) /\
  (forall k, match contents (ro_trie ro) k with
             | Some i => exists v, ro_heap ro !! i = Some v /\ v <> [] /\ T k = v
             | None => T k = []
             end) /\
  (forall k k' i, contents (ro_trie ro) k = Some i -> contents (ro_trie ro) k' = Some i -> k = k').

Lemma rep_new : rep router_new (fun _ => []).
Proof.
  split; [apply wf_root_new|]. split.
  - intros k. cbn [router_new ro_trie]. by rewrite contents_new.
  - intros k k' i. cbn [router_new ro_trie]. by rewrite contents_new.
Qed.

Lemma rep_some ro T k : rep ro T -> is_Some (contents (ro_trie ro) k) <-> T k <> [].
Proof.
  intros (_ & Hc & _). specialize (Hc k). destruct (contents (ro_trie ro) k) as [i|].
  - destruct Hc as (v & _ & Hv & ->). naive_solver.
  - rewrite Hc. split; [by intros []|done].
Qed.

Lemma rep_leads ro T path c i :
  rep ro T -> contents (ro_trie ro) c = Some i ->
  leads_to (fun k => T k <> []) path c ->
  if decide (path = []) then contents (ro_trie ro) [] = Some i
  else resolves (contents (ro_trie ro)) path i.
Proof.
  intros Hr Hi [Hc Hl]. destruct (decide (path = [])) as [->|Hne].
  - by subst.
  - destruct Hl as [Hp Hall]. exists c. split; [done|]. split; [done|].
    intros c' Hc' Hp'. apply Hall; [|done]. by apply (rep_some ro).
Qed.

Lemma leads_rep ro T path i :
  rep ro T ->
  (if decide (path = []) then contents (ro_trie ro) [] = Some i
   else resolves (contents (ro_trie ro)) path i) ->
  exists c, contents (ro_trie ro) c = Some i /\ leads_to (fun k => T k <> []) path c.
Proof.
  intros Hr. unfold leads_to. destruct (decide (path = [])) as [->|Hne].
  - intros Hi. exists []. split; [done|]. split; [|done]. apply (rep_some ro); eauto.
  - intros (c & Hp & Hi & Hall). exists c. split; [done|].
    split; [apply (rep_some ro); eauto|]. split; [done|].
    intros c' Hc' Hp'. apply Hall; [|done]. by apply (rep_some ro T).
Qed.

Lemma register_rep ro T g path e :
  rep ro T -> ascii_only g -> ascii_only path ->
  exists ro', register g path e ro = Ok (kSuccess, ro') /\
    ((exists c, leads_to (fun k => T k <> []) path c /\
       rep ro' (fun k => if decide (k = c) then T c ++ [e] else T k)) \/
     ((forall c, ~ leads_to (fun k => T k <> []) path c) /\
       rep ro' (fun k => if decide (k = g ++ path) then [e] else T k))).
Proof.
  intros Hr Hg Hp. pose proof Hr as (Hwf & Hc & Hinj).
  destruct (trie_get_ok (ro_trie ro) path Hwf Hp) as (o & Hget & _ & Ho).
  unfold register. rewrite Hget. cbn [mbind outcome_bind]. destruct o as [i|].
  - destruct (leads_rep ro T path i Hr (proj1 (Ho i) eq_refl)) as (c & Hci & Hl).
    pose proof (Hc c) as Hcc. rewrite Hci in Hcc. destruct Hcc as (v & Hv & Hvn & HT).
    rewrite Hv. eexists. split; [done|]. left. exists c. split; [done|].
    split; [done|]. cbn [ro_trie ro_heap]. split; [|done].
    intros k. specialize (Hc k). destruct (contents (ro_trie ro) k) as [j|] eqn:Ej.
    + destruct (decide (k = c)) as [->|Hkc].
      * rewrite Hci in Ej. injection Ej as <-. exists (v ++ [e]).
        rewrite list_lookup_insert by (by eapply lookup_lt_Some).
        split; [done|]. split; [by destruct v|]. by rewrite HT.
      * destruct Hc as (v' & Hv' & Hn' & HT').
        exists v'. rewrite list_lookup_insert_ne; [done|]. intros ->. apply Hkc. by eapply Hinj.
    + destruct (decide (k = c)) as [->|Hkc]; [congruence|done].
  - assert (Hno : forall c, ~ leads_to (fun k => T k <> []) path c).
    { intros c Hl. pose proof Hl as [HTc _].
      apply (rep_some ro T) in HTc as [i Hi]; [|done].
      assert (None = Some i) by (apply Ho; by eapply rep_leads). done. }
    assert (Hgp : ascii_only (g ++ path)) by (by apply Forall_app).
    destruct (set_node_ok (ro_trie ro) (g ++ path) (length (ro_heap ro)) Hwf Hgp) as (t' & Hset & Hwf' & Hc').
    rewrite Hset. cbn [mbind outcome_bind]. eexists. split; [done|]. right. split; [done|].
    assert (Hlt : forall k i, contents (ro_trie ro) k = Some i -> i < length (ro_heap ro)).
    { intros k i Hk. specialize (Hc k). rewrite Hk in Hc. destruct Hc as (v & Hv & _).
      by eapply lookup_lt_Some. }
    split; [done|]. cbn [ro_trie ro_heap]. split.
    + intros k. rewrite Hc'. destruct (decide (k = g ++ path)) as [->|Hk].
      * exists [e]. rewrite list_lookup_middle by done. done.
      * specialize (Hc k). destruct (contents (ro_trie ro) k) as [i|] eqn:Ei; [|done].
        destruct Hc as (v & Hv & Hvn). exists v. by rewrite lookup_app_l by eauto.
    + intros k k' i. rewrite !Hc'. intros H1 H2.
      destruct (decide (k = g ++ path)) as [->|Hk], (decide (k' = g ++ path)) as [->|Hk']; try done.
      * injection H1 as <-. apply Hlt in H2. lia.
      * injection H2 as <-. apply Hlt in H1. lia.
      * by eapply Hinj.
Qed.

Lemma register_all_app l1 l2 ro :
  register_all (l1 ++ l2) ro = (r ← register_all l1 ro; register_all l2 r).
Proof.
  revert ro. induction l1 as [|[[g path] e] l1 IH]; intros ro; [done|].
  simpl. destruct (register g path e ro) as [[rc ro']| | | | |]; try done.
  cbn [mbind outcome_bind snd]. apply IH.
Qed.

Lemma register_all_table regs :
  ascii_registrations regs ->
  exists ro T, register_all regs router_new = Ok ro /\ rep ro T /\ table_after regs T.
Proof.
  induction regs as [|[[g path] e] regs IH] using rev_ind; intros Ha.
  - exists router_new, (fun _ => []). split; [done|]. split; [apply rep_new|constructor].
  - apply Forall_app in Ha as [Ha Hx]. apply Forall_cons in Hx as [[Hg Hp] _].
    destruct (IH Ha) as (ro & T & Hro & Hrep & HT).
    destruct (register_rep ro T g path e Hrep Hg Hp) as (ro' & Hreg & H).
    exists ro'. rewrite register_all_app, Hro. cbn [mbind outcome_bind register_all].
    cbn in Hg, Hp. rewrite Hreg. cbn [mbind outcome_bind snd].
    destruct H as [(c & Hl & Hrep')|[Hno Hrep']]; eexists; (split; [done|]); (split; [done|]);
      by constructor.
Qed.

(** ** Well placed registrations *)
Lemma leads_to_ext (K K' : bytes -> Prop) path c :
  (forall k, K k <-> K' k) -> leads_to K path c <-> leads_to K' path c.
Proof.
  intros H. unfold leads_to. rewrite H. destruct (decide (path = [])); [done|].
  naive_solver.
Qed.

Lemma leads_to_unique K path c c' : leads_to K path c -> leads_to K path c' -> c = c'.
Proof.
  unfold leads_to. destruct (decide (path = [])) as [->|]; [naive_solver|].
  intros (HK & Hp & H) (HK' & Hp' & H').
  pose proof (H c' HK' Hp'). pose proof (H' c HK Hp).
  by apply (anti_symm prefix).
Qed.

Lemma registered_snoc regs g path e k :
  registered (U:=U) (regs ++ [(g, path, e)]) k
    = registered regs k ++ (if decide (g ++ path = k) then [e] else []).
Proof.
  unfold registered. rewrite omap_app. f_equal. cbn. unfold reg_key. cbn.
  by destruct (decide (g ++ path = k)).
Qed.

Lemma registered_keys regs k : registered (U:=U) regs k <> [] <-> keys regs k.
Proof.
  induction regs as [|[[g path] e] regs IH] using rev_ind.
  - unfold keys. cbn. split; [done|]. intros H. by apply elem_of_nil in H.
  - rewrite registered_snoc. unfold keys in *. rewrite map_app, elem_of_app, <- IH. cbn.
    rewrite elem_of_list_singleton. unfold reg_key. cbn.
    destruct (decide (g ++ path = k)) as [->|Hk].
    + split; [by right|]. intros _. by destruct (registered regs k).
    + rewrite app_nil_r. naive_solver.
Qed.

Lemma table_registered regs T :
  table_after (U:=U) regs T -> all_well_placed regs -> forall k, T k = registered regs k.
Proof.
  induction 1 as [|regs T g path e c HT IH Hl|regs T g path e HT IH Hno]; intros Hw k.
  - done.
  - assert (Hw' : all_well_placed regs).
    { intros before x after ->. eapply Hw. by rewrite <- app_assoc. }
    specialize (IH Hw'). specialize (Hw regs _ [] eq_refl). cbn in Hw.
    assert (Hext : forall k, T k <> [] <-> keys regs k).
    { intros k'. rewrite IH. apply registered_keys. }
    apply (leads_to_ext _ (keys regs)) in Hl; [|done].
    destruct Hw as [Hw|[Hw _]]; [|by destruct (Hw c)].
    assert (c = g ++ path) as -> by by eapply leads_to_unique.
    rewrite registered_snoc. destruct (decide (k = g ++ path)) as [->|Hk].
    + by rewrite decide_True, IH.
    + rewrite decide_False by done. by rewrite app_nil_r, IH.
  - assert (Hw' : all_well_placed regs).
    { intros before x after ->. eapply Hw. by rewrite <- app_assoc. }
    specialize (IH Hw'). specialize (Hw regs _ [] eq_refl). cbn in Hw.
    assert (Hext : forall k, T k <> [] <-> keys regs k).
    { intros k'. rewrite IH. apply registered_keys. }
    destruct Hw as [Hw|[_ Hnew]].
    { exfalso. eapply Hno. eapply leads_to_ext; [|exact Hw]. done. }
    rewrite registered_snoc. destruct (decide (k = g ++ path)) as [->|Hk].
    + rewrite decide_True by done. rewrite <- registered_keys in Hnew.
      destruct (registered regs (g ++ path)); [done|]. exfalso. by apply Hnew.
    + rewrite decide_False by done. by rewrite app_nil_r, IH.
Qed.

(** ** Running *)
Lemma run_vector_end v st :
  forall is_end, run_vector v is_end st
    = run_vector (List.filter (fun e => negb (e_exact e) || is_end) v) true st.
Proof.
  revert st. induction v as [|e v IH]; intros st is_end; [done|].
  cbn [List.filter]. destruct (negb (e_exact e) || is_end) eqn:E.
  - cbn [run_vector negb andb]. replace (negb is_end && e_exact e) with false
      by (by destruct is_end, (e_exact e)).
    destruct (if accepts e (cx_req st.1) then e_callback e else None) as [cb|]; [|apply IH].
    destruct (cb st.1 st.2) as [st'| | | | |]; try done. cbn [mbind outcome_bind].
    destruct (w_running st'.2); [apply IH|done].
  - cbn [run_vector]. replace (negb is_end && e_exact e) with true
      by (by destruct is_end, (e_exact e)). apply IH.
Qed.

Lemma run_vector_app l1 l2 st :
  run_vector (l1 ++ l2) true st =
  (r ← run_vector l1 true st; if r.2 : bool then run_vector l2 true r.1 else Ok r).
Proof.
  revert st. induction l1 as [|e l1 IH]; intros st; [done|].
  cbn [run_vector negb andb app].
  destruct (if accepts e (cx_req st.1) then e_callback e else None) as [cb|]; [|apply IH].
  destruct (cb st.1 st.2) as [st'| | | | |]; try done. cbn [mbind outcome_bind].
  destruct (w_running st'.2); [apply IH|done].
Qed.

Lemma dispatch_cb_table ro T k st i b :
  rep ro T -> contents (ro_trie ro) k = Some i ->
  dispatch_cb (ro_heap ro) st i b = run_vector (T k) b st.
Proof.
  intros (_ & Hc & _) Hi. specialize (Hc k). rewrite Hi in Hc.
  destruct Hc as (v & Hv & _ & HT). unfold dispatch_cb. by rewrite Hv, HT.
Qed.

Lemma dispatch_table ro T p c w :
  rep ro T -> ascii_only p ->
  dispatch ro p c w = (r ← run_vector (concerning T p) true (c, w); Ok r.1).
Proof.
  intros Hrep Hp. unfold dispatch. pose proof Hrep as (Hwf & Hc & _).
  rewrite search_node_ok by done. unfold stored_prefixes, concerning.
  generalize (seq 0 (S (length p))) as l. generalize (c, w) as st. intros st l. revert st.
  induction l as [|i l IH]; intros st; [done|].
  cbn [flat_map]. rewrite run_vector_app.
  assert (Ho : omap (fun i => v ← contents (ro_trie ro) (take i p); Some (v, bool_decide (i = length p))) (i :: l)
    = match contents (ro_trie ro) (take i p) with
      | Some v => (v, bool_decide (i = length p)) ::
          omap (fun i => v ← contents (ro_trie ro) (take i p); Some (v, bool_decide (i = length p))) l
      | None => omap (fun i => v ← contents (ro_trie ro) (take i p); Some (v, bool_decide (i = length p))) l
      end).
  { cbn. by destruct (contents (ro_trie ro) (take i p)). }
  rewrite Ho. clear Ho. destruct (contents (ro_trie ro) (take i p)) as [j|] eqn:Ej.
  - cbn [call_until_stop].
    rewrite (dispatch_cb_table ro T (take i p) st j _ Hrep Ej), run_vector_end.
    replace (bool_decide (i = length p)) with (i =? length p)
      by (destruct (Nat.eqb_spec i (length p)); by case_bool_decide).
    destruct (run_vector _ true st) as [[st' []]| | | | |]; try done. cbn [mbind outcome_bind fst snd].
    apply IH.
  - specialize (Hc (take i p)). rewrite Ej in Hc. rewrite Hc. cbn [List.filter run_vector mbind outcome_bind fst snd].
    apply IH.
Qed.

Lemma accepts_true e r : accepts e r = true <-> forall f, f ∈ e_filters e -> f r = true.
Proof.
  unfold accepts. rewrite forallb_forall. split; intros H f Hf; apply H; by apply elem_of_list_In.
Qed.
Lemma accepts_false e r : accepts e r = false <-> exists f, f ∈ e_filters e /\ f r = false.
Proof.
  unfold accepts. induction (e_filters e) as [|f l IH]; cbn.
  - split; [done|]. intros (f & Hf & _). by apply elem_of_nil in Hf.
  - destruct (f r) eqn:E; cbn.
    + rewrite IH. split; intros (f' & Hf & ?).
      * exists f'. by rewrite elem_of_cons; auto.
      * apply elem_of_cons in Hf as [->|Hf]; [congruence|]. eauto.
    + split; [|done]. intros _. exists f. split; [apply elem_of_list_here|done].
Qed.

Lemma run_chain l st : chain l st (r ← run_vector l true st; Ok r.1).
Proof.
  revert st. induction l as [|e l IH]; intros st; [constructor|].
  cbn [run_vector negb andb].
  destruct (accepts e (cx_req st.1)) eqn:Ea.
  - destruct (e_callback e) as [cb|] eqn:Ecb; [|by apply chain_null].
    pose proof (proj1 (accepts_true _ _) Ea) as Hf.
    destruct (cb st.1 st.2) as [st'| | | | |] eqn:Er; cbn [mbind outcome_bind];
      try (by eapply chain_failed; [done|done|done|intros []]).
    destruct (w_running st'.2) eqn:Ew.
    + by eapply chain_called.
    + cbn [mbind outcome_bind fst]. by eapply chain_stopped.
  - apply accepts_false in Ea as (f & Hf & Hr). by eapply chain_rejected.
Qed.

Lemma chain_det l st r1 r2 : chain (U:=U) l st r1 -> chain l st r2 -> r1 = r2.
Proof.
  intros H. revert r2.
  induction H as [st|e f l st r Hf Hr H IH|e l st r Hn H IH|e h l st st' r Hc Ha Hs Hw H IH
    |e h l st st' Hc Ha Hs Hw|e h l st r Hc Ha Hs Hn]; intros r2 H2; inversion H2; subst;
    try done; try (by apply IH);
    repeat match goal with
    | A : e_callback e = Some ?h1, B : e_callback e = Some ?h2 |- _ =>
        rewrite A in B; injection B as ->
    | A : e_callback e = Some _, B : e_callback e = None |- _ => congruence
    | A : forall f, f ∈ e_filters e -> _, B : ?f ∈ e_filters e, C : ?f _ = false |- _ =>
        rewrite (A f B) in C; discriminate
    | A : ?x = Ok ?a, B : ?x = Ok ?b |- _ => rewrite A in B; injection B as ->
    end; try congruence; try (by apply IH);
    try (exfalso; match goal with A : ~ is_ok _ |- _ => apply A end; by eexists).
Qed.

(** If every entry before position [n] behaves (keeps the server running and the
    request as it is) and the [n]-th one accepts the request, it is called. *)
Definition benign (h : handler U) : Prop := forall c w, exists c' w',
  h c w = Ok (c', w') /\ cx_req c' = cx_req c /\ w_running w' = w_running w.

Lemma called_if l n e c w :
  l !! n = Some e -> e_callback e <> None -> accepts e (cx_req c) = true -> w_running w = true ->
  Forall (fun e => forall h, e_callback e = Some h -> benign h) (take n l) ->
  exists st', called l (c, w) n st' /\ cx_req st'.1 = cx_req c.
Proof.
  revert n c w. induction l as [|x l IH]; intros n c w Hn He Ha Hw Hb; [done|].
  destruct n as [|n].
  - injection Hn as ->. destruct (e_callback e) as [h|] eqn:E; [|done].
    exists (c, w). split; [|done]. eapply called_here; [done|]. by apply accepts_true.
  - cbn in Hn, Hb. apply Forall_cons in Hb as [Hx Hb].
    destruct (e_callback x) as [h|] eqn:E.
    2: { destruct (IH n c w Hn He Ha Hw Hb) as (st' & Hc & Hq). exists st'. split; [|done].
         by apply called_null. }
    destruct (accepts x (cx_req c)) eqn:Ax.
    + destruct (Hx h eq_refl c w) as (c' & w' & Hr & Hq & Hrun).
      destruct (IH n c' w' Hn He) as (st' & Hc & Hq'); [by rewrite Hq|congruence|done|].
      exists st'. split; [|congruence].
      eapply called_later; [done|by apply accepts_true|exact Hr|cbn; congruence|done].
    + apply accepts_false in Ax as (f & Hf & Hfr).
      destruct (IH n c w Hn He Ha Hw Hb) as (st' & Hc & Hq). exists st'. split; [|done].
      by eapply called_rejected.
Qed.

Lemma called_entry l st n st' :
  called (U:=U) l st n st' -> exists e h, l !! n = Some e /\ e_callback e = Some h /\ forall f, f ∈ e_filters e -> f (cx_req st'.1) = true.
Proof. induction 1; cbn; eauto. Qed.

(** A property of the world that every handler keeps, after a call of a handler
    that establishes it. *)
Lemma chain_keeps (P : world -> Prop) l st r :
  chain l st r -> (forall e h c w c' w', e ∈ l -> e_callback e = Some h -> h c w = Ok (c', w') -> P w -> P w') ->
  P st.2 -> forall c' w', r = Ok (c', w') -> P w'.
Proof.
  induction 1 as [st|e f l st r Hf Hr H IH|e l st r Hn H IH|e h l st st' r Hc Ha Hs Hw H IH
    |e h l st st' Hc Ha Hs Hw|e h l st r Hc Ha Hs Hn]; intros Hk HP c' w' Hres; subst.
  - by injection Hres as ->.
  - eapply IH; [|done|done]. intros. eapply Hk; [by apply elem_of_list_further|..]; done.
  - eapply IH; [|done|done]. intros. eapply Hk; [by apply elem_of_list_further|..]; done.
  - eapply IH; [|..|done]. + intros. eapply Hk; [by apply elem_of_list_further|..]; done.
    + destruct st' as [c1 w1]. eapply Hk; [apply elem_of_list_here|done|done|done].
  - destruct st' as [c1 w1]. injection Hres as <- <-.
    eapply Hk; [apply elem_of_list_here|done|done|done].
  - exfalso. apply Hn. rewrite Hres. by eexists.
Qed.

Lemma chain_marks (P : world -> Prop) l st r n st' e h :
  chain l st r -> called l st n st' -> l !! n = Some e -> e_callback e = Some h ->
  (forall c w c' w', h c w = Ok (c', w') -> P w') ->
  (forall e h c w c' w', e ∈ l -> e_callback e = Some h -> h c w = Ok (c', w') -> P w -> P w') ->
  forall c' w', r = Ok (c', w') -> P w'.
Proof.
  intros Hch Hcall. revert r Hch. induction Hcall as [e0 h0 l st Hc Ha|e0 f l st n st' Hf Hr H IH
    |e0 l st n st' Hn H IH|e0 h0 l st st1 n st' Hc Ha Hs Hw H IH];
    intros r Hch Hn0 Hh Hmark Hk c' w' Hres; subst; cbn in Hn0.
  - injection Hn0 as ->. rewrite Hh in Hc. injection Hc as ->.
    inversion Hch; subst;
      repeat match goal with
      | A : e_callback e = Some _, B : e_callback e = Some _ |- _ => rewrite A in B; injection B as <-
      | A : forall f, f ∈ e_filters e -> _, B : ?f ∈ e_filters e, C : ?f _ = false |- _ =>
          rewrite (A f B) in C; discriminate
      end; try congruence.
    + match goal with A : h0 _ _ = Ok ?s |- _ => destruct s as [c1 w1] end.
      eapply chain_keeps; [eassumption| |cbn; by eapply Hmark|done].
      intros. eapply Hk; [by apply elem_of_list_further|..]; done.
    + by eapply Hmark.
    + match goal with A : ~ is_ok _ |- _ => exfalso; apply A end.
      by eexists.
  - inversion Hch; subst;
      repeat match goal with
      | A : forall f, f ∈ e_filters e0 -> _, B : ?f ∈ e_filters e0, C : ?f _ = false |- _ =>
          rewrite (A f B) in C; discriminate
      end; (eapply IH; [eassumption|done|done|done| |done]);
      intros; (eapply Hk; [by apply elem_of_list_further|..]; done).
  - inversion Hch; subst; try congruence;
      (eapply IH; [eassumption|done|done|done| |done]);
      intros; (eapply Hk; [by apply elem_of_list_further|..]; done).
  - inversion Hch; subst;
      repeat match goal with
      | A : e_callback e0 = Some _, B : e_callback e0 = Some _ |- _ => rewrite A in B; injection B as <-
      | A : forall f, f ∈ e_filters e0 -> _, B : ?f ∈ e_filters e0, C : ?f _ = false |- _ =>
          rewrite (A f B) in C; discriminate
      | A : ?x = Ok ?a, B : ?x = Ok ?b |- _ => rewrite A in B; injection B as <-
      end; try congruence.
    + eapply IH; [eassumption|done|done|done| |done].
      intros; (eapply Hk; [by apply elem_of_list_further|..]; done).
    + exfalso. match goal with A : ~ is_ok _ |- _ => apply A end. by eexists.
Qed.
End proof.
