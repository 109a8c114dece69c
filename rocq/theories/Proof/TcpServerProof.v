(** Invariants of the event loop of TcpServer. *)
From Verif.Spec Require Export TcpServerSpec.

Local Open Scope Z_scope.

(** ** Connections in the kernel *)
Definition conn_id (k : kern) (fd : Z) : option nat :=
  match k_fds k !! fd with Some (DConn c) => Some (cn_id c) | _ => None end.
Definition bl (k : kern) : list nat := cn_id <$> k_backlog k.

Lemma conn_id_set k fd d f :
  conn_id (k_set k fd d) f = if decide (f = fd) then match d with DConn c => Some (cn_id c) | _ => None end else conn_id k f.
Proof.
  unfold conn_id, k_set. simpl. case_decide as H; [subst; by rewrite lookup_insert|by rewrite lookup_insert_ne].
Qed.
Lemma conn_id_close k fd f : conn_id (k_close k fd) f = if decide (f = fd) then None else conn_id k f.
Proof.
  unfold conn_id, k_close. simpl. case_decide as H; [subst; by rewrite lookup_delete|by rewrite lookup_delete_ne].
Qed.
Lemma conn_id_update k g id f : (∀ c, cn_id (g c) = cn_id c) → conn_id (k_update k g id) f = conn_id k f.
Proof.
  intros Hg. unfold conn_id, k_update. simpl. rewrite lookup_fmap.
  destruct (k_fds k !! f) as [[]|]; simpl; try done. unfold on_conn. case_decide; [by rewrite Hg|done].
Qed.
Lemma bl_update k g id : (∀ c, cn_id (g c) = cn_id c) → bl (k_update k g id) = bl k.
Proof.
  intros Hg. unfold bl, k_update. simpl. rewrite <- list_fmap_compose. apply list_fmap_ext. intros ? c _. simpl.
  unfold on_conn. case_decide; [by rewrite Hg|done].
Qed.
Lemma fds_update k g id fd d : (∀ c, d ≠ DConn c) → k_fds (k_update k g id) !! fd = Some d ↔ k_fds k !! fd = Some d.
Proof.
  intros Hd. simpl. rewrite lookup_fmap. destruct (k_fds k !! fd) as [[]|]; simpl; try done.
  split; intros [=]; naive_solver.
Qed.
Lemma fds_update_none k g id fd : k_fds (k_update k g id) !! fd = None ↔ k_fds k !! fd = None.
Proof. simpl. rewrite lookup_fmap. by destruct (k_fds k !! fd). Qed.
Lemma id_at_conn k s : so_status s = kInit → id_at k s = conn_id k (so_fd s).
Proof. intros H. unfold id_at. by rewrite decide_True. Qed.
Lemma id_at_none k s : so_status s ≠ kInit → id_at k s = None.
Proof. intros H. unfold id_at. by rewrite decide_False. Qed.

(** ** Traces *)
Lemma calls_app id t1 t2 : calls id (t1 ++ t2) = calls id t1 ++ calls id t2.
Proof. apply omap_app. Qed.
Lemma closes_app id t1 t2 : closes id (t1 ++ t2) = (closes id t1 + closes id t2)%nat.
Proof. unfold closes. by rewrite List.filter_app, app_length. Qed.
(** Nothing about connections. *)
Definition neutral (t : entry) : Prop :=
  match t with
  | TAccepted _ _ => False | TCall _ _ (Some _) => False | TClose _ (Some (DConn _)) => False | _ => True
  end.
Lemma neutral_calls tr id : Forall neutral tr → calls id tr = [].
Proof. induction 1 as [|t tr Ht HF IH]; [done|]. unfold calls in *. simpl. by destruct t as [| | |? ? []|]. Qed.
Lemma neutral_closes tr id : Forall neutral tr → closes id tr = 0%nat.
Proof. induction 1 as [|t tr Ht HF IH]; [done|]. unfold closes in *. simpl. by destruct t as [| | | |? [[]|]]. Qed.
Lemma neutral_accepted tr id : Forall neutral tr → ¬ accepted id tr.
Proof. intros HF [fd H]. rewrite Forall_forall in HF. by apply HF in H. Qed.
Lemma accepted_app id t1 t2 : accepted id (t1 ++ t2) ↔ accepted id t1 ∨ accepted id t2.
Proof. unfold accepted. setoid_rewrite elem_of_app. naive_solver. Qed.

(** ** What the callback has seen for a connection *)
Inductive stage : Type := Waiting | Live | Ended.
Definition good (strict : bool) (g : stage) (l : list event) : Prop :=
  match g with
  | Waiting => l = []
  | Live => ∃ n, l = kAccept :: replicate n kRead
  | Ended => (∃ n e, (e = kLeave ∨ e = kError) ∧ l = kAccept :: replicate n kRead ++ [e]) ∨ (strict = false ∧ l = [kError])
  end.
Lemma good_protocol g l : good true g l → protocol l.
Proof.
  destruct g; simpl.
  - by left.
  - intros [n ->]. right. exists n, []. rewrite app_nil_r. auto.
  - intros [(n & e & He & ->)|[? _]]; [|done]. right. exists n, [e]. destruct He as [->| ->]; auto.
Qed.
Lemma good_read b l : good b Live l → good b Live (l ++ [kRead]).
Proof.
  intros [n ->]. exists (S n). simpl. f_equal. clear. induction n; simpl; [done|]. by rewrite IHn.
Qed.
Lemma good_end b l e : e = kLeave ∨ e = kError → good b Live l → good b Ended (l ++ [e]).
Proof. intros He [n ->]. left. by exists n, e. Qed.

Record KI (b : bool) (stg : Z → stage) (k : kern) (tr : list entry) : Prop := {
  ki_conn fd id : conn_id k fd = Some id →
    0 <= fd ∧ (id < k_next k)%nat ∧ id ∉ bl k ∧ closes id tr = 0%nat ∧ good b (stg fd) (calls id tr) ∧ accepted id tr;
  ki_inj f1 f2 id : conn_id k f1 = Some id → conn_id k f2 = Some id → f1 = f2;
  ki_nodup : NoDup (bl k);
  ki_bl id : id ∈ bl k → (id < k_next k)%nat ∧ calls id tr = [] ∧ closes id tr = 0%nat ∧ ¬ accepted id tr;
  ki_new id : (k_next k ≤ id)%nat → calls id tr = [] ∧ closes id tr = 0%nat ∧ ¬ accepted id tr;
  ki_gone id : (id < k_next k)%nat → id ∉ bl k → (∀ fd, conn_id k fd ≠ Some id) →
    (closes id tr = 1%nat ∧ accepted id tr ∧ ∃ g, good b g (calls id tr)) ∨ (closes id tr = 0%nat ∧ calls id tr = [] ∧ ¬ accepted id tr) }.

Lemma KI_ext b stg stg' k k' tr tr' :
  KI b stg k tr → (∀ fd, conn_id k' fd = conn_id k fd) → bl k' = bl k → k_next k' = k_next k → Forall neutral tr' →
  (∀ fd id, conn_id k fd = Some id → stg' fd = stg fd) → KI b stg' k' (tr ++ tr').
Proof.
  intros [H1 H2 H3 H4 H5 H6] Hc Hb Hn HF Hs.
  assert (∀ id, calls id (tr ++ tr') = calls id tr) as Ec by (intros; by rewrite calls_app, (neutral_calls tr'), app_nil_r).
  assert (∀ id, closes id (tr ++ tr') = closes id tr) as Ex by (intros; by rewrite closes_app, (neutral_closes tr'), Nat.add_0_r).
  assert (∀ id, accepted id (tr ++ tr') ↔ accepted id tr) as Ea.
  { intros. rewrite accepted_app. pose proof (neutral_accepted _ id HF). naive_solver. }
  split; intros *; rewrite ?Hc, ?Hb, ?Hn, ?Ec, ?Ex, ?Ea; try done; eauto.
  - intros H. erewrite Hs by done. eauto.
  - setoid_rewrite Hc. eauto.
Qed.
(** Like [KI_ext], nothing in the trace. *)
Lemma KI_same b stg stg' k k' tr :
  KI b stg k tr → (∀ fd, conn_id k' fd = conn_id k fd) → bl k' = bl k → k_next k' = k_next k →
  (∀ fd id, conn_id k fd = Some id → stg' fd = stg fd) → KI b stg' k' tr.
Proof. intros. rewrite <- (app_nil_r tr). eapply KI_ext; eauto. Qed.

Lemma KI_connect b stg k tr fin : KI b stg k tr → KI b stg (k_connect k fin) tr.
Proof.
  intros [H1 H2 H3 H4 H5 H6].
  assert (bl (k_connect k fin) = bl k ++ [k_next k]) as Eb by (unfold bl; simpl; by rewrite fmap_app).
  assert (k_next k ∉ bl k) as Hf by (intros H; apply H4 in H as [? _]; lia).
  split; intros *; rewrite ?Eb.
  - intros H. apply H1 in H as (? & ? & ? & ? & ? & ?). simpl. split_and!; try done; try lia.
    rewrite elem_of_app, elem_of_list_singleton. intros [?| ->]; [done|lia].
  - apply H2.
  - apply NoDup_app. split_and!; [done| |apply NoDup_singleton]. intros x Hx ->%elem_of_list_singleton. done.
  - rewrite elem_of_app, elem_of_list_singleton. intros [H| ->]; simpl.
    + apply H4 in H as (? & ? & ?). split; [lia|done].
    + destruct (H5 (k_next k)) as (? & ? & ?); [lia|]. split; [lia|done].
  - simpl. intros H. apply H5. lia.
  - simpl. rewrite elem_of_app, elem_of_list_singleton. intros H Hb Hc.
    apply H6; [|naive_solver|done]. assert (id ≠ k_next k) by naive_solver. lia.
Qed.

Lemma KI_unqueue b stg k tr : KI b stg k tr → KI b stg (k_queue k []) tr.
Proof.
  intros [H1 H2 H3 H4 H5 H6]. split; simpl.
  - intros fd id H. apply H1 in H as (? & ? & ? & ?). split_and!; try done; try lia; try tauto. set_solver.
  - apply H2.
  - constructor.
  - intros id H. by apply elem_of_nil in H.
  - apply H5.
  - intros id Hi _ Hc. destruct (decide (id ∈ bl k)) as [Hin|Hin].
    + right. apply H4 in Hin. tauto.
    + by apply H6.
Qed.

Lemma accept_inv k fd c k' : accept_as k fd = Some (c, k') →
  0 <= fd ∧ k_fds k !! fd = None ∧ ∃ r, k_backlog k = c :: r ∧ k' = k_set (k_queue k r) fd (DConn c).
Proof.
  unfold accept_as. destruct (k_backlog k) as [|c0 r] eqn:Eb; [done|]. case_decide as Hd; [|done].
  destruct (k_fds k !! fd) eqn:E; [done|]. intros [=<- <-]. eauto.
Qed.
Lemma KI_accept b stg stg' k tr tr' fd c k' :
  KI b stg k tr → accept_as k fd = Some (c, k') → Forall neutral tr' → stg' fd = Waiting →
  (∀ f id, conn_id k f = Some id → stg' f = stg f) →
  KI b stg' k' (tr ++ tr' ++ [TAccepted fd (cn_id c)]) ∧ conn_id k' fd = Some (cn_id c) ∧ conn_id k fd = None.
Proof.
  intros [H1 H2 H3 H4 H5 H6] (Hfd & Hn & r & Hb & ->)%accept_inv HF Hst Hs.
  assert (conn_id k fd = None) as Hc by (unfold conn_id; by rewrite Hn).
  assert (bl k = cn_id c :: bl (k_queue k r)) as Eb by (unfold bl; by rewrite Hb).
  assert (bl (k_set (k_queue k r) fd (DConn c)) = bl (k_queue k r)) as Eb' by done.
  rewrite Eb in H3. apply NoDup_cons in H3 as [H3 H3'].
  destruct (H4 (cn_id c)) as (Hlt & Hc0 & Hx0 & Ha0); [rewrite Eb; set_solver|].
  assert (∀ id, calls id (tr ++ tr' ++ [TAccepted fd (cn_id c)]) = calls id tr) as Ec.
  { intros. rewrite !calls_app, (neutral_calls tr') by done. apply app_nil_r. }
  assert (∀ id, closes id (tr ++ tr' ++ [TAccepted fd (cn_id c)]) = closes id tr) as Ex.
  { intros. rewrite !closes_app, (neutral_closes tr') by done. unfold closes at 2. simpl. lia. }
  assert (∀ id, accepted id (tr ++ tr' ++ [TAccepted fd (cn_id c)]) ↔ accepted id tr ∨ id = cn_id c) as Ea.
  { intros. rewrite !accepted_app. pose proof (neutral_accepted _ id HF).
    assert (accepted id [TAccepted fd (cn_id c)] ↔ id = cn_id c).
    { unfold accepted. setoid_rewrite elem_of_list_singleton. naive_solver. } naive_solver. }
  split; [|split; [rewrite conn_id_set, decide_True; done|done]].
  split; intros *; rewrite ?Ec, ?Ex, ?Ea, ?Eb'.
  - rewrite conn_id_set. case_decide as Hd.
    + intros [= <-]. subst. rewrite Hst. simpl. split_and!; try done. by right.
    + intros H. erewrite Hs by done. apply H1 in H as (? & ? & Hb' & ? & ? & ?). rewrite Eb in Hb'. simpl.
      split_and!; try done; [|by left]. set_solver.
  - rewrite !conn_id_set. repeat case_decide; subst; try done; try by apply H2.
    + intros [= <-] Hq. apply H1 in Hq as (_ & _ & Hb' & _). rewrite Eb in Hb'. set_solver.
    + intros Hq [= <-]. apply H1 in Hq as (_ & _ & Hb' & _). rewrite Eb in Hb'. set_solver.
  - done.
  - intros H. destruct (H4 id) as (? & ? & ? & ?); [rewrite Eb; set_solver|]. simpl. split_and!; try done.
    intros [?| ->]; done.
  - simpl. intros H. destruct (H5 id H) as (? & ? & ?). split_and!; try done. intros [?| ->]; [done|lia].
  - simpl. intros Hi Hb' Hf.
    assert (id ≠ cn_id c) as Hne. { intros ->. apply (Hf fd). by rewrite conn_id_set, decide_True. }
    destruct (H6 id Hi) as [(? & ? & ?)|(? & ? & ?)].
    + rewrite Eb. set_solver.
    + intros f Hf'. apply (Hf f). rewrite conn_id_set. case_decide; [subst; congruence|done].
    + left. split_and!; try done. by left.
    + right. split_and!; try done. naive_solver.
Qed.

Lemma calls_one id e s i : calls id [TCall e s (Some i)] = if decide (i = id) then [e] else [].
Proof. unfold calls. simpl. by case_decide. Qed.
(** The callback is called for the connection at [fd]. *)
Lemma KI_call b stg stg' k tr tr' fd id e s :
  KI b stg k tr → Forall neutral tr' → conn_id k fd = Some id → id_at k s = Some id →
  good b (stg' fd) (calls id tr ++ [e]) → (∀ f i, f ≠ fd → conn_id k f = Some i → stg' f = stg f) →
  KI b stg' k (tr ++ tr' ++ [call k e s]).
Proof.
  intros [H1 H2 H3 H4 H5 H6] HF Hfd Hat Hg Hs. unfold call. rewrite Hat.
  assert (∀ i, calls i (tr ++ tr' ++ [TCall e s (Some id)]) = calls i tr ++ if decide (id = i) then [e] else []) as Ec.
  { intros. by rewrite !calls_app, (neutral_calls tr'), calls_one. }
  assert (∀ i, closes i (tr ++ tr' ++ [TCall e s (Some id)]) = closes i tr) as Ex.
  { intros. rewrite !closes_app, (neutral_closes tr') by done. unfold closes at 2. simpl. lia. }
  assert (∀ i, accepted i (tr ++ tr' ++ [TCall e s (Some id)]) ↔ accepted i tr) as Ea.
  { intros. rewrite !accepted_app. pose proof (neutral_accepted _ i HF).
    assert (¬ accepted i [TCall e s (Some id)]).
    { unfold accepted. setoid_rewrite elem_of_list_singleton. naive_solver. } naive_solver. }
  destruct (H1 _ _ Hfd) as (A1 & A2 & A3 & A4 & A5 & A6).
  split; intros *; rewrite ?Ec, ?Ex, ?Ea; try done.
  - intros H. destruct (H1 _ _ H) as (? & ? & ? & ? & ? & ?). case_decide as Hd.
    + subst. assert (fd0 = fd) as -> by eauto. split_and!; done.
    + rewrite app_nil_r. erewrite Hs; [done| |done]. intros ->. congruence.
  - eauto.
  - intros H. rewrite decide_False; [rewrite app_nil_r; by apply H4|]. intros ->. by apply H1 in Hfd as (_ & _ & ? & _).
  - intros H. rewrite decide_False; [rewrite app_nil_r; by apply H5|]. intros ->. lia.
  - intros Hi Hb Hf. rewrite decide_False; [rewrite app_nil_r; by apply H6|]. intros ->. by apply (Hf fd).
Qed.
Lemma closes_one id fd c : closes id [TClose fd (Some (DConn c))] = if decide (cn_id c = id) then 1%nat else 0%nat.
Proof. unfold closes. simpl. case_decide; [rewrite bool_decide_true by done|rewrite bool_decide_false by done]; done. Qed.
(** The connection at [fd] is closed. *)
Lemma KI_close b stg stg' k tr fd id :
  KI b stg k tr → conn_id k fd = Some id → (∀ f i, f ≠ fd → conn_id k f = Some i → stg' f = stg f) →
  KI b stg' (k_close k fd) (tr ++ [TClose fd (k_fds k !! fd)]).
Proof.
  intros [H1 H2 H3 H4 H5 H6] Hfd Hs. destruct (H1 _ _ Hfd) as (A1 & A2 & A3 & A4 & A5 & A6).
  unfold conn_id in Hfd. destruct (k_fds k !! fd) as [[| |c| |]|] eqn:E; try done. injection Hfd as Hid.
  assert (conn_id k fd = Some id) as Hfd by (unfold conn_id; rewrite E; congruence).
  set (x := [TClose fd (Some (DConn c))]).
  assert (∀ i, calls i (tr ++ x) = calls i tr) as Ec by (intros; rewrite calls_app; apply app_nil_r).
  assert (∀ i, closes i (tr ++ x) = (closes i tr + if decide (id = i) then 1 else 0)%nat) as Ex.
  { intros. unfold x. by rewrite closes_app, closes_one, Hid. }
  assert (∀ i, accepted i (tr ++ x) ↔ accepted i tr) as Ea.
  { intros. rewrite !accepted_app. assert (¬ accepted i x).
    { unfold accepted, x. setoid_rewrite elem_of_list_singleton. naive_solver. } naive_solver. }
  clearbody x. split; intros *; rewrite ?Ec, ?Ex, ?Ea, ?conn_id_close; try done.
  - case_decide; [done|]. intros Hq. destruct (H1 _ _ Hq) as (? & ? & ? & ? & ? & ?).
    rewrite decide_False by (intros ->; naive_solver). rewrite Nat.add_0_r. erewrite Hs by done. done.
  - case_decide; [done|]. case_decide; [done|]. apply H2.
  - intros H. rewrite decide_False; [rewrite Nat.add_0_r; by apply H4|]. by intros ->.
  - intros H. rewrite decide_False; [rewrite Nat.add_0_r; by apply H5|]. simpl in H. intros ->. lia.
  - intros Hi Hb Hf. simpl in *. case_decide as Hd.
    + subst. left. rewrite A4. split_and!; [done|done|by eexists].
    + rewrite Nat.add_0_r. apply H6; [done|done|]. intros f Hf'. apply (Hf f). rewrite conn_id_close, decide_False; [done|].
      intros ->. congruence.
Qed.

(** ** The mode with one thread *)
Definition mstage (p : lpc) (fd : Z) : stage :=
  match p with
  | LMonitor s _ => if decide (fd = so_fd s) then Waiting else Live
  | LIn _ _ (KDrop f _) | LIn _ _ (KShut f _) | LDrop f _ | LShut f _ => if decide (fd = f) then Ended else Live
  | _ => Live
  end.
(** What the thread is busy with is not among the events that are left. *)
Definition mpc (k : kern) (p : lpc) : Prop :=
  match p with
  | LIn e own (KBatch evs) =>
      so_status own = kInit → is_Some (conn_id k (so_fd own)) ∧ so_fd own ∉ evs.*1
  | LIn e own (KDrop fd evs) | LIn e own (KShut fd evs) =>
      own = Sock fd kInit ∧ (e = kLeave ∨ e = kError) ∧ is_Some (conn_id k fd) ∧ fd ∉ evs.*1
  | LMonitor s evs => so_status s = kInit ∧ is_Some (conn_id k (so_fd s)) ∧ so_fd s ∉ evs.*1
  | LDrop fd evs | LShut fd evs => is_Some (conn_id k fd) ∧ fd ∉ evs.*1
  | LIn _ _ KQuit | LGot _ | LJoin => False
  | LTop | LWait | LSleep | LBatch _ | LRet _ => True
  end.
Definition mev (l : Z) (k : kern) (fd : Z) : Prop := fd = l ∨ is_Some (conn_id k fd).

Record mio (b : bool) (l e : Z) (s : st) : Prop := {
  m_mode : sv_mode (s_v s) = kIOMultiplexing;
  m_lis : so_fd (sv_lis (s_v s)) = l ∧ conn_id (s_k s) l = None;
  m_lis' : so_status (sv_lis (s_v s)) = kInit → k_fds (s_k s) !! l = Some DListen;
  m_ep : ∃ ep, sv_io (s_v s) = Some ep ∧ so_fd (ep_fd ep) = e ∧ l ≠ e ∧
           (so_status (ep_fd ep) = kInit → k_fds (s_k s) !! e = Some DEpoll);
  m_queue : s_queue s = [];
  m_workers i w : s_workers s !! i = Some w → w = VIdle;
  m_ki : KI b (mstage (s_loop s)) (s_k s) (s_trace s);
  m_watch fd t : k_watch (s_k s) !! fd = Some t → mev l (s_k s) fd;
  m_nodup : NoDup (pending (s_loop s)).*1;
  m_evs fd : fd ∈ (pending (s_loop s)).*1 → mev l (s_k s) fd;
  m_pc : mpc (s_k s) (s_loop s);
  m_stray : Forall (λ t, stray t = false) (s_trace s) }.

Lemma mpc_conn k k' p : (∀ fd, conn_id k' fd = conn_id k fd) → mpc k p → mpc k' p.
Proof. intros H. destruct p as [| | | | |? ? []| | | | |]; simpl; rewrite ?H; done. Qed.
Lemma mev_conn l k k' fd : (∀ fd, conn_id k' fd = conn_id k fd) → mev l k fd → mev l k' fd.
Proof. intros H. unfold mev. by rewrite H. Qed.

(** The kernel changes in a way that does not concern the server. *)
Lemma mio_kern b l e s v k :
  mio b l e s → sv_mode v = sv_mode (s_v s) → sv_lis v = sv_lis (s_v s) →
  (∃ ep ep', sv_io (s_v s) = Some ep ∧ sv_io v = Some ep' ∧ ep_fd ep' = ep_fd ep) →
  (∀ fd, conn_id k fd = conn_id (s_k s) fd) →
  (∀ fd d, d = DListen ∨ d = DEpoll → k_fds (s_k s) !! fd = Some d → k_fds k !! fd = Some d) →
  (∀ fd t, k_watch k !! fd = Some t → is_Some (k_watch (s_k s) !! fd)) →
  KI b (mstage (s_loop s)) k (s_trace s) → mio b l e (with_k s v k).
Proof.
  intros [] Hm Hl (ep & ep' & Ho & Hn & He) Hc Hf Hw HK.
  split; simpl; try done.
  - by rewrite Hm.
  - by rewrite Hl, Hc.
  - rewrite Hl. intros H. apply Hf; auto.
  - destruct m_ep0 as (ep0 & E & ? & ? & ?). rewrite Ho in E. injection E as <-. exists ep'. rewrite He. split_and!; try done.
    intros H'. apply Hf; auto.
  - intros fd t H. apply Hw in H as [t' Ht]. eapply mev_conn; eauto.
  - intros fd H. eapply mev_conn; eauto.
  - eapply mpc_conn; eauto.
Qed.

Lemma neutral_2 a b : neutral a → neutral b → Forall neutral [a; b].
Proof. intros. by repeat constructor. Qed.
Lemma stray_app t1 t2 : Forall (λ t, stray t = false) t1 → Forall (λ t, stray t = false) t2 →
  Forall (λ t, stray t = false) (t1 ++ t2).
Proof. intros. by apply Forall_app. Qed.

(** Several parts of the state stay as they are. *)
Lemma mio_upd b l e s k p tr :
  mio b l e s → 
  KI b (mstage p) k (s_trace s ++ tr) →
  conn_id k l = None →
  (∀ fd d, d = DListen ∨ d = DEpoll → k_fds (s_k s) !! fd = Some d → k_fds k !! fd = Some d) →
  (∀ fd t, k_watch k !! fd = Some t → mev l k fd) →
  NoDup (pending p).*1 → (∀ fd, fd ∈ (pending p).*1 → mev l k fd) → mpc k p →
  Forall (λ t, stray t = false) tr → mio b l e (upd s k p tr).
Proof.
  intros [] HK Hl Hf Hw Hn He Hp Ht. split; simpl; try done.
  - tauto.
  - intros H. apply Hf; auto.
  - destruct m_ep0 as (ep0 & E & ? & ? & ?). exists ep0. split_and!; try done. auto.
  - by apply stray_app.
Qed.

Lemma sock_of_fd_pos fd : 0 <= fd → sock_of_fd fd = Sock fd kInit.
Proof. intros H. unfold sock_of_fd. destruct (Z.ltb_spec fd 0); [lia|done]. Qed.
Lemma conn_pos b stg k tr fd id : KI b stg k tr → conn_id k fd = Some id → 0 <= fd.
Proof. intros H H1. by destruct (ki_conn _ _ _ _ H _ _ H1). Qed.

Lemma call_no_sock k e : call k e no_sock = TCall e no_sock None.
Proof. done. Qed.

Lemma mio_loop b l e s x s' :
  mio b l e s → (b = true → monitors s (GLoop x)) → loop_step s x = Some s' → mio b l e s'.
Proof.
  intros M Hmon H. pose proof M as [Hm [Hl Hlc] Hl' (ep & Ho & Hef & Hle & Hei) Hq Hw HK Hwa Hn He Hp Hst].
  unfold loop_step in H. rewrite Hm, Hl in H. unfold ep_of in H. rewrite Ho in H.
  assert (Hsame : ∀ p, (∀ fd id, conn_id (s_k s) fd = Some id → mstage p fd = mstage (s_loop s) fd) →
    NoDup (pending p).*1 → (∀ fd, fd ∈ (pending p).*1 → mev l (s_k s) fd) → mpc (s_k s) p →
    mio b l e (upd s (s_k s) p [])).
  { intros p H1 H2 H3 H4. apply mio_upd; try done.
    eapply KI_ext; eauto. }
  destruct (s_loop s) as [| | |evs|soc evs|e' own kk|fd evs|fd evs|soc| |rc] eqn:El; simpl in Hp; try done.
  - (* LTop *)
    destruct (ep_flag ep); injection H as <-; (apply Hsame; simpl; [done|constructor|intros ? H; by apply elem_of_nil in H|done]).
  - (* LWait *)
    case_decide; injection H as <-; (apply Hsame; simpl; [done|constructor|intros ? Hx; by apply elem_of_nil in Hx|done]).
  - (* LSleep *)
    destruct x as [fds| | | |]; try done.
    + destruct (batch_ok (s_k s) fds) eqn:Eb; [|done]. injection H as <-.
      unfold batch_ok in Eb. apply andb_true_iff in Eb as [Eb Ew]. apply andb_true_iff in Eb as [Eb _].
      apply andb_true_iff in Eb as [_ Ed]. apply bool_decide_eq_true in Ed. rewrite forallb_forall in Ew.
      assert ((map (λ fd, (fd, mask_of (s_k s) fd)) fds).*1 = fds) as E1.
      { clear. induction fds; simpl; [done|]. by f_equal. }
      apply mio_upd; try done.
      * eapply KI_ext; eauto; by repeat constructor.
      * simpl. by rewrite E1.
      * simpl. rewrite E1. intros fd Hfd. apply elem_of_list_In, Ew in Hfd. destruct (k_watch (s_k s) !! fd) eqn:E; [|done]. eauto.
      * by repeat constructor.
    + injection H as <-. apply Hsame; simpl; [done|constructor|intros ? Hx; by apply elem_of_nil in Hx|done].
  - (* LBatch *)
    destruct evs as [|[fd m] evs].
    { injection H as <-. apply Hsame; simpl; [done|constructor|intros ? Hx; by apply elem_of_nil in Hx|done]. }
    simpl in Hn, He. apply NoDup_cons in Hn as [Hn1 Hn2].
    assert (Hev : ∀ f, f ∈ evs.*1 → mev l (s_k s) f) by (intros; apply He; set_solver).
    destruct (decode m) as [io|]; [|injection H as <-; by apply Hsame].
    case_decide as Hfd.
    + subst fd. assert (Herr : mio b l e (upd s (s_k s) (LIn kError no_sock (KBatch evs)) [TNotify l io; call (s_k s) kError no_sock])).
      { apply mio_upd; try done.
        - eapply KI_ext; eauto; by repeat constructor.
        - by repeat constructor. }
      case_decide as Hop; [|by injection H as <-].
      destruct x as [| |fd'| |]; try done; [|by injection H as <-].
      destruct (accept_as (s_k s) fd') as [[c k']|] eqn:Ea; [|done]. injection H as <-.
      destruct (KI_accept b (mstage (LBatch ((l, m) :: evs))) (mstage (LMonitor (sock_of_fd fd') evs)) _ _ [TNotify l io] _ _ _ HK Ea)
        as (HK' & Hc' & Hc0); [by repeat constructor| | |].
      { simpl. apply accept_inv in Ea as (Hpos & _). rewrite sock_of_fd_pos by done. by rewrite decide_True. }
      { intros f id Hf. simpl. rewrite decide_False; [done|]. intros ->.
        apply accept_inv in Ea as (Hpos & Hnone & _). rewrite sock_of_fd_pos in Hf by done. simpl in Hf.
        unfold conn_id in Hf. by rewrite Hnone in Hf. }
      apply accept_inv in Ea as (Hpos & Hnone & r & Hb & ->).
      assert (Hold : ∀ f i, conn_id (s_k s) f = Some i → conn_id (k_set (k_queue (s_k s) r) fd' (DConn c)) f = Some i).
      { intros f i Hf. rewrite conn_id_set, decide_False; [done|]. intros ->. congruence. }
      assert (Hnl : fd' ≠ l) by (intros ->; destruct Hop as [_ Hop]; congruence).
      rewrite sock_of_fd_pos in * by done.
      apply mio_upd; try done.
      * rewrite conn_id_set, decide_False by done. done.
      * intros f d Hd Hf. simpl. rewrite lookup_insert_ne; [done|]. intros ->. congruence.
      * intros f t Ht. simpl in Ht. apply Hwa in Ht as [->|[i Hi]]; [by left|right; eauto].
      * intros f Hf. apply Hev in Hf as [->|[i Hi]]; [by left|right; eauto].
      * simpl. split; [done|]. split; [eauto|]. intros Hin. apply Hev in Hin as [->|[i Hi]]; [done|congruence].
      * by repeat constructor.
    + destruct (He fd) as [->|[id Hid]]; [set_solver|done|].
      pose proof (conn_pos _ _ _ _ _ _ HK Hid) as Hpos. rewrite sock_of_fd_pos in H by done.
      assert (id_at (s_k s) (Sock fd kInit) = Some id) as Hat by (by rewrite id_at_conn).
      assert (Hg : good b Live (calls id (s_trace s))) by (by apply (ki_conn _ _ _ _ HK) in Hid as (_ & _ & _ & _ & ? & _)).
      assert (Hend : ∀ ev, ev = kLeave ∨ ev = kError →
        mio b l e (upd s (s_k s) (LIn ev (Sock fd kInit) (KDrop fd evs)) [TNotify fd io; call (s_k s) ev (Sock fd kInit)])).
      { intros ev Hev'. apply mio_upd; try done.
        - apply (KI_call _ (mstage (LBatch ((fd, m) :: evs))) _ _ _ [TNotify fd io] fd id); try done; [by repeat constructor| |].
          + simpl. rewrite decide_True by done. by apply good_end.
          + intros f i Hne _. simpl. by rewrite decide_False.
        - by repeat constructor. }
      destruct io; [|injection H as <-; auto..]. injection H as <-. apply mio_upd; try done.
      * apply (KI_call _ (mstage (LBatch ((fd, m) :: evs))) _ _ _ [TNotify fd ioRead] fd id); try done; [by repeat constructor|].
        simpl. by apply (good_read b).
      * by repeat constructor.
  - (* LMonitor *)
    destruct Hp as (Hs1 & [id Hid] & Hs2). destruct soc as [fd status]. simpl in *. subst status.
    assert (Hg : calls id (s_trace s) = []).
    { apply (ki_conn _ _ _ _ HK) in Hid as (_ & _ & _ & _ & Hg & _). simpl in Hg. by rewrite decide_True in Hg. }
    destruct x as [| | | |]; try done.
    + case_decide; [|done]. injection H as <-.
      set (k' := k_add (s_k s) fd (ep_static_trigger ep)).
      assert (Hc : ∀ f, conn_id k' f = conn_id (s_k s) f) by done.
      assert (id_at k' (Sock fd kInit) = Some id) as Hat by (by rewrite id_at_conn).
      apply mio_upd; try done.
      * apply (KI_call _ (mstage (LMonitor (Sock fd kInit) evs)) _ _ _ [] fd id); try done.
        -- eapply KI_same; eauto.
        -- simpl. rewrite Hg. by exists 0%nat.
        -- intros f i Hne _. simpl. by rewrite decide_False.
      * intros f t Ht. simpl in Ht. destruct (decide (f = fd)) as [->|]; [right; by eexists|].
        rewrite lookup_insert_ne in Ht by done. eauto.
      * by repeat constructor.
    + injection H as <-.
      assert (id_at (s_k s) (Sock fd kInit) = Some id) as Hat by (by rewrite id_at_conn).
      apply mio_upd; try done.
      * apply (KI_call _ (mstage (LMonitor (Sock fd kInit) evs)) _ _ _ [] fd id); try done.
        -- simpl. rewrite decide_True by done. rewrite Hg. right. split; [|done]. destruct b; [|done].
           specialize (Hmon eq_refl). unfold monitors in Hmon. by rewrite El in Hmon.
        -- intros f i Hne _. simpl. by rewrite !decide_False.
      * simpl. split_and!; try done; by right.
      * by repeat constructor.
  - (* LDrop *)
    injection H as <-. apply mio_upd; try done.
    + eapply KI_ext; eauto.
    + intros f t Ht. simpl in Ht. apply lookup_delete_Some in Ht as [_ Ht]. apply Hwa in Ht. done.
  - (* LShut *)
    injection H as <-. destruct Hp as ([id Hid] & Hs2). apply mio_upd; try done.
    + eapply KI_close; eauto. intros f i Hne _. simpl. by rewrite decide_False.
    + rewrite conn_id_close. by case_decide.
    + intros f d Hd Hf. simpl. rewrite lookup_delete_ne; [done|]. intros ->. unfold conn_id in Hid. rewrite Hf in Hid. by destruct Hd as [->| ->].
    + intros f t Ht. simpl in Ht. apply lookup_delete_Some in Ht as [Hne Ht]. apply Hwa in Ht as [->|Hi]; [by left|right].
      by rewrite conn_id_close, decide_False.
    + simpl in *. intros f Hf. destruct (He f Hf) as [->|Hi]; [by left|right]. rewrite conn_id_close, decide_False; [done|].
      intros ->. done.
    + repeat constructor. unfold conn_id in Hid. by destruct (k_fds (s_k s) !! fd) as [[]|].
Qed.

Lemma stop_facts v : sv_mode (srv_stop v) = sv_mode v ∧ sv_lis (srv_stop v) = sv_lis v ∧
  (∀ ep, sv_io v = Some ep → ∃ ep', sv_io (srv_stop v) = Some ep' ∧ ep_fd ep' = ep_fd ep).
Proof.
  unfold srv_stop. split_and!; [by case_decide|by case_decide|]. intros ep Hep. case_decide; simpl; [|by eexists].
  rewrite Hep. destruct (sv_mode v); by eexists.
Qed.
Lemma mio_stop b l e s : mio b l e s → mio b l e (with_k s (srv_stop (s_v s)) (s_k s)).
Proof.
  intros M. destruct (stop_facts (s_v s)) as (H1 & H2 & H3). destruct (m_ep _ _ _ _ M) as (ep & Ho & _).
  destruct (H3 _ Ho) as (ep' & Ho' & He). eapply mio_kern; eauto. apply M.
Qed.
Lemma mio_update b l e s f id : (∀ c, cn_id (f c) = cn_id c) → mio b l e s → mio b l e (with_k s (s_v s) (k_update (s_k s) f id)).
Proof.
  intros Hf M. destruct (m_ep _ _ _ _ M) as (ep & Ho & _).
  assert (∀ fd, conn_id (k_update (s_k s) f id) fd = conn_id (s_k s) fd) as Hc by (intros; by apply conn_id_update).
  eapply mio_kern; eauto.
  - intros fd d Hd Hx. apply fds_update; [|done]. by destruct Hd as [->| ->].
  - eapply KI_same; [apply M|done|by apply bl_update|done|done].
Qed.

Lemma mio_act b l e s a s' :
  mio b l e s → polite s (ALoop a) → loop_act s a = Some s' → mio b l e s'.
Proof.
  intros M Hpol H. pose proof M as [Hm [Hl Hlc] Hl' (ep & Ho & Hef & Hle & Hei) Hq Hw HK Hwa Hn He Hp Hst].
  unfold loop_act in H. destruct (s_loop s) as [| | | | |ev own kk| | | | |] eqn:El; try done.
  destruct a as [n| | | |].
  - (* ARead *)
    assert (Some s' = Some s ∨ ∃ id, Some s' = Some (with_k s (s_v s) (k_update (s_k s) (λ c, Conn (cn_id c) (cn_data c - n) (cn_fin c) (cn_err c)) id))) as [E|[id E]].
    { simpl in H. unfold with_k. rewrite El. destruct (id_at (s_k s) own); [right|left].
      - eexists. rewrite <- H, app_nil_r. done.
      - rewrite <- H, app_nil_r. destruct s; simpl in *. by rewrite El. }
    + by injection E as ->.
    + injection E as ->. by apply mio_update.
  - (* ARemove *)
    simpl in H. injection H as <-.
    change (mio b l e (upd s (k_del (s_k s) (so_fd own)) (LIn ev own kk) [])).
    apply mio_upd; try done.
    + eapply KI_ext; eauto.
    + intros f t Ht. simpl in Ht. apply lookup_delete_Some in Ht as [_ Ht]. by apply Hwa in Ht.
  - (* AClose *)
    simpl in H. specialize (Hpol eq_refl). rewrite El in Hpol. case_decide as Hs; injection H as <-.
    2: { rewrite app_nil_r. destruct s; simpl in *. by rewrite <- El. }
    destruct kk as [evs|f evs|f evs|].
    2,3: destruct Hp as (_ & [->| ->] & _); done.
    2: done.
    destruct Hp as ([id Hid] & Hni); [done|].
    change (mio b l e (upd s (k_close (s_k s) (so_fd own)) (LIn ev (Sock (so_fd own) kClosed) (KBatch evs)) [TClose (so_fd own) (k_fds (s_k s) !! so_fd own)])).
    apply mio_upd; try done.
    + eapply KI_close; eauto.
    + rewrite conn_id_close. by case_decide.
    + intros f d Hd Hf. simpl. rewrite lookup_delete_ne; [done|]. intros <-. unfold conn_id in Hid. rewrite Hf in Hid. by destruct Hd as [->| ->].
    + intros f t Ht. simpl in Ht. apply lookup_delete_Some in Ht as [Hne Ht]. apply Hwa in Ht as [->|Hi]; [by left|right].
      by rewrite conn_id_close, decide_False.
    + simpl in *. intros f Hf. destruct (He f Hf) as [->|Hi]; [by left|right]. rewrite conn_id_close, decide_False; [done|].
      intros ->. done.
    + repeat constructor. unfold conn_id in Hid. by destruct (k_fds (s_k s) !! so_fd own) as [[]|].
  - (* AStop *)
    simpl in H. injection H as <-. rewrite app_nil_r. apply mio_stop in M. unfold with_k in M. by rewrite El in M.
  - (* AReturn *)
    injection H as <-. simpl in Hn, He. destruct kk as [evs|f evs|f evs|]; simpl in Hp; [..|done].
    all: apply mio_upd; try done; try (by destruct Hp as (_ & _ & ?)).
    all: eapply KI_ext; eauto.
Qed.

Lemma mio_step b l e s lb s' :
  mio b l e s → polite s lb → (b = true → monitors s lb) → step s lb = Some s' → mio b l e s'.
Proof.
  intros M Hpol Hmon H. destruct lb as [x|a|i|i a| |id n|id|id|fd|fd| |r|]; simpl in H.
  - by eapply mio_loop.
  - by eapply mio_act.
  - unfold worker_step in H. rewrite (m_queue _ _ _ _ M) in H. destruct (s_workers s !! i) eqn:E; [|done].
    apply (m_workers _ _ _ _ M) in E as ->. by destruct (s_run s).
  - unfold worker_act in H. destruct (s_workers s !! i) eqn:E; [|done]. by apply (m_workers _ _ _ _ M) in E as ->.
  - destruct (listening s); [|done]. injection H as <-. destruct (m_ep _ _ _ _ M) as (ep & Ho & _).
    eapply mio_kern; eauto. apply KI_connect, M.
  - injection H as <-. apply mio_update; [|done]. intros c. by destruct (cn_fin c).
  - injection H as <-. by apply mio_update.
  - injection H as <-. by apply mio_update.
  - case_decide; [|done]. destruct (k_fds (s_k s) !! fd) eqn:E; [done|]. injection H as <-.
    assert (∀ f, conn_id (k_set (s_k s) fd DOther) f = conn_id (s_k s) f) as Hc.
    { intros f. rewrite conn_id_set. case_decide; [|done]. subst. unfold conn_id. by rewrite E. }
    destruct (m_ep _ _ _ _ M) as (ep & Ho & _).
    eapply mio_kern; eauto.
    + intros f d Hd Hf. simpl. rewrite lookup_insert_ne; [done|]. intros ->. congruence.
    + eapply KI_same; [apply M|done..].
  - case_decide as E; [|done]. injection H as <-.
    assert (∀ f, conn_id (k_close (s_k s) fd) f = conn_id (s_k s) f) as Hc.
    { intros f. rewrite conn_id_close. case_decide; [|done]. subst. unfold conn_id. by rewrite E. }
    destruct (m_ep _ _ _ _ M) as (ep & Ho & _).
    eapply mio_kern; eauto.
    + intros f d Hd Hf. simpl. rewrite lookup_delete_ne; [done|]. intros ->. rewrite E in Hf. injection Hf as <-. by destruct Hd.
    + intros f t Ht. simpl in Ht. apply lookup_delete_Some in Ht as [_ Ht]. by eexists.
    + eapply KI_same; [apply M|done..].
  - injection H as <-. by apply mio_stop.
  - case_decide; [|done]. injection H as <-. unfold srv_wakeup. rewrite (m_mode _ _ _ _ M).
    assert ((if sv_flag (s_v s) then (kLogicErr, s_k s) else (kSuccess, s_k s)).2 = s_k s) as -> by (by destruct (sv_flag _)).
    unfold with_k. by destruct s.
  - (* XClean *)
    pose proof M as [Hm [Hl Hlc] Hl' (ep & Ho & Hef & Hle & Hei) Hq Hw HK Hwa Hn He Hp Hst].
    unfold srv_clean in H. rewrite Ho in H. unfold clean_closes, close_sock in H.
    rewrite Hm in H. rewrite bool_decide_false in H by done. cbn [andb] in H.
    set (k1 := if decide (so_status (sv_lis (s_v s)) = kInit) then k_close (s_k s) l else s_k s).
    assert (Hc1 : ∀ f, conn_id k1 f = conn_id (s_k s) f).
    { clear H. intros f. unfold k1. case_decide as Hd; [|done]. rewrite conn_id_close. case_decide; [|done]. subst f. by rewrite Hlc. }
    assert (He1 : so_status (ep_fd ep) = kInit → k_fds k1 !! e = Some DEpoll).
    { clear H. intros Hd. unfold k1. case_decide; [|auto]. simpl. rewrite lookup_delete_ne by done. auto. }
    set (k2 := if decide (so_status (ep_fd ep) = kInit) then k_close k1 e else k1).
    assert (Hc2 : ∀ f, conn_id k2 f = conn_id (s_k s) f).
    { clear H. intros f. unfold k2. case_decide as Hd; [|done]. rewrite conn_id_close. case_decide; [|done]. subst f.
      rewrite <- Hc1. unfold conn_id. by rewrite He1. }
    set (c1 := if decide (so_status (sv_lis (s_v s)) = kInit) then [TClose l (k_fds (s_k s) !! l)] else []).
    set (c2 := if decide (so_status (ep_fd ep) = kInit) then [TClose e (k_fds k1 !! e)] else []).
    assert (Some s' = Some (St (Srv kIOMultiplexing (sv_addr (s_v s))
        (Sock l (if decide (so_status (sv_lis (s_v s)) = kInit) then kClosed else so_status (sv_lis (s_v s)))) (sv_flag (s_v s)) (sv_cb (s_v s))
        (Some (Epoll (Sock e (if decide (so_status (ep_fd ep) = kInit) then kClosed else so_status (ep_fd ep))) (ep_flag ep) (ep_base_trigger ep) (ep_static_trigger ep))) (sv_pool (s_v s)))
        (k_queue k2 []) (s_loop s) (s_queue s) (s_run s) (s_workers s) (s_trace s ++ c1 ++ c2))) as E.
    { rewrite <- H. unfold c1, c2, k2, k1. clear -Hl Hef.
      destruct (sv_lis (s_v s)) as [lf ls]. destruct (ep_fd ep) as [ef es]. simpl in *. subst.
      destruct (decide (ls = kInit)), (decide (es = kInit)); simpl; done. }
    injection E as ->. clear H.
    assert (Hb2 : bl k2 = bl (s_k s)) by (unfold k2, k1; by repeat case_decide).
    assert (Hn2 : k_next k2 = k_next (s_k s)) by (unfold k2, k1; by repeat case_decide).
    split; simpl; try done.
    + split; [done|]. change (conn_id k2 l = None). by rewrite Hc2.
    + intros Hx. by case_decide.
    + eexists. split; [done|]. simpl. split; [done|]. split; [done|]. intros Hx. by case_decide.
    + apply KI_unqueue. eapply KI_ext; eauto.
      apply Forall_app. unfold c1, c2. split; (case_decide; [|constructor]); (constructor; [|constructor]); simpl.
      * by rewrite Hl'.
      * by rewrite He1.
    + intros f t Ht. assert (is_Some (k_watch (s_k s) !! f)) as [t' Ht'].
      { assert (k_watch k2 !! f = Some t) as Hx by done. clear -Hx. revert Hx. unfold k2, k1. repeat case_decide; simpl; intros Hx.
        all: repeat (apply lookup_delete_Some in Hx as [_ Hx]). all: by eexists. }
      apply Hwa in Ht'. unfold mev in *. change (f = l ∨ is_Some (conn_id k2 f)). by rewrite Hc2.
    + intros f Hf. apply He in Hf. unfold mev in *. change (f = l ∨ is_Some (conn_id k2 f)). by rewrite Hc2.
    + eapply mpc_conn; [|done]. done.
    + apply stray_app; [done|]. apply Forall_app. unfold c1, c2. split; (case_decide; [|constructor]); (constructor; [|constructor]); simpl.
      * by rewrite Hl'.
      * by rewrite He1.
Qed.

Lemma mio_boot b n l e others : others_ok others l e → mio b l e (booted kIOMultiplexing n l e others).
Proof.
  intros (Hl & He & Hne & H1 & H2).
  assert (∀ fd, conn_id (s_k (booted kIOMultiplexing n l e others)) fd = None) as Hc.
  { intros fd. unfold conn_id. simpl. destruct (decide (fd = e)) as [->|]; [by rewrite lookup_insert|]. rewrite lookup_insert_ne by done.
    destruct (decide (fd = l)) as [->|]; [by rewrite lookup_insert|]. rewrite lookup_insert_ne by done.
    unfold other_fds. destruct (gset_to_gmap DOther others !! fd) eqn:E; [|done]. by apply lookup_gset_to_gmap_Some in E as [_ <-]. }
  assert (booted kIOMultiplexing n l e others = St (Srv kIOMultiplexing (addr_init (B "127.0.0.1") 80).2 (Sock l kInit) true (Some None)
                      (Some (Epoll (Sock e kInit) true kLevel kLevel)) false)
            (s_k (booted kIOMultiplexing n l e others)) LTop [] true (replicate n VIdle) []) as E.
  { unfold booted, loop_start. simpl. f_equal. }
  rewrite E. split; simpl; try done.
  - intros _. rewrite lookup_insert_ne, lookup_insert; done.
  - eexists. split; [done|]. simpl. split_and!; try done. intros _. by rewrite lookup_insert.
  - intros i w Hw. by apply lookup_replicate in Hw as [-> _].
  - split; try (intros *; rewrite Hc; done); simpl.
    + constructor.
    + intros id Hid. by apply elem_of_nil in Hid.
    + intros id _. split_and!; try done. intros [? Hx]. by apply elem_of_nil in Hx.
    + intros id Hid. lia.
  - intros fd t Ht. apply lookup_singleton_Some in Ht as [<- _]. by left.
  - constructor.
  - intros fd Hx. by apply elem_of_nil in Hx.
Qed.

Lemma mio_reach b n l e others s :
  others_ok others l e → reach (λ s lb, polite s lb ∧ (b = true → monitors s lb)) (booted kIOMultiplexing n l e others) s → mio b l e s.
Proof. intros Ho. induction 1 as [|s lb s' _ IH [H1 H2] Hs]; [by apply mio_boot|]. by eapply mio_step. Qed.
