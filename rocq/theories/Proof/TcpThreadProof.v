(** Invariant of TcpServer with one worker per connection, when callbacks do not
    close their sockets. *)
From Verif.Proof Require Export TcpServerProof.

Local Open Scope Z_scope.

Definition pc_holds (p : lpc) : list Z :=
  match p with LGot s => if decide (so_status s = kInit) then [so_fd s] else [] | _ => [] end.
Definition job_fd (j : job) : Z := match j with JConn s => so_fd s | JRead fd => fd end.
Definition w_holds (w : wst) : list Z :=
  match w with VIdle => [] | VPeek s | VIn _ _ s _ => [so_fd s] end.
(** The descriptors that some thread (or the queue) has in its hands. *)
Definition holders (s : st) : list Z := pc_holds (s_loop s) ++ (job_fd <$> s_queue s) ++ (s_workers s ≫= w_holds).

Lemma bind_take ws i w : ws !! i = Some w → ws ≫= w_holds ≡ₚ w_holds w ++ (delete i ws ≫= w_holds).
Proof.
  revert i. induction ws as [|a ws IH]; intros [|i] H; try done; simpl in *.
  - by injection H as ->.
  - rewrite (IH i H). apply Permutation_app_swap_app.
Qed.
Lemma bind_put ws i w w' : ws !! i = Some w → <[i := w']> ws ≫= w_holds ≡ₚ w_holds w' ++ (delete i ws ≫= w_holds).
Proof.
  intros H. rewrite (bind_take (<[i := w']> ws) i w').
  - f_equiv. assert (delete i (<[i := w']> ws) = delete i ws) as ->; [|done].
    clear H. revert i. induction ws as [|a ws IH]; intros [|i]; simpl; [done..|]. by rewrite IH.
  - apply list_lookup_insert. by eapply lookup_lt_Some.
Qed.

Definition w_ok (k : kern) (stg : Z → stage) (w : wst) : Prop :=
  match w with
  | VIdle => True
  | VPeek s => so_status s = kInit ∧ is_Some (conn_id k (so_fd s)) ∧ stg (so_fd s) = Live
  | VIn e own s once =>
      so_status s = kInit ∧ own = s ∧ once = false ∧ is_Some (conn_id k (so_fd s)) ∧
      stg (so_fd s) = match e with kLeave => Ended | _ => Live end
  end.
Definition j_ok (k : kern) (stg : Z → stage) (j : job) : Prop :=
  match j with JConn s => so_status s = kInit ∧ is_Some (conn_id k (so_fd s)) ∧ stg (so_fd s) = Waiting | JRead _ => False end.
Definition pc_ok (k : kern) (stg : Z → stage) (p : lpc) : Prop :=
  match p with
  | LGot s => so_status s = kInit → is_Some (conn_id k (so_fd s)) ∧ stg (so_fd s) = Waiting
  | LIn e own kk => so_status own ≠ kInit ∧ kk = KQuit
  | LTop | LWait | LSleep | LJoin | LRet _ => True
  | _ => False
  end.

Record mth (l : Z) (s : st) : Prop := {
  t_mode : sv_mode (s_v s) = kMultiThread;
  t_io : sv_io (s_v s) = None;
  t_lis : so_fd (sv_lis (s_v s)) = l;
  t_lis' : so_status (sv_lis (s_v s)) = kInit → k_fds (s_k s) !! l = Some DListen;
  t_nodup : NoDup (holders s);
  t_stg : ∃ stg, KI true stg (s_k s) (s_trace s) ∧ pc_ok (s_k s) stg (s_loop s) ∧
            Forall (j_ok (s_k s) stg) (s_queue s) ∧ Forall (w_ok (s_k s) stg) (s_workers s);
  t_closes id : closes id (s_trace s) = 0%nat }.

Definition sset (stg : Z → stage) (fd : Z) (g : stage) (f : Z) : stage := if decide (f = fd) then g else stg f.
Lemma sset_eq stg fd g : sset stg fd g fd = g.
Proof. unfold sset. by rewrite decide_True. Qed.
Lemma sset_ne stg fd g f : f ≠ fd → sset stg fd g f = stg f.
Proof. intros. unfold sset. by rewrite decide_False. Qed.

Definition more (k k' : kern) : Prop := ∀ fd, is_Some (conn_id k fd) → is_Some (conn_id k' fd).
Lemma more_refl k : more k k.
Proof. by intros fd. Qed.
Lemma w_ok_mono k k' stg stg' w : more k k' → (∀ fd, fd ∈ w_holds w → stg' fd = stg fd) → w_ok k stg w → w_ok k' stg' w.
Proof.
  intros Hm Hs. destruct w; simpl in *; [done|..].
  - rewrite Hs by set_solver. intros (? & ? & ?). auto.
  - rewrite Hs by set_solver. intros (? & ? & ? & ? & ?). auto 10.
Qed.
Lemma j_ok_mono k k' stg stg' j : more k k' → stg' (job_fd j) = stg (job_fd j) → j_ok k stg j → j_ok k' stg' j.
Proof. intros Hm Hs. destruct j; simpl in *; [|done]. rewrite Hs. intros (? & ? & ?). auto. Qed.
Lemma pc_ok_mono k k' stg stg' p : more k k' → (∀ fd, fd ∈ pc_holds p → stg' fd = stg fd) → pc_ok k stg p → pc_ok k' stg' p.
Proof.
  intros Hm Hs. destruct p; simpl in *; try done. intros H Hi. specialize (H Hi). rewrite decide_True in Hs by done.
  rewrite Hs by set_solver. destruct H. auto.
Qed.
Lemma ws_ok_mono k k' stg stg' ws : more k k' → (∀ fd, fd ∈ ws ≫= w_holds → stg' fd = stg fd) →
  Forall (w_ok k stg) ws → Forall (w_ok k' stg') ws.
Proof.
  intros Hm Hs HF. rewrite Forall_forall in HF. apply Forall_forall. intros w Hw. eapply w_ok_mono; [done| |by apply HF].
  intros fd Hfd. apply Hs. apply elem_of_list_bind. eauto.
Qed.
Lemma js_ok_mono k k' stg stg' q : more k k' → (∀ fd, fd ∈ job_fd <$> q → stg' fd = stg fd) →
  Forall (j_ok k stg) q → Forall (j_ok k' stg') q.
Proof.
  intros Hm Hs HF. rewrite Forall_forall in HF. apply Forall_forall. intros j Hj. eapply j_ok_mono; [done| |by apply HF].
  apply Hs, elem_of_list_fmap. eauto.
Qed.
Lemma held_conn s stg fd : pc_ok (s_k s) stg (s_loop s) → Forall (j_ok (s_k s) stg) (s_queue s) → Forall (w_ok (s_k s) stg) (s_workers s) →
  fd ∈ holders s → is_Some (conn_id (s_k s) fd).
Proof.
  intros H1 H2 H3. unfold holders. rewrite !elem_of_app. intros [H|[H|H]].
  - destruct (s_loop s); simpl in *; try by apply elem_of_nil in H. case_decide; [|by apply elem_of_nil in H].
    apply elem_of_list_singleton in H as ->. by destruct H1.
  - apply elem_of_list_fmap in H as (j & -> & Hj). rewrite Forall_forall in H2. apply H2 in Hj. destruct j; [|done]. by destruct Hj as (_ & ? & _).
  - apply elem_of_list_bind in H as (w & Hw & Hin). rewrite Forall_forall in H3. apply H3 in Hin.
    destruct w; simpl in *; [by apply elem_of_nil in Hw|..]; apply elem_of_list_singleton in Hw as ->; naive_solver.
Qed.

Lemma sset_accept stg fd f i k : conn_id k fd = None → conn_id k f = Some i → sset stg fd Waiting f = stg f.
Proof. intros H1 H2. apply sset_ne. intros ->. congruence. Qed.
Lemma closes_neutral id tr tr' : closes id tr = 0%nat → Forall neutral tr' → closes id (tr ++ tr') = 0%nat.
Proof. intros H HF. by rewrite closes_app, H, neutral_closes. Qed.
Lemma closes_call id tr k e s : closes id tr = 0%nat → closes id (tr ++ [call k e s]) = 0%nat.
Proof. intros H. by rewrite closes_app, H. Qed.

(** Changes that do not touch connections. *)
Lemma mth_kern l s v k tr :
  mth l s → sv_mode v = kMultiThread → sv_io v = None → so_fd (sv_lis v) = l →
  (so_status (sv_lis v) = kInit → k_fds k !! l = Some DListen) → (∀ fd, conn_id k fd = conn_id (s_k s) fd) →
  (∀ stg, KI true stg (s_k s) (s_trace s) → KI true stg k (s_trace s ++ tr)) → (∀ id, closes id tr = 0%nat) →
  mth l (St v k (s_loop s) (s_queue s) (s_run s) (s_workers s) (s_trace s ++ tr)).
Proof.
  intros [Hm Hi Hl Hl' Hn (stg & HK & Hp & Hj & Hw) Hc] H1 H2 H3 H4 H5 H6 H7.
  assert (more (s_k s) k) as Hmo by (intros fd; by rewrite H5).
  split; try done; simpl.
  - exists stg. split_and!; [auto|by eapply pc_ok_mono|by eapply js_ok_mono|by eapply ws_ok_mono].
  - intros id. rewrite closes_app, Hc, H7. done.
Qed.
Lemma mth_update l s f id : (∀ c, cn_id (f c) = cn_id c) → mth l s → mth l (with_k s (s_v s) (k_update (s_k s) f id)).
Proof.
  intros Hf M. unfold with_k. rewrite <- (app_nil_r (s_trace s)). apply mth_kern; try done; try apply M.
  - intros H. apply fds_update; [done|]. by apply (t_lis' _ _ M).
  - intros fd. by apply conn_id_update.
  - intros stg HK. rewrite app_nil_r. eapply KI_same; [done|intros; by apply conn_id_update|by apply bl_update|done..].
Qed.
Lemma mth_stop l s : mth l s → mth l (with_k s (srv_stop (s_v s)) (s_k s)).
Proof.
  intros M. unfold with_k. rewrite <- (app_nil_r (s_trace s)). destruct (stop_facts (s_v s)) as (H1 & H2 & H3).
  apply mth_kern; try done.
  - rewrite H1. apply M.
  - unfold srv_stop. case_decide; [|apply M]. simpl. rewrite (t_mode _ _ M). apply M.
  - rewrite H2. apply M.
  - rewrite H2. apply M.
  - intros. by rewrite app_nil_r.
Qed.

Lemma mth_loop l s x s' : mth l s → loop_step s x = Some s' → mth l s'.
Proof.
  intros M H. pose proof M as [Hm Hi Hl Hl' Hn (stg & HK & Hp & Hj & Hw) Hc].
  unfold loop_step in H. rewrite Hm, Hl in H. cbv zeta in H.
  destruct (s_loop s) as [| | |evs|soc evs|e' own kk|fd evs|fd evs|soc| |rc] eqn:El; simpl in Hp; try done.
  - destruct (sv_flag (s_v s)); injection H as <-; split; simpl; rewrite ?app_nil_r; try done.
    all: try (exists stg; by rewrite ?app_nil_r).
    all: unfold holders in *; simpl in *; by rewrite El in Hn.
  - case_decide; injection H as <-; split; simpl; rewrite ?app_nil_r; try done.
    all: try (exists stg; by rewrite ?app_nil_r).
    all: unfold holders in *; simpl in *; by rewrite El in Hn.
  - destruct x as [| |fd| |]; try done.
    + destruct (accept_as (s_k s) fd) as [[c k']|] eqn:Ea; [|done]. injection H as <-.
      pose proof (accept_inv _ _ _ _ Ea) as (Hpos & Hnone & r & Hb & Ek).
      assert (Hc0 : conn_id (s_k s) fd = None) by (unfold conn_id; by rewrite Hnone).
      assert (Hnh : fd ∉ holders s).
      { intros Hin. eapply held_conn in Hin as [i Hi']; [|by rewrite El|done..]. congruence. }
      destruct (KI_accept true stg (sset stg fd Waiting) _ _ [] _ _ _ HK Ea) as (HK' & Hc' & _); [done|by apply sset_eq| |].
      { intros f id Hf. by eapply sset_accept. }
      assert (Hmo : more (s_k s) k').
      { intros f [i Hf]. rewrite Ek, conn_id_set. case_decide; [by eexists|]. exists i. done. }
      rewrite sock_of_fd_pos by done. unfold holders in Hnh, Hn. rewrite El in Hnh, Hn. simpl in Hnh, Hn.
      split; simpl; try done.
      * intros Hs. rewrite Ek. simpl. rewrite lookup_insert_ne; [by apply Hl'|]. intros ->. rewrite Hl' in Hnone by done. done.
      * unfold holders. simpl. constructor; [done|done].
      * exists (sset stg fd Waiting). split_and!; try done.
        -- intros _. split; [by eexists|by apply sset_eq].
        -- eapply js_ok_mono; [done| |done]. intros f Hf. apply sset_ne. set_solver.
        -- eapply ws_ok_mono; [done| |done]. intros f Hf. apply sset_ne. set_solver.
      * intros id. by rewrite closes_app, Hc.
    + injection H as <-. split; simpl; rewrite ?app_nil_r; try done.
      * unfold holders in *; simpl in *; by rewrite El in Hn.
      * exists stg. split_and!; done.
  - (* LGot *)
    unfold holders in Hn. rewrite El in Hn. simpl in Hn. destruct (sv_flag (s_v s)).
    + case_decide as Hs; injection H as <-; simpl.
      * destruct Hp as [Hp1 Hp2]; [done|].
        split; simpl; rewrite ?app_nil_r; try done.
        -- unfold holders. simpl. rewrite fmap_app. simpl. rewrite <- app_assoc. simpl.
           rewrite <- Permutation_middle. done.
        -- exists stg. split_and!; try done. apply Forall_app. split; [done|]. by repeat constructor.
      * split; simpl; try done.
        -- exists stg. split_and!; try done. eapply KI_ext; eauto. constructor; [|done]. unfold call. rewrite id_at_none; done.
        -- intros id. by apply closes_call.
    + injection H as <-. split; simpl; try done.
      * unfold holders. simpl. case_decide; [by apply NoDup_cons in Hn as [_ ?]|done].
      * exists stg. by split_and!.
  - destruct (forallb _ _); [|done]. injection H as <-. split; simpl; rewrite ?app_nil_r; try done.
    + unfold holders in *; simpl in *; by rewrite El in Hn.
    + exists stg. by split_and!.
Qed.

Lemma mth_worker l s i s' : mth l s → worker_step s i = Some s' → mth l s'.
Proof.
  intros M H. pose proof M as [Hm Hi Hl Hl' Hn (stg & HK & Hp & Hj & Hw) Hc].
  unfold worker_step in H. destruct (s_workers s !! i) as [w|] eqn:Ew; [|done].
  pose proof (bind_take _ _ _ Ew) as Hbt. pose proof (λ w', bind_put _ _ _ w' Ew) as Hbp.
  assert (Hdel : Forall (w_ok (s_k s) stg) (delete i (s_workers s))) by (by apply Forall_delete).
  assert (Hins : ∀ stg' w', (∀ fd, fd ∈ delete i (s_workers s) ≫= w_holds → stg' fd = stg fd) → w_ok (s_k s) stg' w' →
     Forall (w_ok (s_k s) stg') (<[i := w']> (s_workers s))).
  { intros stg' w' Hs Hw'. apply Forall_forall. intros w0 Hin. apply elem_of_list_lookup in Hin as [j Hj'].
    apply list_lookup_insert_Some in Hj' as [(-> & <- & _)|[Hne Hj']]; [done|].
    rewrite Forall_forall in Hw. eapply w_ok_mono; [apply more_refl| |apply Hw; by eapply elem_of_list_lookup_2].
    intros fd Hfd. apply Hs, elem_of_list_bind. exists w0. split; [done|].
    apply elem_of_list_lookup. destruct (decide (j < i)%nat).
    - exists j. by rewrite lookup_delete_lt.
    - exists (j - 1)%nat. rewrite lookup_delete_ge by lia. by replace (S (j - 1)) with j by lia. }
  destruct w as [|soc|]; [| |done].
  - destruct (s_run s) eqn:Er; [|done]. destruct (s_queue s) as [|j q] eqn:Eq; [done|].
    apply Forall_cons in Hj as [Hj1 Hj2]. destruct j as [soc|]; [|done]. destruct Hj1 as (Hs1 & [id Hid] & Hs2).
    injection H as <-.
    assert (Hat : id_at (s_k s) soc = Some id) by (by rewrite id_at_conn).
    unfold holders in Hn. rewrite Eq in Hn. simpl in Hn. rewrite Hbt in Hn. simpl in Hn.
    rewrite <- Permutation_middle in Hn. apply NoDup_cons in Hn as [Hn1 Hn2].
    split; simpl; try done.
    + unfold holders. simpl. rewrite Hbp. simpl. rewrite (app_assoc (pc_holds _)), <- Permutation_middle, <- app_assoc.
      by constructor.
    + exists (sset stg (so_fd soc) Live). split_and!.
      * apply (KI_call true stg _ _ _ [] (so_fd soc) id); try done.
        -- rewrite sset_eq. apply (ki_conn _ _ _ _ HK) in Hid as (_ & _ & _ & _ & Hg & _). rewrite Hs2 in Hg. simpl in Hg. rewrite Hg. by exists 0%nat.
        -- intros f i' Hne _. by apply sset_ne.
      * eapply pc_ok_mono; [apply more_refl| |done]. intros f Hf. apply sset_ne. set_solver.
      * eapply js_ok_mono; [apply more_refl| |done]. intros f Hf. apply sset_ne. set_solver.
      * apply Hins.
        -- intros f Hf. apply sset_ne. set_solver.
        -- simpl. rewrite sset_eq. split_and!; done.
    + intros i'. by apply closes_call.
  - pose proof Hw as Hw0. rewrite Forall_forall in Hw0. specialize (Hw0 _ ltac:(by eapply elem_of_list_lookup_2)). simpl in Hw0.
    destruct Hw0 as (Hs1 & [id Hid] & Hs2).
    assert (Hat : id_at (s_k s) soc = Some id) by (by rewrite id_at_conn).
    unfold holders in Hn. rewrite Hbt in Hn. simpl in Hn.
    assert (Hn' : NoDup (so_fd soc :: pc_holds (s_loop s) ++ (job_fd <$> s_queue s) ++ (delete i (s_workers s) ≫= w_holds))).
    { by rewrite (app_assoc (pc_holds _)), Permutation_middle, <- app_assoc. }
    apply NoDup_cons in Hn' as [Hn1 Hn2].
    assert (Hg : good true Live (calls id (s_trace s))).
    { apply (ki_conn _ _ _ _ HK) in Hid as (_ & _ & _ & _ & Hg & _). by rewrite Hs2 in Hg. }
    assert (Hnext : ∀ e g, g = match e with kLeave => Ended | _ => Live end → good true g (calls id (s_trace s) ++ [e]) →
      mth l (upd_w s (s_k s) i (VIn e soc soc false) [call (s_k s) e soc])).
    { intros e g Eg Hge. split; simpl; try done.
      - unfold holders. simpl. rewrite Hbp. simpl. done.
      - exists (sset stg (so_fd soc) g). split_and!.
        + apply (KI_call true stg _ _ _ [] (so_fd soc) id); try done.
          * by rewrite sset_eq.
          * intros f i' Hne _. by apply sset_ne.
        + eapply pc_ok_mono; [apply more_refl| |done]. intros f Hf. apply sset_ne. set_solver.
        + eapply js_ok_mono; [apply more_refl| |done]. intros f Hf. apply sset_ne. set_solver.
        + apply Hins.
          * intros f Hf. apply sset_ne. set_solver.
          * simpl. rewrite sset_eq. split_and!; done.
      - intros i'. by apply closes_call. }
    assert (H1 : mth l (upd_w s (s_k s) i (VIn kRead soc soc false) [call (s_k s) kRead soc])).
    { apply (Hnext kRead Live); [done|]. by apply good_read. }
    assert (H2 : mth l (upd_w s (s_k s) i (VIn kLeave soc soc false) [call (s_k s) kLeave soc])).
    { apply (Hnext kLeave Ended); [done|]. apply good_end; [by left|done]. }
    repeat case_match; try done; by injection H as <-.
Qed.

Lemma more_update k g id : (∀ c, cn_id (g c) = cn_id c) → more k (k_update k g id).
Proof. intros Hg fd. by rewrite conn_id_update. Qed.

(** The worker's callback does [a]; the loop's callback does it too. *)
Lemma mth_wact l s i a s' : mth l s → a ≠ AClose → worker_act s i a = Some s' → mth l s'.
Proof.
  intros M Ha H. unfold worker_act in H. destruct (s_workers s !! i) as [w|] eqn:Ew; [|done].
  destruct w as [| |e own soc once]; try done.
  pose proof M as [_ _ _ _ _ (stg & _ & _ & _ & Hw) _].
  rewrite Forall_forall in Hw. specialize (Hw _ ltac:(by eapply elem_of_list_lookup_2)). simpl in Hw.
  destruct Hw as (Hs1 & -> & -> & [id Hid] & Hs2).
  assert (Hsame : ∀ w', w_holds w' = [so_fd soc] ∨ w_holds w' = [] →
    (∀ k g, is_Some (conn_id k (so_fd soc)) → g (so_fd soc) = stg (so_fd soc) → w_ok k g w') → True) by done.
  clear Hsame.
  assert (Hkeep : ∀ v k, mth l (with_k s v k) →
     mth l (St v k (s_loop s) (s_queue s) (s_run s) (<[i := VIn e soc soc false]> (s_workers s)) (s_trace s ++ []))).
  { intros v k Hm. rewrite app_nil_r. rewrite list_insert_id by done. done. }
  destruct a; try done; simpl in H.
  - rewrite id_at_conn, Hid in H by done. injection H as <-. apply Hkeep. by apply mth_update.
  - injection H as <-. apply Hkeep. unfold with_k. rewrite <- (app_nil_r (s_trace s)). apply mth_kern; try done; try apply M.
    intros. rewrite app_nil_r. by eapply KI_same.
  - injection H as <-. apply Hkeep. by apply mth_stop.
  - injection H as <-. clear Hkeep Hid Hs2 stg. pose proof M as [Hm Hi Hl Hl' Hn (stg & HK & Hp & Hj & Hw) Hc].
    pose proof Hw as Hw1. rewrite Forall_forall in Hw1. specialize (Hw1 _ ltac:(by eapply elem_of_list_lookup_2)). simpl in Hw1.
    destruct Hw1 as (_ & _ & _ & Hid & Hs2).
    pose proof (bind_take _ _ _ Ew) as Hbt. pose proof (λ w', bind_put _ _ _ w' Ew) as Hbp.
    unfold holders in Hn. rewrite Hbt in Hn. simpl in Hn.
    split; simpl; rewrite ?app_nil_r; try done.
    + unfold holders. simpl. rewrite Hbp. destruct e; simpl; try done.
      by rewrite (app_assoc (pc_holds _)), <- Permutation_middle, <- app_assoc in Hn; apply NoDup_cons in Hn as [_ ?].
    + exists stg. split_and!; try done. apply Forall_insert; [done|]. by destruct e; simpl.
Qed.
Lemma mth_lact l s a s' : mth l s → a ≠ AClose → loop_act s a = Some s' → mth l s'.
Proof.
  intros M Ha H. unfold loop_act in H. destruct (s_loop s) as [| | | | |e own kk| | | | |] eqn:El; try done.
  pose proof M as [Hm Hi Hl Hl' Hn (stg & HK & Hp & Hj & Hw) Hc]. rewrite El in Hp. simpl in Hp. destruct Hp as [Hp1 ->].
  assert (Hkeep : ∀ v k, mth l (with_k s v k) → mth l (St v k (LIn e own KQuit) (s_queue s) (s_run s) (s_workers s) (s_trace s ++ []))).
  { intros v k. rewrite app_nil_r. unfold with_k. by rewrite El. }
  destruct a; try done; simpl in H.
  - rewrite id_at_none in H by done. injection H as <-. apply Hkeep. by destruct s.
  - injection H as <-. apply Hkeep. unfold with_k. rewrite <- (app_nil_r (s_trace s)). apply mth_kern; try done.
    intros. rewrite app_nil_r. by eapply KI_same.
  - injection H as <-. apply Hkeep. by apply mth_stop.
  - injection H as <-. unfold upd. split; simpl; rewrite ?app_nil_r; try done.
    + unfold holders in *. by rewrite El in Hn.
    + exists stg. by split_and!.
Qed.

Lemma mth_step l s lb s' : mth l s → keeps s lb → step s lb = Some s' → mth l s'.
Proof.
  intros M Hkp H. unfold keeps in Hkp. pose proof M as [Hm Hi Hl Hl' Hn (stg & HK & Hp & Hj & Hw) Hc].
  destruct lb as [x|a|i|i a| |id n|id|id|fd|fd| |r| ]; cbn [step] in H.
  - by eapply mth_loop.
  - eapply mth_lact; [done| |done]. by intros ->.
  - by eapply mth_worker.
  - eapply mth_wact; [done| |done]. by intros ->.
  - destruct (listening s); [|done]. injection H as <-. unfold with_k. rewrite <- (app_nil_r (s_trace s)).
    apply mth_kern; try done. intros. rewrite app_nil_r. by apply KI_connect.
  - injection H as <-. apply mth_update; [|done]. intros c. by destruct (cn_fin c).
  - injection H as <-. by apply mth_update.
  - injection H as <-. by apply mth_update.
  - destruct (decide (0 <= fd)); [|done]. destruct (k_fds (s_k s) !! fd) eqn:E; [done|]. injection H as <-.
    unfold with_k. rewrite <- (app_nil_r (s_trace s)).
    assert (Hsame : ∀ f, conn_id (k_set (s_k s) fd DOther) f = conn_id (s_k s) f).
    { intros f. rewrite conn_id_set. case_decide; [|done]. subst. unfold conn_id. by rewrite E. }
    apply mth_kern; try done.
    + intros Hs. simpl. rewrite lookup_insert_ne; [by apply Hl'|]. intros ->. specialize (Hl' Hs). congruence.
    + intros. rewrite app_nil_r. by eapply KI_same.
  - case_decide as E; [|done]. injection H as <-. unfold with_k. rewrite <- (app_nil_r (s_trace s)).
    assert (Hsame : ∀ f, conn_id (k_close (s_k s) fd) f = conn_id (s_k s) f).
    { intros f. rewrite conn_id_close. case_decide; [|done]. subst. unfold conn_id. by rewrite E. }
    apply mth_kern; try done.
    + intros Hs. simpl. rewrite lookup_delete_ne; [by apply Hl'|]. intros ->. specialize (Hl' Hs). congruence.
    + intros. rewrite app_nil_r. by eapply KI_same.
  - injection H as <-. by apply mth_stop.
  - case_decide as E; [|done]. injection H as <-. unfold srv_wakeup. rewrite Hm.
    assert (Hid : mth l (with_k s (s_v s) (s_k s))) by (by destruct s).
    destruct (sv_flag (s_v s)); [done|]. destruct (Z.ltb_spec r 0); [done|].
    destruct E as [?|E]; [lia|].
    unfold with_k. rewrite <- (app_nil_r (s_trace s)). destruct (listening s); simpl.
    + apply mth_kern; try done. intros. rewrite app_nil_r. by apply KI_connect.
    + assert (Hsame : ∀ f, conn_id (k_set (s_k s) r DSock) f = conn_id (s_k s) f).
      { intros f. rewrite conn_id_set. case_decide; [|done]. subst. unfold conn_id. by rewrite E. }
      apply mth_kern; try done.
      * intros Hs. simpl. rewrite lookup_insert_ne; [by apply Hl'|]. intros ->. specialize (Hl' Hs). congruence.
      * intros. rewrite app_nil_r. by eapply KI_same.
  - unfold srv_clean in H. rewrite Hi in H. unfold clean_closes, close_sock in H. rewrite Hl in H.
    set (k1 := if decide (so_status (sv_lis (s_v s)) = kInit) then k_close (s_k s) l else s_k s).
    assert (Hc1 : ∀ f, conn_id k1 f = conn_id (s_k s) f).
    { clear H. intros f. unfold k1. case_decide as Hd; [|done]. rewrite conn_id_close. case_decide; [|done]. subst f.
      unfold conn_id. by rewrite Hl'. }
    set (c1 := if decide (so_status (sv_lis (s_v s)) = kInit) then [TClose l (k_fds (s_k s) !! l)] else []).
    set (k2 := if bool_decide (sv_mode (s_v s) = kMultiThread) && match s_loop s with LSleep => true | _ => false end
         then k1 else k_queue k1 []).
    assert (Some s' = Some (St (Srv kMultiThread (sv_addr (s_v s))
        (Sock l (if decide (so_status (sv_lis (s_v s)) = kInit) then kClosed else so_status (sv_lis (s_v s)))) (sv_flag (s_v s)) (sv_cb (s_v s))
        None (sv_pool (s_v s)))
        k2 (s_loop s) (s_queue s) (s_run s) (s_workers s) (s_trace s ++ c1))) as E.
    { rewrite <- H. unfold c1, k2, k1. clear -Hl Hm.
      destruct (sv_lis (s_v s)) as [lf ls]. simpl in *. subst.
      destruct (decide (ls = kInit)); simpl; rewrite ?app_nil_r, Hm; done. }
    injection E as ->. clear H.
    assert (Hc2 : ∀ f, conn_id k2 f = conn_id (s_k s) f).
    { intros f. unfold k2. destruct (_ && _); apply Hc1. }
    assert (Hn1 : Forall neutral c1).
    { unfold c1. case_decide; [|constructor]. constructor; [|constructor]. simpl. by rewrite Hl'. }
    apply mth_kern; try done; simpl.
    + intros Hs. by case_decide.
    + intros stg' HK'. assert (HK1 : KI true stg' k1 (s_trace s ++ c1)).
      { eapply KI_ext; eauto; unfold k1; by case_decide. }
      unfold k2. destruct (_ && _); [done|]. by apply KI_unqueue.
    + intros id. by apply neutral_closes.
Qed.

Lemma mth_boot n l e others : others_ok others l e → mth l (booted kMultiThread n l e others).
Proof.
  intros (Hl & He & Hne & H1 & H2).
  assert (∀ fd, conn_id (s_k (booted kMultiThread n l e others)) fd = None) as Hc.
  { intros fd. unfold conn_id. simpl.
    destruct (decide (fd = l)) as [->|]; [by rewrite lookup_insert|]. rewrite lookup_insert_ne by done.
    unfold other_fds. destruct (gset_to_gmap DOther others !! fd) eqn:E; [|done]. by apply lookup_gset_to_gmap_Some in E as [_ <-]. }
  assert (Hb : replicate n VIdle ≫= w_holds = []) by (clear; induction n as [|n IH]; simpl in *; [done|exact IH]).
  split; simpl; try done.
  - intros _. by rewrite lookup_insert.
  - unfold holders. simpl. rewrite Hb. constructor.
  - exists (λ _, Waiting). split_and!; try done.
    + split; try (intros *; rewrite Hc; done); simpl.
      * constructor.
      * intros id Hid. by apply elem_of_nil in Hid.
      * intros id _. split_and!; try done. intros [? Hx]. by apply elem_of_nil in Hx.
      * intros id Hid. lia.
    + apply Forall_replicate. done.
Qed.

Lemma mth_reach n l e others s :
  others_ok others l e → reach keeps (booted kMultiThread n l e others) s → mth l s.
Proof. intros Ho. induction 1 as [|s lb s' _ IH H1 Hs]; [by eapply mth_boot|]. by eapply mth_step. Qed.
