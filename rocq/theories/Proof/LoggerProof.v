From Verif.Spec Require Export LoggerSpec.

(** * Lists *)
Lemma concat_insert {A} (Ls : list (list A)) i x y :
  Ls !! i = Some x → concat (<[i := y]> Ls) ++ x ≡ₚ concat Ls ++ y.
Proof.
  revert i; induction Ls as [|a l IH]; intros [|i] H; simpl in *; try done.
  - injection H as ->. rewrite (Permutation_app_comm y), (Permutation_app_comm x).
    rewrite <- !app_assoc. apply Permutation_app_head, Permutation_app_comm.
  - rewrite <- !app_assoc. by rewrite IH.
Qed.

Lemma level_gt_wanted lv l : level_gt lv l = negb (wanted lv l).
Proof. by destruct lv, l. Qed.
Lemma line_text_log_line l stamp msg : line_text l stamp msg (log_line l stamp msg).
Proof. exists (level_name l). split; [by destruct l|]. destruct l; simpl; rewrite !elem_of_cons; naive_solver. Qed.
Lemma line_text_det l stamp msg x : line_text l stamp msg x → x = log_line l stamp msg.
Proof.
  intros (name & -> & H). unfold log_line. repeat (apply elem_of_cons in H as [H|H]; [by injection H as -> ->|]).
  by apply elem_of_nil in H.
Qed.

Global Instance fpc_eq_dec : EqDecision fpc.
Proof. solve_decision. Defined.

Definition holder (w : fpc) : list nat :=
  match w with FGot b | FAppended b | FCleared b => [b] | _ => [] end.

(** [P]: do we care about the content of the file? *)
Record finv (P : Prop) (d0 : bytes) (lines : list bytes) (s : flog) : Prop := FInv {
  v_pool : f_pool s = PRun;
  v_ring : f_ring s ≡ₚ seq 0 (length (f_bufs s));
  v_num : P → f_num s = Z.of_nat (length (f_ring s));
  v_cur : ∃ c id b, f_cur s = Some c ∧ f_ring s !! c = Some id ∧ f_bufs s !! id = Some b ∧ b_need b = false;
  v_busy : NoDup (f_queue s ++ holder (f_work s));
  v_need : ∀ id, id ∈ f_queue s ++ holder (f_work s) → ∃ b, f_bufs s !! id = Some b ∧ b_need b = true;
  v_free : ∀ id b c, f_bufs s !! id = Some b → b_need b = false → f_cur s = Some c → f_ring s !! c ≠ Some id → b_data b = [];
  v_clear : ∀ id b, f_work s = FCleared id → f_bufs s !! id = Some b → b_data b = [];
  v_file : P → ∃ w written (Ls : list (list bytes)),
     file_data (f_fs s) (f_path s) w (d0 ++ concat written) ∧ length Ls = length (f_bufs s) ∧
     (∀ id b ls, f_bufs s !! id = Some b → Ls !! id = Some ls →
        if decide (f_work s = FAppended id) then ls = [] else b_data b = concat ls) ∧
     lines ≡ₚ written ++ concat Ls }.

Lemma finv_cur (P : Prop) d0 lines s : finv P d0 lines s → ∃ c id b,
  f_cur s = Some c ∧ f_ring s !! c = Some id ∧ f_bufs s !! id = Some b ∧ b_need b = false ∧
  id ∉ f_queue s ++ holder (f_work s) ∧ f_work s ≠ FAppended id.
Proof.
  intros I. destruct (v_cur _ _ _ _ I) as (c & id & b & H1 & H2 & H3 & H4). exists c, id, b.
  assert (id ∉ f_queue s ++ holder (f_work s)) as Hn.
  { intros Hin. destruct (v_need _ _ _ _ I _ Hin) as (b' & E1 & E2). rewrite H3 in E1. injection E1 as <-. congruence. }
  split_and!; try done. intros E. apply Hn. rewrite E. apply elem_of_app. right. simpl. set_solver.
Qed.

Lemma finv_append (P : Prop) d0 lines s c id b x :
  finv P d0 lines s → f_cur s = Some c → f_ring s !! c = Some id → f_bufs s !! id = Some b →
  finv P d0 (lines ++ [x]) (set_bufs s (<[id := Buffer (b_data b ++ x) (b_need b) (b_last b)]> (f_bufs s))).
Proof.
  intros I Hc Hr Hb. destruct (finv_cur _ _ _ _ I) as (c0 & id0 & b0 & H1 & H2 & H3 & H4 & H5 & H6). simplify_eq.
  destruct I as [I1 I2 I3 I4 I5 I6 I7 I8 I9]. split; cbn; try done.
  - by rewrite insert_length.
  - eexists c, id, _. split_and!; [done..| |]. { apply list_lookup_insert. by eapply lookup_lt_Some. } done.
  - intros j Hj. destruct (I6 _ Hj) as (bj & ? & ?). exists bj. split; [|done].
    rewrite list_lookup_insert_ne; [done|]. by intros <-.
  - intros j bj c1 Hj Hn Hc1 Hne. simplify_eq. rewrite list_lookup_insert_ne in Hj; [by eapply I7|]. congruence.
  - intros j bj Hw Hj. rewrite list_lookup_insert_ne in Hj; [by eapply I8|].
    intros <-. apply H5. rewrite Hw. apply elem_of_app. right. simpl. set_solver.
  - intros Hcare; destruct (I9 Hcare) as (w & written & Ls & F1 & F2 & F3 & F4).
    destruct (lookup_lt_is_Some_2 Ls id) as [ls Hls]. { rewrite F2. by eapply lookup_lt_Some. }
    exists w, written, (<[id := ls ++ [x]]> Ls). split_and!; [done|by rewrite !insert_length| |].
    + intros j bj lj Hj Hlj. apply list_lookup_insert_Some in Hj as [(<- & <- & ?)|(Hne & Hj)].
      * rewrite list_lookup_insert in Hlj by (rewrite F2; by eapply lookup_lt_Some). injection Hlj as <-.
        rewrite decide_False by done. specialize (F3 _ _ _ Hb Hls). rewrite decide_False in F3 by done.
        cbn. by rewrite concat_app, F3; simpl; rewrite app_nil_r.
      * rewrite list_lookup_insert_ne in Hlj by done. by eapply F3.
    + rewrite F4. pose proof (concat_insert Ls id ls (ls ++ [x]) Hls) as HP.
      rewrite <- app_assoc. apply Permutation_app_head.
      apply (Permutation_app_inv_r ls). rewrite HP. rewrite <- app_assoc. apply Permutation_app_head. apply Permutation_app_comm.
Qed.

Lemma ring_lookup (r : list nat) n i : r ≡ₚ seq 0 n → i < length r → ∃ id, r !! i = Some id ∧ id < n.
Proof.
  intros HP Hi. destruct (lookup_lt_is_Some_2 r i Hi) as [id Hid]. exists id. split; [done|].
  assert (id ∈ seq 0 n) as H by (rewrite <- HP; by eapply elem_of_list_lookup_2).
  apply elem_of_seq in H. lia.
Qed.

Lemma finv_check (P : Prop) d0 lines s now : finv P d0 lines s → finv P d0 lines (check_flush now s).
Proof.
  intros I. destruct (finv_cur _ _ _ _ I) as (c & id & b & Hc & Hr & Hb & Hn & Hq & Hw).
  unfold check_flush. rewrite Hc, Hr, Hb. case_match; [|done]. clear H.
  destruct I as [I1 I2 I3 I4 I5 I6 I7 I8 I9]. rewrite I1.
  set (bs := <[id:=Buffer (b_data b) true (b_last b)]> (f_bufs s)).
  assert (id < length (f_bufs s)) as Hlt by by eapply lookup_lt_Some.
  assert (length bs = length (f_bufs s)) as Hlen by by apply insert_length.
  assert (bs !! id = Some (Buffer (b_data b) true (b_last b))) as Hbid by by apply list_lookup_insert.
  set (c' := if S c =? length (f_ring s) then 0 else S c).
  assert (c < length (f_ring s)) as Hcl by by eapply lookup_lt_Some.
  assert (c' < length (f_ring s)) as Hc' by (unfold c'; destruct (Nat.eqb_spec (S c) (length (f_ring s))); lia).
  destruct (ring_lookup _ _ _ I2 Hc') as (id' & Hr' & Hlt').
  rewrite Hr'. destruct (lookup_lt_is_Some_2 bs id') as [b' Hb']; [by rewrite Hlen|]. rewrite Hb'.
  assert (NoDup ((f_queue s ++ [id]) ++ holder (f_work s))) as Hnd.
  { rewrite <- app_assoc. simpl. rewrite <- Permutation_middle. by constructor. }
  assert (∀ j bj, bs !! j = Some bj → b_need bj = false → f_bufs s !! j = Some bj ∧ j ≠ id) as Hold.
  { intros j bj Hj Hf. apply list_lookup_insert_Some in Hj as [(<- & <- & ?)|(? & ?)]; [done|]. by split. }
  assert (∀ j bj, bs !! j = Some bj → ∃ bj', f_bufs s !! j = Some bj' ∧ b_data bj' = b_data bj) as Hdat.
  { intros j bj Hj. apply list_lookup_insert_Some in Hj as [(<- & <- & ?)|(? & ?)]; eauto. }
  assert (∀ j, j ∈ (f_queue s ++ [id]) ++ holder (f_work s) → ∃ bj, bs !! j = Some bj ∧ b_need bj = true) as Hneed.
  { intros j Hj. destruct (decide (j = id)) as [->|Hne]; [by eauto|].
    destruct (I6 j) as (bj & ? & ?); [set_solver|]. exists bj. split; [|done]. by unfold bs; rewrite list_lookup_insert_ne. }
  destruct (b_need b') eqn:En; split; cbn; try done.
  - rewrite app_length, Nat.add_1_r, seq_S, Hlen. simpl. rewrite <- Permutation_middle.
    rewrite <- I2. rewrite take_drop. by rewrite <- Permutation_cons_append.
  - intros Hcare. rewrite !app_length. simpl. rewrite take_length, drop_length. specialize (I3 Hcare). lia.
  - eexists (S c), (length bs), _. split_and!; [done|by apply list_lookup_middle; rewrite take_length; lia|by apply list_lookup_middle|done].
  - intros j Hj. destruct (Hneed _ Hj) as (bj & Hbj & ?). exists bj. split; [|done]. by apply lookup_app_l_Some.
  - intros j bj c1 Hj Hf [= <-] Hne. apply lookup_app_Some in Hj as [Hj|[Hge Hj]].
    + destruct (Hold _ _ Hj Hf) as [? ?]. eapply I7; [done..|]. congruence.
    + apply list_lookup_singleton_Some in Hj as [Hj <-]. done.
  - intros j bj HW Hj. apply lookup_app_Some in Hj as [Hj|[Hge Hj]].
    + destruct (Hdat _ _ Hj) as (bj' & ? & <-). by eapply I8.
    + by apply list_lookup_singleton_Some in Hj as [Hj <-].
  - intros Hcare; destruct (I9 Hcare) as (w & written & Ls & F1 & F2 & F3 & F4). exists w, written, (Ls ++ [[]]).
    split_and!; [done|by rewrite !app_length, F2, Hlen| |by rewrite concat_app; simpl; rewrite !app_nil_r].
    intros j bj lj Hj Hlj. apply lookup_app_Some in Hj as [Hj|[Hge Hj]].
    + destruct (Hdat _ _ Hj) as (bj' & ? & Hd). rewrite <- Hd.
      rewrite lookup_app_l in Hlj by (rewrite F2, <- Hlen; by eapply lookup_lt_Some). by eapply F3.
    + apply list_lookup_singleton_Some in Hj as [Hj <-].
      rewrite lookup_app_r in Hlj by lia. apply list_lookup_singleton_Some in Hlj as [? <-]. by case_decide.
  - by rewrite Hlen.
  - eexists c', id', _. done.
  - intros j bj c1 Hj Hf [= <-] Hne. destruct (Hold _ _ Hj Hf) as [? ?]. eapply I7; [done..|]. congruence.
  - intros j bj HW Hj. destruct (Hdat _ _ Hj) as (bj' & ? & <-). by eapply I8.
  - intros Hcare; destruct (I9 Hcare) as (w & written & Ls & F1 & F2 & F3 & F4). exists w, written, Ls.
    split_and!; [done|by rewrite F2, Hlen| |done].
    intros j bj lj Hj Hlj. destruct (Hdat _ _ Hj) as (bj' & ? & Hd). rewrite <- Hd. by eapply F3.
Qed.

Lemma finv_log (P : Prop) d0 lines s l stamp msg now :
  finv P d0 lines s →
  finv P d0 (if wanted (f_level s) l then lines ++ [log_line l stamp msg] else lines) (flog_log l stamp msg now s).
Proof.
  intros I. unfold flog_log. rewrite level_gt_wanted. destruct (wanted _ _); [|done]. cbn [negb].
  destruct (finv_cur _ _ _ _ I) as (c & id & b & Hc & Hr & Hb & _). rewrite Hc, Hr, Hb.
  apply finv_check. by eapply finv_append.
Qed.

(** * The steps of the flush thread *)
Lemma file_append_data room f p data w d :
  file_data f p w d → (length data ≤ room)%nat →
  (w = true ∧ (file_append room f p data).1 = kSuccess ∧ file_data (file_append room f p data).2 p true (d ++ data)) ∨
  (w = false ∧ (file_append room f p data).1 = kLogicErr ∧ (file_append room f p data).2 = f).
Proof.
  intros (r & o & Hf) Hl. unfold file_append, open_out. rewrite Hf. destruct w; [left|right]; split_and!; try done.
  exists r, o. simpl. unfold fs_set. rewrite decide_True by done. by rewrite take_ge by lia.
Qed.

Definition pending (lv : level) (a : flabel) (lines : list bytes) : list bytes :=
  match a with
  | ALog l stamp msg _ => if wanted lv l then lines ++ [log_line l stamp msg] else lines
  | _ => lines
  end.

Lemma finv_step (P : Prop) d0 lines s a s' :
  finv P d0 lines s → fstep s a = Some s' → (P → gentle s a) → finv P d0 (pending (f_level s) a lines) s'.
Proof.
  intros I Hs Hg. destruct a as [l stamp msg now| |room| | |now|f]; cbn [fstep pending] in *.
  - injection Hs as <-. by apply finv_log.
  - rewrite (v_pool _ _ _ _ I) in Hs. destruct (f_work s) eqn:Ew; try done. destruct (f_queue s) as [|id q] eqn:Eq; [done|].
    injection Hs as <-. destruct I as [I1 I2 I3 I4 I5 I6 I7 I8 I9]. rewrite Ew, Eq in *. simpl in *.
    rewrite app_nil_r in *. split; cbn; try done.
    + rewrite Permutation_app_comm. simpl. done.
    + intros j Hj. apply I6. set_solver.
  - destruct (f_work s) as [|id|id|id|id] eqn:Ew; try done. destruct (f_bufs s !! id) as [b|] eqn:Eb; [|done].
    destruct (bool_decide _) eqn:Ed.
    + injection Hs as <-. destruct I as [I1 I2 I3 I4 I5 I6 I7 I8 I9]. rewrite Ew in *. split; cbn in *; try done.
      * rewrite app_nil_r. by apply NoDup_app in I5 as [? _].
      * intros j Hj. apply I6. rewrite app_nil_r in Hj. set_solver.
    + destruct I as [I1 I2 I3 I4 I5 I6 I7 I8 I9]. rewrite Ew in *.
      destruct ((file_append room (f_fs s) (f_path s) (b_data b)).1 =? kSuccess)%Z eqn:Erc; injection Hs as <-.
      * split; cbn in *; try done. intros Hcare. specialize (Hg Hcare _ _ Ew Eb).
        destruct (I9 Hcare) as (w & written & Ls & F1 & F2 & F3 & F4).
        destruct (lookup_lt_is_Some_2 Ls id) as [ls Hls]. { rewrite F2. by eapply lookup_lt_Some. }
        pose proof (F3 _ _ _ Eb Hls) as Hd. rewrite decide_False in Hd by done.
        destruct (file_append_data room (f_fs s) (f_path s) (b_data b) w _ F1 Hg) as [(-> & Hrc & Hdat)|(-> & Hrc & Hfs)];
          [|by rewrite Hrc in Erc].
        exists true, (written ++ ls), (<[id := []]> Ls). split_and!; [|by rewrite insert_length| |].
        { rewrite concat_app, app_assoc, <- Hd. done. }
        { intros j bj lj Hj Hlj. case_decide as Hdec.
          - injection Hdec as <-. rewrite list_lookup_insert in Hlj by (rewrite F2; by eapply lookup_lt_Some). by injection Hlj as <-.
          - rewrite list_lookup_insert_ne in Hlj by congruence. specialize (F3 _ _ _ Hj Hlj). done. }
        { rewrite F4, <- app_assoc. apply Permutation_app_head.
          pose proof (concat_insert Ls id ls [] Hls) as HP. rewrite app_nil_r in HP. by rewrite <- HP, Permutation_app_comm. }
      * split; cbn in *; try done.
        { rewrite app_nil_r. by apply NoDup_app in I5 as [? _]. }
        { intros j Hj. apply I6. rewrite app_nil_r in Hj. set_solver. }
        intros Hcare. specialize (Hg Hcare _ _ Ew Eb). destruct (I9 Hcare) as (w & written & Ls & F1 & F2 & F3 & F4).
        destruct (file_append_data room (f_fs s) (f_path s) (b_data b) w _ F1 Hg) as [(-> & Hrc & Hdat)|(-> & Hrc & Hfs)];
          [by rewrite Hrc in Erc|].
        rewrite Hfs. exists false, written, Ls. split_and!; try done.
  - destruct (f_work s) as [|id|id|id|id] eqn:Ew; try done. injection Hs as <-.
    destruct I as [I1 I2 I3 I4 I5 I6 I7 I8 I9]. rewrite Ew in *.
    destruct (I6 id) as (b & Eb & En). { simpl. set_solver. }
    unfold upd_buf. rewrite Eb. assert (id < length (f_bufs s)) as Hlt by by eapply lookup_lt_Some.
    split; cbn in *; try done.
    + by rewrite insert_length.
    + destruct I4 as (c & j & bj & ? & ? & ? & ?). exists c, j, bj. split_and!; try done.
      rewrite list_lookup_insert_ne; [done|]. intros ->. congruence.
    + intros j Hj. destruct (decide (j = id)) as [->|]; [by eexists; rewrite list_lookup_insert|].
      rewrite list_lookup_insert_ne by done. by apply I6.
    + intros j bj c Hj Hf Hc Hr. apply list_lookup_insert_Some in Hj as [(<- & <- & ?)|(? & ?)]; [done|by eapply I7].
    + intros j bj [= <-] Hj. rewrite list_lookup_insert in Hj by done. by injection Hj as <-.
    + intros Hcare; destruct (I9 Hcare) as (w & written & Ls & F1 & F2 & F3 & F4). exists w, written, Ls. split_and!; try done.
      { by rewrite insert_length. }
      intros j bj lj Hj Hlj. apply list_lookup_insert_Some in Hj as [(<- & <- & ?)|(? & Hj)].
      * specialize (F3 _ _ _ Eb Hlj). rewrite decide_True in F3 by done. by subst.
      * specialize (F3 _ _ _ Hj Hlj). rewrite decide_False in F3 by congruence. done.
  - destruct (f_work s) as [|id|id|id|id] eqn:Ew; try done. injection Hs as <-.
    destruct I as [I1 I2 I3 I4 I5 I6 I7 I8 I9]. rewrite Ew in *.
    destruct (I6 id) as (b & Eb & En). { simpl. set_solver. }
    unfold upd_buf. rewrite Eb. assert (id < length (f_bufs s)) as Hlt by by eapply lookup_lt_Some.
    pose proof (I8 _ _ eq_refl Eb) as Hdat.
    assert (id ∉ f_queue s) as Hnq. { intros Hin. simpl in I5. apply NoDup_app in I5 as (_ & HH & _). apply (HH _ Hin). set_solver. }
    split; cbn in *; try done.
    + by rewrite insert_length.
    + destruct I4 as (c & j & bj & ? & ? & ? & ?). exists c, j, bj. split_and!; try done.
      rewrite list_lookup_insert_ne; [done|]. intros ->. congruence.
    + rewrite app_nil_r. by apply NoDup_app in I5 as [? _].
    + intros j Hj. rewrite app_nil_r in Hj. rewrite list_lookup_insert_ne by congruence. apply I6. set_solver.
    + intros j bj c Hj Hf Hc Hr. apply list_lookup_insert_Some in Hj as [(<- & <- & ?)|(? & ?)]; [done|by eapply I7].
    + intros Hcare; destruct (I9 Hcare) as (w & written & Ls & F1 & F2 & F3 & F4). exists w, written, Ls. split_and!; try done.
      { by rewrite insert_length. }
      intros j bj lj Hj Hlj. apply list_lookup_insert_Some in Hj as [(<- & <- & ?)|(? & Hj)].
      * specialize (F3 _ _ _ Eb Hlj). done.
      * specialize (F3 _ _ _ Hj Hlj). done.
  - destruct (f_work s) as [|id|id|id|id] eqn:Ew; try done. injection Hs as <-. unfold upd_buf.
    destruct I as [I1 I2 I3 I4 I5 I6 I7 I8 I9]. rewrite Ew in *.
    destruct (f_bufs s !! id) as [b|] eqn:Eb.
    2: { split; cbn; try done. }
    assert (id < length (f_bufs s)) as Hlt by by eapply lookup_lt_Some.
    split; cbn in *; try done.
    + by rewrite insert_length.
    + destruct I4 as (c & j & bj & ? & ? & ? & ?). destruct (decide (j = id)) as [->|].
      * eexists c, id, _. split; [done|]. split; [done|]. split; [by rewrite list_lookup_insert|]. cbn; congruence.
      * exists c, j, bj. split_and!; try done. by rewrite list_lookup_insert_ne.
    + intros j Hj. destruct (I6 _ Hj) as (bj & Hbj & ?). destruct (decide (j = id)) as [->|].
      * eexists. rewrite list_lookup_insert by done. split; [done|]. cbn; congruence.
      * exists bj. by rewrite list_lookup_insert_ne.
    + intros j bj c Hj Hf Hc Hr. apply list_lookup_insert_Some in Hj as [(<- & <- & ?)|(? & ?)]; [cbn in *|]; eapply I7; done.
    + intros Hcare; destruct (I9 Hcare) as (w & written & Ls & F1 & F2 & F3 & F4). exists w, written, Ls. split_and!; try done.
      { by rewrite insert_length. }
      intros j bj lj Hj Hlj. apply list_lookup_insert_Some in Hj as [(<- & <- & ?)|(? & Hj)].
      * specialize (F3 _ _ _ Eb Hlj). done.
      * specialize (F3 _ _ _ Hj Hlj). done.
  - injection Hs as <-. destruct I as [I1 I2 I3 I4 I5 I6 I7 I8 I9]. split; cbn; try done.
    intros Hcare; destruct (I9 Hcare) as (w & written & Ls & F1 & F2 & F3 & F4). destruct (Hg Hcare _ _ F1) as [w' ?].
    exists w', written, Ls. split_and!; try done.
Qed.

Lemma fstep_level s a s' : fstep s a = Some s' → f_level s' = f_level s ∧ f_path s' = f_path s.
Proof.
  intros H. destruct a; cbn in H; unfold flog_log, check_flush, upd_buf in H;
    repeat match type of H with context [match ?b with _ => _ end] => destruct b end; by simplify_eq.
Qed.

Lemma logs_pending lv a ls lines acc :
  logs lv (a :: ls) lines → ∃ rest, logs lv ls rest ∧ acc ++ lines = pending lv a acc ++ rest.
Proof.
  intros H. inversion H as [|l stamp msg now line ls' lines' Hw Ht Hl|l stamp msg now ls' lines' Hw Hl|a' ls' lines' Ha Hl]; subst.
  - exists lines'. split; [done|]. simpl. rewrite Hw, (line_text_det _ _ _ _ Ht). by rewrite <- app_assoc.
  - exists lines. split; [done|]. simpl. by rewrite Hw.
  - exists lines. split; [done|]. by destruct a.
Qed.

Lemma finv_calm (P : Prop) d0 s ls s' lines acc :
  calm s ls s' → finv P d0 acc s → logs (f_level s) ls lines → finv P d0 (acc ++ lines) s'.
Proof.
  intros HC. revert lines acc. induction HC as [s|s a s' ls s'' Hs Hg HC IH]; intros lines acc I HL.
  - inversion HL; subst. by rewrite app_nil_r.
  - destruct (logs_pending _ _ _ _ acc HL) as (rest & Hrest & ->). destruct (fstep_level _ _ _ Hs) as [El _].
    apply IH; [by eapply finv_step; eauto|]. by rewrite El.
Qed.

Lemma calm_level s ls s' : calm s ls s' → f_level s' = f_level s ∧ f_path s' = f_path s.
Proof. induction 1 as [|s a s' ls s'' Hs Hg HC [IH1 IH2]]; [done|]. destruct (fstep_level _ _ _ Hs). split; congruence. Qed.

(** * Init *)
Lemma finv_init (P : Prop) mk now p s0 s1 w d0 :
  f_pool s0 = PNone → f_queue s0 = [] → (P → 1 ≤ f_num s0)%Z →
  flog_init mk now p s0 = Ok (kSuccess, s1) → f_pool s1 = PRun → (P → file_data (f_fs s1) p w d0) →
  finv P d0 [] s1 ∧ f_level s1 = f_level s0 ∧ f_path s1 = p.
Proof.
  intros Hp Hq Hn Hi Hr Hd. unfold flog_init in Hi. destruct (file_create mk (f_fs s0) p) as [[rc f1]| | | | |]; try done.
  cbn [fst snd f_fs] in Hi. simpl in Hi. destruct (rc =? kSuccess)%Z eqn:Erc; cbn [negb] in Hi.
  2: { injection Hi as Hi1 Hi2. rewrite <- Hi2 in Hr. cbn in Hr. congruence. }
  destruct (file_can_write f1 p) as [wb| | | | |]; try done. destruct wb; cbn in Hi.
  2: { injection Hi as Hi2. rewrite <- Hi2 in Hr. cbn in Hr. congruence. }
  rewrite Hp in Hi. injection Hi as <-. cbn in Hd |- *. split; [|done].
  set (n := Nat.max 1 (Z.to_nat (f_num s0))). assert (1 ≤ n) as Hn1 by lia.
  assert (P → f_num s0 = Z.of_nat n) as Hnz by (intros Hcare; specialize (Hn Hcare); lia).
  split; cbn; rewrite ?Hq; try done.
  - by rewrite replicate_length.
  - by rewrite seq_length.
  - exists 0, 0, (buffer_new now). split_and!; [done| | |done].
    + destruct n; [lia|]. done.
    + by apply lookup_replicate.
  - constructor.
  - intros id Hin. by apply elem_of_nil in Hin.
  - intros id b c [-> ?]%lookup_replicate. done.
  - intros Hcare. exists w, [], (replicate n []). rewrite app_nil_r, !replicate_length. split_and!; [by apply Hd|done| |].
    + intros id b ls [-> ?]%lookup_replicate [-> ?]%lookup_replicate. done.
    + simpl. assert (concat (replicate n []) = ([] : list bytes)) as ->; [|done]. clear. induction n; done.
Qed.

(** * Stop *)
Definition sinv (room : nat) (p d0 : bytes) (lines : list bytes) (rest : list nat) (s : flog) : Prop :=
  f_path s = p ∧ (∀ id b, f_bufs s !! id = Some b → length (b_data b) ≤ room) ∧
  ∃ written (Ls : list (list bytes)), file_data (f_fs s) p true (d0 ++ concat written) ∧ length Ls = length (f_bufs s) ∧
    (∀ id b ls, f_bufs s !! id = Some b → Ls !! id = Some ls → b_data b = concat ls) ∧
    lines ≡ₚ written ++ concat Ls ∧ (∀ id ls, Ls !! id = Some ls → id ∉ rest → ls = []).

Lemma sinv_step room now p d0 lines id rest s :
  sinv room p d0 lines (id :: rest) s → sinv room p d0 lines rest (flush_now room now s id).
Proof.
  intros (Hp & Hroom & written & Ls & F1 & F2 & F3 & F4 & F5). unfold flush_now.
  destruct (f_bufs s !! id) as [b|] eqn:Eb.
  2: { split_and!; try done. exists written, Ls. split_and!; try done. intros j lj Hj Hnin. apply (F5 j lj Hj).
       apply not_elem_of_cons. split; [|done]. intros ->. apply lookup_ge_None_1 in Eb. apply lookup_lt_Some in Hj. lia. }
  assert (id < length (f_bufs s)) as Hlt by by eapply lookup_lt_Some.
  destruct (lookup_lt_is_Some_2 Ls id) as [ls Hls]; [by rewrite F2|]. pose proof (F3 _ _ _ Eb Hls) as Hd.
  assert (lines ≡ₚ (written ++ ls) ++ concat (<[id:=[]]> Ls)) as HP.
  { rewrite F4, <- app_assoc. apply Permutation_app_head.
    pose proof (concat_insert Ls id ls [] Hls) as HP. rewrite app_nil_r in HP. by rewrite <- HP, Permutation_app_comm. }
  assert (∀ j lj, <[id:=[]]> Ls !! j = Some lj → j ∉ rest → lj = []) as Hrest.
  { intros j lj Hj Hnin. apply list_lookup_insert_Some in Hj as [(<- & <- & ?)|(? & Hj)]; [done|].
    apply (F5 j lj Hj). by apply not_elem_of_cons. }
  destruct (bool_decide _) eqn:Ed.
  - apply bool_decide_eq_true in Ed. split_and!; try done. exists (written ++ ls), (<[id := []]> Ls).
    split_and!; try done.
    + rewrite concat_app, <- Hd, Ed, app_nil_r. done.
    + by rewrite insert_length.
    + intros j bj lj Hj Hlj. apply list_lookup_insert_Some in Hlj as [(<- & <- & ?)|(? & Hlj)]; [by simplify_eq|by eapply F3].
  - rewrite Hp. destruct (file_append_data room (f_fs s) p (b_data b) _ _ F1 (Hroom _ _ Eb)) as [(_ & -> & Hdat)|(? & _)]; [|done].
    cbn. unfold sinv. cbn. split_and!; try done.
    + intros j bj Hj. apply list_lookup_insert_Some in Hj as [(<- & <- & ?)|(? & Hj)]; [simpl; lia|by eapply Hroom].
    + exists (written ++ ls), (<[id := []]> Ls). split_and!; try done.
      * rewrite concat_app, app_assoc, <- Hd. done.
      * by rewrite !insert_length.
      * intros j bj lj Hj Hlj. apply list_lookup_insert_Some in Hlj as [(<- & <- & ?)|(? & Hlj)].
        { rewrite list_lookup_insert in Hj by done. by injection Hj as <-. }
        rewrite list_lookup_insert_ne in Hj by done. by eapply F3.
Qed.

Lemma sinv_all room now p d0 lines ids s :
  sinv room p d0 lines ids s → sinv room p d0 lines [] (foldl (flush_now room now) s ids).
Proof. revert s. induction ids as [|id ids IH]; intros s H; [done|]. simpl. by apply IH, sinv_step. Qed.

Lemma ring_ids (r : list nat) : map (λ i, nth (i mod length r) r 0) (seq 0 (length r)) = r.
Proof.
  apply list_eq. intros i. rewrite list_lookup_fmap. destruct (decide (i < length r)) as [Hi|Hi].
  - rewrite lookup_seq_lt by done. simpl. rewrite Nat.mod_small by done.
    destruct (lookup_lt_is_Some_2 r i Hi) as [x Hx]. rewrite Hx. f_equal. by apply nth_lookup_Some.
  - rewrite lookup_seq_ge by lia. rewrite lookup_ge_None_2; [done|lia].
Qed.

Lemma stop_all d0 lines s room now :
  finv True d0 lines s → f_work s = FIdle → (∃ d, file_data (f_fs s) (f_path s) true d) →
  (∀ id b, f_bufs s !! id = Some b → length (b_data b) ≤ room) →
  ∃ out, file_data (f_fs (flog_stop room now s)) (f_path s) true (d0 ++ concat out) ∧ out ≡ₚ lines.
Proof.
  intros I Hw (d & Hd) Hroom. destruct (finv_cur _ _ _ _ I) as (c & id & b & Hc & _). unfold flog_stop. rewrite Hc.
  rewrite (v_num _ _ _ _ I ltac:(done)), Nat2Z.id, ring_ids. cbn [f_fs].
  set (s0 := FLog _ _ _ _ _ _ _ _ _ _ _ _).
  assert (sinv room (f_path s) d0 lines (f_ring s) s0) as HS.
  { split_and!; try done. destruct (v_file _ _ _ _ I ltac:(done)) as (w & written & Ls & F1 & F2 & F3 & F4). exists written, Ls.
    split_and!; try done.
    - destruct Hd as (r & o & Hd), F1 as (r' & o' & F1). exists r', o'. cbn. rewrite F1 in Hd. injection Hd as -> -> ->. done.
    - intros j bj lj Hj Hlj. specialize (F3 _ _ _ Hj Hlj). by rewrite Hw in F3.
    - intros j lj Hj Hnin. destruct Hnin. rewrite (v_ring _ _ _ _ I). apply elem_of_seq. apply lookup_lt_Some in Hj. lia. }
  apply (sinv_all _ now) in HS. destruct HS as (_ & _ & written & Ls & F1 & _ & _ & F4 & F5).
  exists written. split; [done|]. rewrite F4.
  assert (concat Ls = []) as ->; [|by rewrite app_nil_r].
  clear -F5. assert (Forall (λ l, l = []) Ls) as HF.
  { apply Forall_lookup. intros j lj Hj. eapply F5; [done|]. apply not_elem_of_nil. }
  induction HF as [|l Ls -> HF IH]; [done|]. apply IH. intros j ls Hj _. by eapply Forall_lookup_1 in HF.
Qed.

(** * Order *)
Definition dat (s : flog) (id : nat) : bytes := match f_bufs s !! id with Some b => b_data b | None => [] end.
Definition curdat (s : flog) : bytes :=
  match f_cur s with Some c => match f_ring s !! c with Some id => dat s id | None => [] end | None => [] end.
Definition gotdat (s : flog) : bytes := match f_work s with FGot id => dat s id | _ => [] end.

Record oinv (d0 : bytes) (lines : list bytes) (s : flog) : Prop := OInv {
  o_file : ∃ d, file_data (f_fs s) (f_path s) true d ∧
     d ++ gotdat s ++ concat (map (dat s) (f_queue s)) ++ curdat s = d0 ++ concat lines;
  o_rest : ∀ id, id ∉ f_queue s → f_work s ≠ FGot id → f_work s ≠ FAppended id →
     (∀ c, f_cur s = Some c → f_ring s !! c ≠ Some id) → dat s id = [] }.

Lemma map_dat_eq s s' q : (∀ j, j ∈ q → dat s' j = dat s j) → map (dat s') q = map (dat s) q.
Proof. intros H. apply map_ext_in. intros j Hj. apply H. by apply elem_of_list_In. Qed.

Lemma dat_set s bs j : dat (set_bufs s bs) j = match bs !! j with Some b => b_data b | None => [] end.
Proof. done. Qed.

Lemma oinv_append d0 lines s c id b x :
  finv True d0 lines s → oinv d0 lines s → f_cur s = Some c → f_ring s !! c = Some id → f_bufs s !! id = Some b →
  oinv d0 (lines ++ [x]) (set_bufs s (<[id := Buffer (b_data b ++ x) (b_need b) (b_last b)]> (f_bufs s))).
Proof.
  intros I [(d & Hd & He) HR] Hc Hr Hb.
  destruct (finv_cur _ _ _ _ I) as (c0 & id0 & b0 & H1 & H2 & H3 & H4 & H5 & H6). simplify_eq.
  set (s' := set_bufs s _).
  assert (∀ j, j ≠ id → dat s' j = dat s j) as Hsame.
  { intros j Hj. unfold dat, s'. cbn. by rewrite list_lookup_insert_ne. }
  assert (dat s' id = dat s id ++ x) as Hid.
  { unfold dat, s'. cbn. rewrite list_lookup_insert by by eapply lookup_lt_Some. by rewrite Hb. }
  split.
  - exists d. split; [done|]. assert (gotdat s' = gotdat s) as ->.
    { unfold gotdat. change (f_work s') with (f_work s). destruct (f_work s) eqn:E; try done. apply Hsame.
      intros ->. apply H5. apply elem_of_app. right. simpl. set_solver. }
    rewrite (map_dat_eq s s'). 2: { intros j Hj. apply Hsame. intros ->. apply H5. apply elem_of_app. by left. }
    assert (curdat s' = curdat s ++ x) as ->. { unfold curdat. cbn. by rewrite Hc, Hr. }
    change (f_queue s') with (f_queue s). rewrite concat_app. simpl. rewrite app_nil_r, !app_assoc. f_equal.
    rewrite <- !app_assoc. done.
  - intros j ? ? ? Hj. rewrite Hsame; [by apply HR|]. intros ->. by apply (Hj _ Hc).
Qed.

Lemma oinv_check d0 lines s now : finv True d0 lines s → oinv d0 lines s → oinv d0 lines (check_flush now s).
Proof.
  intros I [(d & Hd & He) HR]. destruct (finv_cur _ _ _ _ I) as (c & id & b & Hc & Hr & Hb & Hn & Hq & Hw).
  unfold check_flush. rewrite Hc, Hr, Hb. case_match; [|by split; eauto]. clear H.
  rewrite (v_pool _ _ _ _ I).
  set (bs := <[id:=Buffer (b_data b) true (b_last b)]> (f_bufs s)).
  assert (id < length (f_bufs s)) as Hlt by by eapply lookup_lt_Some.
  assert (length bs = length (f_bufs s)) as Hlen by by apply insert_length.
  set (c' := if S c =? length (f_ring s) then 0 else S c).
  assert (c < length (f_ring s)) as Hcl by by eapply lookup_lt_Some.
  assert (c' < length (f_ring s)) as Hc' by (unfold c'; destruct (Nat.eqb_spec (S c) (length (f_ring s))); lia).
  destruct (ring_lookup _ _ _ (v_ring _ _ _ _ I) Hc') as (id' & Hr' & Hlt').
  rewrite Hr'. destruct (lookup_lt_is_Some_2 bs id') as [b' Hb']; [by rewrite Hlen|]. rewrite Hb'.
  assert (∀ j, match bs !! j with Some b => b_data b | None => [] end = dat s j) as Hdat.
  { intros j. unfold dat, bs. destruct (decide (j = id)) as [->|]; [by rewrite list_lookup_insert, Hb|].
    by rewrite list_lookup_insert_ne. }
  assert (curdat s = dat s id) as Hcd by (unfold curdat; by rewrite Hc, Hr).
  destruct (b_need b') eqn:En.
  - set (s' := set_queue _ _). assert (∀ j, dat s' j = dat s j) as Hs'.
    { intros j. rewrite <- Hdat. unfold dat, s'. cbn. destruct (bs !! j) as [bj|] eqn:Ej; [by erewrite lookup_app_l_Some|].
      apply lookup_ge_None_1 in Ej. destruct (decide (j = length bs)) as [->|].
      - by rewrite list_lookup_middle.
      - rewrite lookup_ge_None_2; [done|]. rewrite app_length. simpl. lia. }
    split.
    + exists d. split; [done|]. rewrite <- He. f_equal. f_equal.
      { unfold gotdat. cbn. by destruct (f_work s). }
      rewrite (map_dat_eq s s') by done. cbn. rewrite map_app, concat_app. cbn. rewrite app_nil_r, <- app_assoc. f_equal.
      rewrite Hcd. unfold curdat. cbn. rewrite list_lookup_middle by (rewrite take_length; lia). rewrite Hs'.
      unfold dat at 2. rewrite lookup_ge_None_2; [by rewrite app_nil_r|lia].
    + intros j Hj1 Hj2 Hj3 Hj4. rewrite Hs'. cbn in *. apply HR; [set_solver|done..|].
      intros c1 ? ?. simplify_eq. apply Hj1. set_solver.
  - set (s' := set_queue _ _). assert (∀ j, dat s' j = dat s j) as Hs' by (intros j; by rewrite <- Hdat).
    assert (id' ≠ id) as Hne. { intros ->. unfold bs in Hb'. rewrite list_lookup_insert in Hb' by done. injection Hb' as <-. done. }
    assert (dat s id' = []) as Hempty.
    { unfold bs in Hb'. rewrite list_lookup_insert_ne in Hb' by done. unfold dat. rewrite Hb'.
      eapply (v_free _ _ _ _ I); [done..|]. congruence. }
    split.
    + exists d. split; [done|]. rewrite <- He. f_equal. f_equal.
      { unfold gotdat. cbn. by destruct (f_work s). }
      rewrite (map_dat_eq s s') by done. cbn. rewrite map_app, concat_app. cbn. rewrite app_nil_r, <- app_assoc. f_equal.
      rewrite Hcd. unfold curdat. cbn. fold c'. rewrite Hr', Hs', Hempty. by rewrite app_nil_r.
    + intros j Hj1 Hj2 Hj3 Hj4. rewrite Hs'. cbn in *. apply HR; [set_solver|done..|].
      intros c1 ? ?. simplify_eq. apply Hj1. set_solver.
Qed.

Lemma oinv_step d0 lines s a s' :
  finv True d0 lines s → oinv d0 lines s → fstep s a = Some s' → gentle s a →
  match a with AEnv _ => False | _ => True end → oinv d0 (pending (f_level s) a lines) s'.
Proof.
  intros I O Hs Hg Ha. destruct (finv_cur _ _ _ _ I) as (c & cid & cb & Hc & Hr & Hb & Hn & Hq & Hw).
  destruct a as [l stamp msg now| |room| | |now|f]; cbn [fstep pending] in *; [..|done].
  - injection Hs as <-. unfold flog_log. rewrite level_gt_wanted. destruct (wanted _ _); [|done]. cbn [negb].
    rewrite Hc, Hr, Hb. apply oinv_check; [by eapply finv_append|by eapply oinv_append].
  - rewrite (v_pool _ _ _ _ I) in Hs. destruct (f_work s) eqn:Ew; try done. destruct (f_queue s) as [|id q] eqn:Eq; [done|].
    injection Hs as <-. destruct O as [(d & Hd & He) HR]. split.
    + exists d. split; [done|]. rewrite <- He. unfold gotdat. cbn. rewrite Ew, Eq. cbn. by rewrite <- app_assoc.
    + intros j Hj1 Hj2 Hj3 Hj4. cbn in *. change (dat s j = []). apply HR; [|congruence..|done]. rewrite Eq. set_solver.
  - destruct (f_work s) as [|id|id|id|id] eqn:Ew; try done. destruct (f_bufs s !! id) as [b|] eqn:Eb; [|done].
    destruct O as [(d & Hd & He) HR]. assert (gotdat s = b_data b) as Hgd by (unfold gotdat, dat; by rewrite Ew, Eb).
    destruct (bool_decide _) eqn:Ed.
    + apply bool_decide_eq_true in Ed. injection Hs as <-. split.
      * exists d. split; [done|]. rewrite <- He, Hgd, Ed. done.
      * intros j Hj1 Hj2 Hj3 Hj4. change (dat s j = []). destruct (decide (j = id)) as [->|].
        { unfold dat. by rewrite Eb. }
        apply HR; try done; congruence.
    + specialize (Hg _ _ Ew Eb).
      destruct (file_append_data room (f_fs s) (f_path s) (b_data b) _ _ Hd Hg) as [(_ & Hrc & Hdat)|(? & _)]; [|done].
      rewrite Hrc in Hs. cbn in Hs. injection Hs as <-. split.
      * exists (d ++ b_data b). split; [done|]. rewrite <- He, Hgd. rewrite <- !app_assoc. done.
      * intros j Hj1 Hj2 Hj3 Hj4. change (dat s j = []). apply HR; try done; cbn in *; congruence.
  - destruct (f_work s) as [|id|id|id|id] eqn:Ew; try done. injection Hs as <-. unfold upd_buf.
    destruct (v_need _ _ _ _ I id) as (b & Eb & En). { rewrite Ew. simpl. set_solver. } rewrite Eb.
    assert (id ∉ f_queue s) as Hnq.
    { intros Hin. pose proof (v_busy _ _ _ _ I) as HB. rewrite Ew in HB. apply NoDup_app in HB as (_ & HH & _). apply (HH _ Hin). set_solver. }
    set (s' := set_work _ _).
    assert (∀ j, j ≠ id → dat s' j = dat s j) as Hsame.
    { intros j Hj. unfold dat, s'. cbn. by rewrite list_lookup_insert_ne. }
    destruct O as [(d & Hd & He) HR]. split.
    + exists d. split; [done|]. rewrite <- He. unfold gotdat. cbn. rewrite Ew. cbn.
      rewrite (map_dat_eq s s'). 2: { intros j Hj. apply Hsame. by intros ->. }
      f_equal. f_equal. unfold curdat. cbn. rewrite Hc, Hr. apply Hsame. congruence.
    + intros j Hj1 Hj2 Hj3 Hj4. destruct (decide (j = id)) as [->|Hne].
      { unfold dat, s'. cbn. rewrite list_lookup_insert; [done|]. by eapply lookup_lt_Some. }
      rewrite Hsame by done. apply HR; try done; congruence.
  - destruct (f_work s) as [|id|id|id|id] eqn:Ew; try done. injection Hs as <-.
    set (s' := set_work _ _).
    assert (∀ j, dat s' j = dat s j) as Hsame.
    { intros j. unfold s', upd_buf. destruct (f_bufs s !! id) as [b|] eqn:Eb; [|done]. unfold dat. cbn.
      destruct (decide (j = id)) as [->|]; [rewrite list_lookup_insert by (by eapply lookup_lt_Some); by rewrite Eb|by rewrite list_lookup_insert_ne]. }
    assert (f_fs s' = f_fs s ∧ f_path s' = f_path s ∧ f_queue s' = f_queue s ∧ f_cur s' = f_cur s ∧ f_ring s' = f_ring s) as (E1 & E2 & E3 & E4 & E5).
    { unfold s', upd_buf. by destruct (f_bufs s !! id). }
    destruct O as [(d & Hd & He) HR]. split.
    + exists d. rewrite E1, E2, E3. split; [done|]. rewrite <- He. unfold gotdat. cbn. rewrite Ew. cbn.
      rewrite (map_dat_eq s s') by done. f_equal. f_equal. unfold curdat. rewrite E4, E5, Hc, Hr. apply Hsame.
    + rewrite E3, E4, E5. intros j Hj1 Hj2 Hj3 Hj4. rewrite Hsame. apply HR; try done; congruence.
  - destruct (f_work s) as [|id|id|id|id] eqn:Ew; try done. injection Hs as <-.
    set (s' := set_work _ _).
    assert (∀ j, dat s' j = dat s j) as Hsame.
    { intros j. unfold s', upd_buf. destruct (f_bufs s !! id) as [b|] eqn:Eb; [|done]. unfold dat. cbn.
      destruct (decide (j = id)) as [->|]; [rewrite list_lookup_insert by (by eapply lookup_lt_Some); by rewrite Eb|by rewrite list_lookup_insert_ne]. }
    assert (f_fs s' = f_fs s ∧ f_path s' = f_path s ∧ f_queue s' = f_queue s ∧ f_cur s' = f_cur s ∧ f_ring s' = f_ring s) as (E1 & E2 & E3 & E4 & E5).
    { unfold s', upd_buf. by destruct (f_bufs s !! id). }
    destruct O as [(d & Hd & He) HR]. split.
    + exists d. rewrite E1, E2, E3. split; [done|]. rewrite <- He. unfold gotdat. cbn. rewrite Ew. cbn.
      rewrite (map_dat_eq s s') by done. f_equal. f_equal. unfold curdat. rewrite E4, E5, Hc, Hr. apply Hsame.
    + rewrite E3, E4, E5. intros j Hj1 Hj2 Hj3 Hj4. rewrite Hsame. apply HR; try done; congruence.
Qed.

Lemma oinv_calm d0 s ls s' lines acc :
  calm s ls s' → no_env ls → finv True d0 acc s → oinv d0 acc s → logs (f_level s) ls lines → oinv d0 (acc ++ lines) s'.
Proof.
  intros HC. revert lines acc. induction HC as [s|s a s' ls s'' Hs Hg HC IH]; intros lines acc HE I O HL.
  - inversion HL; subst. by rewrite app_nil_r.
  - destruct (logs_pending _ _ _ _ acc HL) as (rest & Hrest & ->). destruct (fstep_level _ _ _ Hs) as [El _].
    apply Forall_cons in HE as [HE1 HE2].
    apply IH; [done|by eapply finv_step; eauto|by eapply oinv_step|]. by rewrite El.
Qed.

Lemma stop_exact room now p s ids d :
  f_path s = p → (∀ id b, f_bufs s !! id = Some b → length (b_data b) ≤ room) → NoDup ids → file_data (f_fs s) p true d →
  file_data (f_fs (foldl (flush_now room now) s ids)) p true (d ++ concat (map (dat s) ids)).
Proof.
  revert s d. induction ids as [|id ids IH]; intros s d Hp Hroom Hnd Hd; [by rewrite app_nil_r|].
  apply NoDup_cons in Hnd as [Hnin Hnd]. simpl. unfold flush_now at 2, dat at 1.
  destruct (f_bufs s !! id) as [b|] eqn:Eb; [|by apply IH].
  destruct (bool_decide _) eqn:Ed. { apply bool_decide_eq_true in Ed. rewrite Ed. by apply IH. }
  rewrite Hp. destruct (file_append_data room (f_fs s) p (b_data b) _ _ Hd (Hroom _ _ Eb)) as [(_ & -> & Hdat)|(? & _)]; [|done].
  cbn [Z.eqb kSuccess]. rewrite app_assoc. set (s' := set_fs _ _). rewrite <- (map_dat_eq s s').
  - apply IH; try done. intros j bj Hj. apply list_lookup_insert_Some in Hj as [(<- & <- & ?)|(? & Hj)]; [simpl; lia|by eapply Hroom].
  - intros j Hj. unfold dat, s'. cbn. rewrite list_lookup_insert_ne; [done|]. by intros ->.
Qed.

Lemma concat_one (g : nat → bytes) (l : list nat) x :
  NoDup l → x ∈ l → (∀ y, y ≠ x → g y = []) → concat (map g l) = g x.
Proof.
  intros Hnd Hin Hz. induction Hnd as [|y l Hy Hnd IH]; [by apply elem_of_nil in Hin|]. simpl.
  destruct (decide (y = x)) as [->|Hne].
  - assert (concat (map g l) = []) as ->; [|by rewrite app_nil_r]. clear -Hy Hz.
    induction l as [|z l IH]; [done|]. simpl. apply not_elem_of_cons in Hy as [? ?]. rewrite Hz by done. by apply IH.
  - rewrite Hz by done. apply IH. set_solver.
Qed.

Lemma ring_nodup d0 lines s : finv True d0 lines s → NoDup (f_ring s).
Proof. intros I. rewrite (v_ring _ _ _ _ I). apply NoDup_seq. Qed.

Lemma stop_ring d0 lines s room now d :
  finv True d0 lines s → (∀ id b, f_bufs s !! id = Some b → length (b_data b) ≤ room) → file_data (f_fs s) (f_path s) true d →
  file_data (f_fs (flog_stop room now s)) (f_path s) true (d ++ concat (map (dat s) (f_ring s))).
Proof.
  intros I Hroom Hd. destruct (finv_cur _ _ _ _ I) as (c & id & b & Hc & _). unfold flog_stop. rewrite Hc.
  rewrite (v_num _ _ _ _ I ltac:(done)), Nat2Z.id, ring_ids. cbn [f_fs]. set (s0 := FLog _ _ _ _ _ _ _ _ _ _ _ _).
  change (map (dat s)) with (map (dat s0)). apply stop_exact; try done. by eapply ring_nodup.
Qed.

Lemma stop_in_order d0 lines s room now :
  finv True d0 lines s → oinv d0 lines s → (∀ id b, f_bufs s !! id = Some b → length (b_data b) ≤ room) →
  f_work s = FIdle → f_queue s = [] → file_data (f_fs (flog_stop room now s)) (f_path s) true (d0 ++ concat lines).
Proof.
  intros I [(d & Hd & He) HR] Hroom Hw Hq. destruct (finv_cur _ _ _ _ I) as (c & id & b & Hc & Hr & _).
  rewrite <- He. unfold gotdat. rewrite Hw, Hq. simpl.
  replace (curdat s) with (concat (map (dat s) (f_ring s))); [by eapply stop_ring|].
  unfold curdat. rewrite Hc, Hr. apply concat_one; [by eapply ring_nodup|by eapply elem_of_list_lookup_2|].
  intros y Hy. apply HR; rewrite ?Hw, ?Hq; try done; [apply not_elem_of_nil|congruence].
Qed.

Lemma oinv_init d0 s : finv True d0 [] s → file_data (f_fs s) (f_path s) true d0 → f_queue s = [] → f_work s = FIdle →
  (∀ j, dat s j = []) → oinv d0 [] s.
Proof.
  intros I Hd Hq Hw Hz. split.
  - exists d0. split; [done|]. unfold gotdat, curdat. rewrite Hw, Hq. simpl.
    destruct (f_cur s) as [c|]; [destruct (f_ring s !! c)|]; by rewrite ?Hz.
  - intros. apply Hz.
Qed.

Lemma flog_init_shape mk now p s0 s1 :
  fresh s0 → flog_init mk now p s0 = Ok (kSuccess, s1) → f_pool s1 = PRun →
  f_queue s1 = [] ∧ f_work s1 = FIdle ∧ (∀ j, dat s1 j = []).
Proof.
  intros (lv & num & sz & iv & f & ->) Hi Hr. unfold flog_init in Hi.
  destruct (file_create mk _ p) as [[rc f1]| | | | |]; try done. simpl in Hi.
  destruct (rc =? kSuccess)%Z; cbn [negb] in Hi.
  2: { injection Hi as Hi1 Hi2. rewrite <- Hi2 in Hr. done. }
  destruct (file_can_write f1 p) as [wb| | | | |]; try done. destruct wb; cbn in Hi.
  2: { injection Hi as Hi2. rewrite <- Hi2 in Hr. done. }
  injection Hi as <-. cbn. split_and!; try done. intros j. unfold dat. cbn.
  destruct (_ !! j) as [b|] eqn:E; [|done]. change (replicate (Nat.max 1 (Z.to_nat num)) (buffer_new now) !! j = Some b) in E.
  apply lookup_replicate in E as [-> _]. done.
Qed.

Lemma start (P : Prop) mk now p s0 s1 w d0 :
  fresh s0 → (P → (1 ≤ f_num s0)%Z) → flog_init mk now p s0 = Ok (kSuccess, s1) → f_pool s1 = PRun →
  (P → file_data (f_fs s1) p w d0) → finv P d0 [] s1 ∧ f_level s1 = f_level s0 ∧ f_path s1 = p.
Proof.
  intros Hf Hn Hi Hp Hd. eapply finv_init; try done; destruct Hf as (lv & num & sz & iv & f & ->); done.
Qed.

Lemma finv_frun d0 acc s ls s' : finv False d0 acc s → frun s ls = Some s' → ∃ acc', finv False d0 acc' s'.
Proof.
  revert s acc. induction ls as [|a ls IH]; intros s acc I H; cbn in H; [injection H as <-; eauto|].
  destruct (fstep s a) as [s1|] eqn:E; [|done]. eapply IH; [|done]. by eapply finv_step.
Qed.

(** * MultiLogger *)
Lemma multi_log_one l msg w ids i :
  foldl (deliver l msg) w ids i = w i ++ replicate (length (filter (λ j, j = i) ids)) (l, msg).
Proof.
  revert w. induction ids as [|j ids IH]; intros w; simpl; [by rewrite app_nil_r|].
  rewrite IH. unfold deliver at 1. rewrite filter_cons. destruct (decide (i = j)) as [->|Hne].
  - rewrite decide_True by done. simpl. by rewrite <- app_assoc.
  - by rewrite decide_False by done.
Qed.

Lemma multi_received ops m w i :
  (foldl mstep (m, w) ops).2 i = w i ++ received (length (filter (λ j, j = i) (mu_loggers m))) i ops.
Proof.
  revert m w. induction ops as [|[ids|l|l msg] ops IH]; intros m w; simpl; [by rewrite app_nil_r|..]; rewrite IH; simpl.
  - by rewrite filter_app, app_length.
  - done.
  - unfold multi_log. rewrite multi_log_one. by rewrite <- app_assoc.
Qed.

Lemma check_flush_data s now j b :
  f_bufs s !! j = Some b → ∃ b', f_bufs (check_flush now s) !! j = Some b' ∧ b_data b' = b_data b.
Proof.
  intros Hj. unfold check_flush. destruct (f_cur s) as [c|]; [|by eauto]. destruct (f_ring s !! c) as [id|]; [|by eauto].
  destruct (f_bufs s !! id) as [b0|] eqn:Eb; [|by eauto]. case_match; [|by eauto].
  assert (∃ b', <[id:=Buffer (b_data b0) true (b_last b0)]> (f_bufs s) !! j = Some b' ∧ b_data b' = b_data b) as (b' & Hb' & Hd).
  { destruct (decide (j = id)) as [->|]; [|by rewrite list_lookup_insert_ne; eauto].
    eexists. rewrite list_lookup_insert by (by eapply lookup_lt_Some). split; [done|]. by simplify_eq. }
  exists b'. split; [|done].
  destruct (match f_ring s !! _ with Some _ => _ | None => _ end), (f_pool s); cbn; try done; by apply lookup_app_l_Some.
Qed.
