(** In multithread mode the end of a connection is reported once all its data has
    been read. *)
From Verif.Proof Require Export TcpThreadProof.

Local Open Scope Z_scope.

Definition drained (k : kern) (tr : list entry) : Prop := ∀ fd c,
  k_fds k !! fd = Some (DConn c) → cn_err c = false → kLeave ∈ calls (cn_id c) tr → cn_data c = 0%nat ∧ cn_fin c = true.
Definition mild (k k' : kern) : Prop := ∀ fd c', k_fds k' !! fd = Some (DConn c') → ∃ c, k_fds k !! fd = Some (DConn c) ∧
  cn_id c' = cn_id c ∧ (cn_err c' = false → cn_err c = false) ∧
  (cn_data c = 0%nat → cn_fin c = true → cn_data c' = 0%nat ∧ cn_fin c' = true).
Lemma drained_mild k k' tr : drained k tr → mild k k' → drained k' tr.
Proof.
  intros Hd Hm fd c' Hc He Hl. destruct (Hm _ _ Hc) as (c & Hc' & Hi & H1 & H2). rewrite Hi in Hl.
  destruct (Hd _ _ Hc' (H1 He) Hl). auto.
Qed.
Lemma mild_refl k : mild k k.
Proof. intros fd c Hc. exists c. auto. Qed.
Lemma mild_set k fd d : (∀ c, d ≠ DConn c) → mild k (k_set k fd d).
Proof. intros Hd f c Hc. simpl in Hc. apply lookup_insert_Some in Hc as [[_ E]|[_ Hc]]; [by destruct (Hd c)|]. exists c. auto. Qed.
Lemma mild_close k fd : mild k (k_close k fd).
Proof. intros f c Hc. simpl in Hc. apply lookup_delete_Some in Hc as [_ Hc]. exists c. auto. Qed.
Lemma mild_update k g id : (∀ c, cn_id (g c) = cn_id c ∧ (cn_err (g c) = false → cn_err c = false) ∧
  (cn_data c = 0%nat → cn_fin c = true → cn_data (g c) = 0%nat ∧ cn_fin (g c) = true)) → mild k (k_update k g id).
Proof.
  intros Hg f c Hc. simpl in Hc. rewrite lookup_fmap in Hc. destruct (k_fds k !! f) as [d|]; [|done]. simpl in Hc. injection Hc as Hc.
  destruct d as [| |c0| |]; try done. simpl in Hc. unfold on_conn in Hc. case_decide; injection Hc as <-; exists c0; [|by auto]. split; [done|]. apply Hg.
Qed.
Lemma drained_calls k tr tr' : drained k tr → (∀ id, kLeave ∉ calls id tr') → drained k (tr ++ tr').
Proof. intros Hd Ht fd c Hc He Hl. rewrite calls_app in Hl. apply elem_of_app in Hl as [Hl|Hl]; [eauto|]. by apply Ht in Hl. Qed.
Lemma no_leave t : match t with TCall kLeave _ (Some _) => False | _ => True end → ∀ id, kLeave ∉ calls id [t].
Proof.
  intros H id. unfold calls. simpl. destruct t as [| | |e s [i|]|]; simpl; try apply not_elem_of_nil.
  case_decide; [|apply not_elem_of_nil]. rewrite elem_of_list_singleton. by intros <-.
Qed.
Lemma drained_call k tr e s : e ≠ kLeave → drained k tr → drained k (tr ++ [call k e s]).
Proof. intros He Hd. apply drained_calls; [done|]. apply no_leave. unfold call. by destruct e, (id_at k s). Qed.

Lemma drained_do a own v k own' v' k' tr tr0 : do_act a own v k = (own', v', k', tr) → drained k tr0 → drained k' (tr0 ++ tr).
Proof.
  intros Ha Hd. destruct a; simpl in Ha.
  - destruct (id_at k own); injection Ha as _ _ <- <-; rewrite app_nil_r; [|done]. eapply drained_mild; [done|]. apply mild_update.
    intros c. simpl. split_and!; try done. lia.
  - injection Ha as _ _ <- <-. rewrite app_nil_r. done.
  - case_decide; injection Ha as _ _ <- <-; [|by rewrite app_nil_r]. apply drained_calls; [by eapply drained_mild, mild_close|]. by apply no_leave.
  - injection Ha as _ _ <- <-. by rewrite app_nil_r.
  - injection Ha as _ _ <- <-. by rewrite app_nil_r.
Qed.
Lemma drained_step l s lb s' : mth l s → drained (s_k s) (s_trace s) → step s lb = Some s' → drained (s_k s') (s_trace s').
Proof.
  intros M Hd H. pose proof M as [Hm Hi Hl Hl' Hn (stg & HK & Hp & Hj & Hw) Hc].
  destruct lb as [x|a|i|i a| |id n|id|id|fd|fd| |r| ]; cbn [step] in H.
  - unfold loop_step in H. rewrite Hm, Hl in H. cbv zeta in H.
    destruct (s_loop s) as [| | |evs|soc evs|e' own kk|fd evs|fd evs|soc| |rc] eqn:El; simpl in Hp; try done.
    + destruct (sv_flag (s_v s)); injection H as <-; simpl; by rewrite ?app_nil_r.
    + case_decide; injection H as <-; simpl; by rewrite ?app_nil_r.
    + destruct x; try done; [|injection H as <-; simpl; by rewrite app_nil_r].
      destruct (accept_as (s_k s) fd) as [[c k']|] eqn:Ea; [|done]. injection H as <-. simpl. apply drained_calls; [|by apply no_leave].
      apply accept_inv in Ea as (Hpos & Hnone & r & Hb & ->). intros f c' Hc' He Hlv. simpl in Hc'.
      apply lookup_insert_Some in Hc' as [[_ E]|[_ Hc']]; [|eauto]. injection E as ->.
      assert (cn_id c' ∈ bl (s_k s)) as Hin by (unfold bl; rewrite Hb; simpl; apply elem_of_cons; by left).
      apply (ki_bl _ _ _ _ HK) in Hin as (_ & Hx & _). rewrite Hx in Hlv. by apply elem_of_nil in Hlv.
    + destruct (sv_flag (s_v s)); [case_decide|]; injection H as <-; simpl; rewrite ?app_nil_r; try done. by apply drained_call.
    + destruct (forallb _ _); [|done]. injection H as <-. simpl. by rewrite app_nil_r.
  - unfold loop_act in H. destruct (s_loop s); try done.
    destruct a; try (destruct (do_act _ own (s_v s) (s_k s)) as [[[own' v'] k'] tr] eqn:Ea; injection H as <-; simpl; by eapply drained_do).
    injection H as <-. simpl. by rewrite app_nil_r.
  - unfold worker_step in H. destruct (s_workers s !! i) as [w|] eqn:Ew; [|done].
    rewrite Forall_forall in Hw. specialize (Hw _ ltac:(by eapply elem_of_list_lookup_2)).
    destruct w as [|soc|]; [| |done].
    + destruct (s_run s); [|done]. destruct (s_queue s) as [|j q]; [done|]. destruct j; injection H as <-; simpl; by apply drained_call.
    + simpl in Hw. destruct Hw as (Hs1 & [id Hid] & _). unfold conn_id in Hid.
      destruct (k_fds (s_k s) !! so_fd soc) as [[| |c| |]|] eqn:Ef; try done.
      destruct (0 <? cn_data c)%nat eqn:Ed; [injection H as <-; simpl; by apply drained_call|].
      destruct (cn_fin c || cn_err c) eqn:Ee; [|done]. injection H as <-. simpl.
      intros f c' Hc' He Hlv. rewrite calls_app in Hlv. apply elem_of_app in Hlv as [Hlv|Hlv]; [eauto|].
      unfold call in Hlv. rewrite id_at_conn in Hlv by done. unfold conn_id in Hlv. rewrite Ef in Hlv.
      rewrite calls_one in Hlv. case_decide as Eq; [|by apply elem_of_nil in Hlv].
      assert (f = so_fd soc) as ->.
      { apply (ki_inj _ _ _ _ HK) with (cn_id c'); unfold conn_id; [by rewrite Hc'|by rewrite Ef, Eq]. }
      rewrite Ef in Hc'. injection Hc' as <-. apply Nat.ltb_ge in Ed. destruct (cn_fin c); [|by rewrite He in Ee]. split; [lia|done].
  - unfold worker_act in H. destruct (s_workers s !! i) as [[| |e own soc once]|]; try done.
    destruct a; try (destruct (do_act _ own (s_v s) (s_k s)) as [[[own' v'] k'] tr] eqn:Ea; injection H as <-; simpl; by eapply drained_do).
    injection H as <-. simpl. by rewrite app_nil_r.
  - destruct (listening s); [|done]. by injection H as <-.
  - injection H as <-. simpl. eapply drained_mild; [done|]. apply mild_update. intros c. destruct (cn_fin c) eqn:E; simpl; split_and!; try done; by rewrite ?E.
  - injection H as <-. simpl. eapply drained_mild; [done|]. apply mild_update. done.
  - injection H as <-. simpl. eapply drained_mild; [done|]. apply mild_update. done.
  - destruct (decide (0 <= fd)); [|done]. destruct (k_fds (s_k s) !! fd); [done|]. injection H as <-. eapply drained_mild; [done|]. by apply mild_set.
  - case_decide; [|done]. injection H as <-. eapply drained_mild; [done|]. apply mild_close.
  - by injection H as <-.
  - case_decide; [|done]. injection H as <-. unfold srv_wakeup. simpl. destruct (sv_flag _); [done|]. rewrite Hm. destruct (r <? 0); [done|].
    destruct (listening s); simpl; [done|]. eapply drained_mild; [done|]. by apply mild_set.
  - unfold srv_clean, close_sock, clean_closes in H. rewrite Hi in H.
    destruct (decide (so_status (sv_lis (s_v s)) = kInit)); injection H as <-; simpl; rewrite ?app_nil_r.
    + assert (drained (k_close (s_k s) (so_fd (sv_lis (s_v s)))) (s_trace s ++ [TClose (so_fd (sv_lis (s_v s))) (k_fds (s_k s) !! so_fd (sv_lis (s_v s)))])) as Hx.
      { apply drained_calls; [by eapply drained_mild, mild_close|]. by apply no_leave. }
      by destruct (_ && _).
    + by destruct (_ && _).
Qed.
Lemma drained_reach n l e others s : others_ok others l e → reach keeps (booted kMultiThread n l e others) s → drained (s_k s) (s_trace s).
Proof.
  intros Ho H. assert (mth l s ∧ drained (s_k s) (s_trace s)) as [_ ?]; [|done]. induction H as [|s lb s' _ [IH1 IH2] Hk Hs].
  - split; [by eapply mth_boot|]. intros fd c Hc He Hlv. simpl in Hlv. by apply elem_of_nil in Hlv.
  - split; [by eapply mth_step|by eapply drained_step].
Qed.
