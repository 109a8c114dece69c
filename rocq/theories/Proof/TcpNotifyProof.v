(** Every event that epoll reports is notified once, and every notification of
    data leads to one callback. *)
From Verif.Proof Require Export TcpStopProof.

Local Open Scope Z_scope.

Lemma count_app {A} (f : A → bool) l1 l2 : count f (l1 ++ l2) = (count f l1 + count f l2)%nat.
Proof. unfold count. by rewrite List.filter_app, app_length. Qed.
Lemma batches_app t1 t2 : batches (t1 ++ t2) = batches t1 ++ batches t2.
Proof. unfold batches. by rewrite bind_app. Qed.
Lemma notified_app t1 t2 : notified (t1 ++ t2) = notified t1 ++ notified t2.
Proof. unfold notified. by rewrite omap_app. Qed.
Lemma to_notify_app t1 t2 : to_notify (t1 ++ t2) = to_notify t1 ++ to_notify t2.
Proof. unfold to_notify. by rewrite omap_app. Qed.
Lemma decode_meant m : decode m = meant m.
Proof. by destruct m as [[] [] []]. Qed.

Definition told (s : st) : Prop := to_notify (batches (s_trace s)) = notified (s_trace s) ++ to_notify (pending (s_loop s)).
(** Entries that are neither. *)
Definition other_entry (t : entry) : Prop := match t with TBatch _ | TNotify _ _ => False | _ => True end.
Lemma other_batches tr : Forall other_entry tr → batches tr = [].
Proof. unfold batches. induction 1 as [|t tr Ht _ IH]; [done|]. simpl. by destruct t. Qed.
Lemma other_notified tr : Forall other_entry tr → notified tr = [].
Proof. unfold notified. induction 1 as [|t tr Ht _ IH]; [done|]. simpl. by destruct t. Qed.
Lemma told_same s v k p q r ws tr :
  told s → Forall other_entry tr → to_notify (pending p) = to_notify (pending (s_loop s)) → told (St v k p q r ws (s_trace s ++ tr)).
Proof.
  unfold told. intros Ht Ho Hp. simpl. rewrite batches_app, notified_app, (other_batches tr), (other_notified tr), !app_nil_r by done. by rewrite Hp.
Qed.
Lemma do_other a own v k own' v' k' tr : do_act a own v k = (own', v', k', tr) → Forall other_entry tr.
Proof. destruct a; simpl; repeat case_match; intros; simplify_eq; by repeat constructor. Qed.

Lemma told_step s lb s' : told s → step s lb = Some s' → told s'.
Proof.
  intros Ht H. destruct lb as [x|a|i|i a| |id n|id|id|fd|fd| |r| ]; cbn [step] in H.
  - unfold loop_step in H. cbv zeta in H.
    destruct (s_loop s) as [| | |evs|soc evs|e' own kk|fd evs|fd evs|soc| |rc] eqn:El; try done.
    + assert (∃ r p, s' = St (s_v s) (s_k s) p (s_queue s) r (s_workers s) (s_trace s ++ []) ∧ pending p = []) as (r & p & -> & Hp).
      { rewrite app_nil_r. destruct (sv_mode (s_v s)); [destruct (ep_flag _)|destruct (sv_flag _)|destruct (ep_flag _)]; injection H as <-; unfold upd; rewrite ?app_nil_r; by eauto. }
      apply told_same; [done|constructor|]. by rewrite El, Hp.
    + destruct (sv_mode (s_v s)); case_decide; injection H as <-; (apply told_same; [done|constructor|by rewrite El]).
    + destruct (sv_mode (s_v s)) eqn:Em.
      2: { destruct x; try done; [destruct (accept_as _ _) as [[c k']|]; [|done]|]; injection H as <-; (apply told_same; [done|by repeat constructor|by rewrite El]). }
      all: destruct x as [fds| | | |]; try done; [destruct (batch_ok _ _); [|done]|]; injection H as <-.
      all: try (apply told_same; [done|constructor|by rewrite El]).
      all: unfold told in *; rewrite El in Ht; simpl in *; rewrite batches_app, notified_app, to_notify_app, Ht; simpl; by rewrite !app_nil_r.
    + destruct evs as [|[fd m] evs]; [injection H as <-; apply told_same; [done|constructor|by rewrite El]|].
      assert (Hstep : ∀ v k p q r ws tr, pending p = evs →
        match decode m with None => Forall other_entry tr | Some e => ∃ tr', tr = TNotify fd e :: tr' ∧ Forall other_entry tr' end →
        told (St v k p q r ws (s_trace s ++ tr))).
      { intros v k p q r ws tr Hp Htr. unfold told in *. rewrite El in Ht. simpl in *. rewrite batches_app, notified_app, Hp, to_notify_app, Ht.
        rewrite decode_meant in Htr. unfold to_notify at 2. simpl. destruct (meant m) as [e|]; simpl.
        - destruct Htr as (tr' & -> & Ho). assert (batches (TNotify fd e :: tr') = batches tr') as -> by done.
          assert (notified (TNotify fd e :: tr') = (fd, e) :: notified tr') as -> by done.
          rewrite (other_batches tr'), (other_notified tr') by done. unfold to_notify at 2. simpl. rewrite app_nil_r. by rewrite <- app_assoc.
        - rewrite (other_batches tr), (other_notified tr) by done. unfold to_notify at 2. simpl. by rewrite !app_nil_r. }
      destruct (decode m) as [ev|] eqn:Ed; [|injection H as <-; apply Hstep; [done|constructor]].
      repeat match type of H with context [match ?b with _ => _ end] => destruct b end; try done; injection H as <-.
      all: apply Hstep; [done|]; eexists; split; [done|]; by repeat constructor.
    + destruct x; try done; [case_decide; [|done]|]; injection H as <-; (apply told_same; [done|by repeat constructor|by rewrite El]).
    + injection H as <-. (apply told_same; [done|by repeat constructor|by rewrite El]).
    + injection H as <-. (apply told_same; [done|by repeat constructor|by rewrite El]).
    + destruct (sv_flag _); [case_decide|]; injection H as <-; [..|rewrite <- (app_nil_r (s_trace s))]; (apply told_same; [done|by repeat constructor|by rewrite El]).
    + destruct (forallb _ _); [|done]. injection H as <-. (apply told_same; [done|by repeat constructor|by rewrite El]).
  - unfold loop_act in H. destruct (s_loop s) as [| | |evs|soc evs|e' own kk|fd evs|fd evs|soc| |rc] eqn:El; try done.
    destruct a; try (destruct (do_act _ own (s_v s) (s_k s)) as [[[own' v'] k'] tr] eqn:Ea; injection H as <-; (apply told_same; [done|by eapply do_other|by rewrite El])).
    injection H as <-. apply told_same; [done|constructor|]. rewrite El. by destruct kk.
  - unfold worker_step in H. repeat match type of H with context [match ?b with _ => _ end] => destruct b end; try done; injection H as <-.
    all: (apply told_same; [done|by repeat constructor|done]).
  - unfold worker_act in H. destruct (s_workers s !! i) as [[| |e own soc once]|]; try done.
    destruct a; try (destruct (do_act _ own (s_v s) (s_k s)) as [[[own' v'] k'] tr] eqn:Ea; injection H as <-; (apply told_same; [done|by eapply do_other|done])).
    injection H as <-. apply told_same; [done|constructor|done].
  - destruct (listening s); [|done]. by injection H as <-.
  - by injection H as <-.
  - by injection H as <-.
  - by injection H as <-.
  - destruct (decide (0 <= fd)); [|done]. destruct (k_fds (s_k s) !! fd); [done|]. by injection H as <-.
  - case_decide; [|done]. by injection H as <-.
  - by injection H as <-.
  - case_decide; [|done]. by injection H as <-.
  - destruct (srv_clean (s_v s) (s_k s)) as [v' k'] eqn:E. injection H as <-. apply told_same; [done| |done].
    apply Forall_app. unfold clean_closes. split; [case_decide; by repeat constructor|]. destruct (sv_io (s_v s)); [|constructor]. case_decide; by repeat constructor.
Qed.
Lemma told_reach ok m n l e others s : reach ok (booted m n l e others) s → told s.
Proof. induction 1 as [|s lb s' _ IH _ Hs]; [by destruct m|]. by eapply told_step. Qed.

(** ** Callbacks *)
Definition reads (fd : Z) (s : st) : Prop :=
  notes (fd, ioRead) (s_trace s) = (queued fd (s_queue s) + called kRead fd (s_trace s))%nat ∧
  notes (fd, ioLeave) (s_trace s) = called kLeave fd (s_trace s).
(** Entries that matter to neither side. *)
Definition quiet_entry (t : entry) : Prop :=
  match t with TNotify _ _ => False | TCall e _ _ => e = kAccept ∨ e = kError | _ => True end.
Lemma quiet_notes x tr : Forall quiet_entry tr → notes x tr = 0%nat.
Proof.
  intros H. unfold notes. assert (notified tr = []) as ->; [|done].
  unfold notified. induction H as [|t tr Ht _ IH]; [done|]. simpl. by destruct t.
Qed.
Lemma quiet_called e fd tr : e = kRead ∨ e = kLeave → Forall quiet_entry tr → called e fd tr = 0%nat.
Proof.
  intros He. unfold called, count. induction 1 as [|t tr Ht _ IH]; [done|]. simpl. destruct t; try done.
  simpl in Ht. rewrite bool_decide_false by naive_solver. done.
Qed.
Lemma notes_app x t1 t2 : notes x (t1 ++ t2) = (notes x t1 + notes x t2)%nat.
Proof. unfold notes. by rewrite notified_app, count_app. Qed.
Lemma called_app e fd t1 t2 : called e fd (t1 ++ t2) = (called e fd t1 + called e fd t2)%nat.
Proof. unfold called. by rewrite count_app. Qed.
Lemma reads_same fd s v k p r ws tr : reads fd s → Forall quiet_entry tr → reads fd (St v k p (s_queue s) r ws (s_trace s ++ tr)).
Proof.
  unfold reads. intros [H1 H2] Hq. simpl. rewrite !notes_app, !called_app, !(quiet_notes _ tr), !(quiet_called _ _ tr) by auto. lia.
Qed.
Lemma do_quiet a own v k own' v' k' tr : do_act a own v k = (own', v', k', tr) → Forall quiet_entry tr.
Proof. destruct a; simpl; repeat case_match; intros; simplify_eq; by repeat constructor. Qed.

Lemma reads_step fd l e s lb s' : fd ≠ l → held l e s → reads fd s → step s lb = Some s' → reads fd s'.
Proof.
  intros Hfd Hh Ht H. pose proof Hh as [H0 H1 (ep & H2 & Hef & Hes) H3 H4 H5 H6 H7 H8].
  destruct lb as [x|a|i|i a| |id n|id|id|fd'|fd'| |r| ]; cbn [step] in H.
  - unfold loop_step in H. cbv zeta in H. rewrite H3 in H.
    destruct (s_loop s) as [| | |evs|soc evs|e' own kk|fd' evs|fd' evs|soc| |rc] eqn:El; try done.
    + assert (∃ r p, s' = St (s_v s) (s_k s) p (s_queue s) r (s_workers s) (s_trace s ++ [])) as (r & p & ->).
      { rewrite app_nil_r. destruct (sv_mode (s_v s)); [destruct (ep_flag _)|destruct (sv_flag _)|destruct (ep_flag _)]; injection H as <-; unfold upd; rewrite ?app_nil_r; by eauto. }
      by apply reads_same.
    + destruct (sv_mode (s_v s)); case_decide; injection H as <-; (apply reads_same; [done|by repeat constructor]).
    + destruct (sv_mode (s_v s)) eqn:Em; try done.
      all: destruct x as [fds| | | |]; try done; [destruct (batch_ok _ _); [|done]|]; injection H as <-.
      all: (apply reads_same; [done|by repeat constructor]).
    + destruct evs as [|[f m] evs]; [injection H as <-; apply reads_same; [done|by repeat constructor]|].
      destruct (decode m) as [ev|] eqn:Ed; [|injection H as <-; apply reads_same; [done|by repeat constructor]].
      destruct (decide (f = l)) as [->|Hf].
      * assert (Hn : ∀ k p tr, Forall quiet_entry tr → reads fd (upd s k p (TNotify l ev :: tr))).
        { intros k p tr Hq. unfold reads, upd. simpl. destruct Ht as [Ht1 Ht2].
          assert (Hno : ∀ ev', notes (fd, ev') (TNotify l ev :: tr) = 0%nat).
          { intros ev'. unfold notes, count. simpl. rewrite bool_decide_false by congruence. by apply (quiet_notes (fd, ev')). }
          assert (Hca : ∀ e, called e fd (TNotify l ev :: tr) = called e fd tr) by done.
          rewrite !notes_app, !called_app, !Hno, !Hca, !(quiet_called _ _ tr) by auto. lia. }
        case_decide; [|injection H as <-; apply Hn; by repeat constructor].
        destruct x; try done; [destruct (accept_as _ _) as [[c k']|]; [|done]|]; injection H as <-; apply Hn; repeat constructor; try done; by right.
      * assert (Hso : so_fd (sock_of_fd f) = f) by (unfold sock_of_fd; by destruct (f <? 0)).
        unfold reads in *. destruct Ht as [Ht1 Ht2].
        destruct ev; [destruct (sv_mode (s_v s)); try done| |]; injection H as <-; cbn [s_trace s_queue upd add_job].
        all: rewrite !notes_app, !called_app; unfold notes at 2 4, count, queued, called at 2 4; unfold count; simpl.
        all: unfold queued, count in Ht1; rewrite ?Hso, ?List.filter_app, ?app_length; simpl.
        all: repeat case_bool_decide; simplify_eq; simpl; split; lia.
    + destruct x; try done; [case_decide; [|done]|]; injection H as <-; (apply reads_same; [done|]); repeat constructor; by auto.
    + injection H as <-. (apply reads_same; [done|by repeat constructor]).
    + injection H as <-. (apply reads_same; [done|by repeat constructor]).
    + destruct (forallb _ _); [|done]. injection H as <-. (apply reads_same; [done|by repeat constructor]).
  - unfold loop_act in H. destruct (s_loop s) as [| | |evs|soc evs|e' own kk|fd' evs|fd' evs|soc| |rc] eqn:El; try done.
    destruct a; try (destruct (do_act _ own (s_v s) (s_k s)) as [[[own' v'] k'] tr] eqn:Ea; injection H as <-; (apply reads_same; [done|by eapply do_quiet])).
    injection H as <-. apply reads_same; [done|constructor].
  - unfold worker_step in H. destruct (s_workers s !! i) as [w|] eqn:Ew; [|done].
    rewrite Forall_forall in H5. specialize (H5 _ ltac:(by eapply elem_of_list_lookup_2)). destruct w as [| |]; try done.
    destruct (s_run s); [|done]. destruct (s_queue s) as [|j q] eqn:Eq; [done|]. apply Forall_cons in H6 as [Hj _]. destruct j as [|f]; [done|]. injection H as <-.
    assert (Hso : so_fd (sock_of_fd f) = f) by (unfold sock_of_fd; by destruct (f <? 0)).
    unfold reads in *. destruct Ht as [Ht1 Ht2]. rewrite Eq in Ht1. cbn [s_trace s_queue]. rewrite !notes_app, !called_app.
    unfold queued, count in Ht1. unfold notes at 2 4, called at 2 4, queued, count. simpl in *. rewrite Hso. case_bool_decide; simpl in *; split; lia.
  - unfold worker_act in H. destruct (s_workers s !! i) as [[| |e' own soc once]|]; try done.
    destruct a; try (destruct (do_act _ own (s_v s) (s_k s)) as [[[own' v'] k'] tr] eqn:Ea; injection H as <-; (apply reads_same; [done|by eapply do_quiet])).
    injection H as <-. apply reads_same; [done|constructor].
  - destruct (listening s); [|done]. by injection H as <-.
  - by injection H as <-.
  - by injection H as <-.
  - by injection H as <-.
  - destruct (decide (0 <= fd')); [|done]. destruct (k_fds (s_k s) !! fd'); [done|]. by injection H as <-.
  - case_decide; [|done]. by injection H as <-.
  - by injection H as <-.
  - case_decide; [|done]. by injection H as <-.
  - destruct (srv_clean (s_v s) (s_k s)) as [v' k'] eqn:E. injection H as <-. apply reads_same; [done|].
    apply Forall_app. unfold clean_closes. split; [case_decide; by repeat constructor|]. destruct (sv_io (s_v s)); [|constructor]. case_decide; by repeat constructor.
Qed.
Lemma reads_reach ok m n l e others s fd : m ≠ kMultiThread → others_ok others l e → fd ≠ l → reach ok (booted m n l e others) s → reads fd s.
Proof.
  intros Hm Ho Hfd H. assert (held l e s ∧ reads fd s) as [_ ?]; [|done]. induction H as [|s lb s' _ [IH1 IH2] _ Hs].
  - split; [by apply held_boot|]. by destruct m.
  - split; [by eapply held_step|by eapply reads_step].
Qed.
