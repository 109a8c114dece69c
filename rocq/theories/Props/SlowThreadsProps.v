(** C215: peers that are slow to read their answers, and worker threads (http_server.cpp:
    HandleRead; tcp_server.cpp: modes kMultiThread and kMixed; socket.cpp: Socket::Write). *)
From Verif.Spec Require Import ServerSpec.
From Verif.Proof Require Import RouteProof HttpSystemProof.
From Verif.Props Require Import ServerProps HttpSystemProps HttpThreadsProps.
From Verif.Proof Require Import HttpThreadsProof.
From Verif.Model Require Import HttpThreads SlowThreads.

(** ** Statements *)

Definition qlabels (ps : list qlab) : list tlab := omap (fun p => match p with QDo l => Some l | _ => None end) ps.
(** Steps of the server, and reading by peer [i]. *)
Definition server_or (i : nat) (p : qlab) : Prop :=
  match p with QDo l => by_server l | QCopy _ _ => True | QRecv j _ => j = i end.

(** The bytes for peer [i] that workers have not put into its buffer yet. *)
Definition unsent (i : nat) (wait : gmap nat (nat * nat * nat)) : nat :=
  map_fold (fun _ x acc => if decide (x.1.2 = i) then x.2 + acc else acc) 0 wait.
Definition has_read {U} (q : qsys U) (i : nat) : nat := default 0 (qs_read q !! i).

(** With a worker for each connection: if peer [i] reads, it can get the answers to all its
    requests, whether or not the other peers read. *)
Definition slow_threads_full : Prop := forall U mixed room hit (ro : router U) e n w ps q i c texts rs,
  valid_order hit -> 0 < room -> q_run mixed room hit ro e (q_new n w) ps = Some q -> ts_down (qs_sys q) = false ->
  naccepted (qlabels ps) <= n -> ts_conns (qs_sys q) !! i = Some c ->
  requests texts rs -> Forall (tame ro) rs -> tsent_by i (qlabels ps) = concat texts ->
  Forall smooth (qlabels ps) -> (forall j, TFin j ∉ qlabels ps) ->
  own_number mixed hit ro e (t_new n w) i (qlabels ps) ->
  exists ps' q' c', Forall (server_or i) ps' /\ q_run mixed room hit ro e q ps' = Some q' /\
    ts_conns (qs_sys q') !! i = Some c' /\ Forall2 (answers ro) rs (tn_out c') /\
    has_read q' i = length (concat (tn_out c')).

(** ** Proofs *)

Section slow.
Context {U : Type} (mixed : bool) (room : nat) (hit : iter_order) (ro : router U) (e : bytes).
Local Notation q_step := (q_step mixed room hit ro e).
Local Notation q_run := (q_run mixed room hit ro e).

Lemma q_run_app s a b : q_run s (a ++ b) = (s' ← q_run s a; q_run s' b).
Proof.
  revert s. induction a as [|p a IH]; intros s; [done|]. cbn [app SlowThreads.q_run].
  destruct (q_step s p) as [s1|]; [|done]. cbn [mbind option_bind]. apply IH.
Qed.
Lemma qlabels_app a b : qlabels (a ++ b) = qlabels a ++ qlabels b.
Proof. unfold qlabels. by rewrite omap_app. Qed.

(** A step of the server is one of HttpThreads.v. *)
Lemma q_do s l s' : q_step s (QDo l) = Some s' ->
  waits s l = false /\ t_step mixed hit ro e (qs_sys s) l = Some (qs_sys s') /\ qs_buf s' = qs_buf s /\ qs_read s' = qs_read s /\
  (qs_wait s' = qs_wait s \/ exists w f i n, l = TRun w (WTake n) /\ to_write hit ro e (qs_sys s) w = Some (f, i, n) /\ 0 < n /\
     qs_wait s' = <[w := (f, i, n)]> (qs_wait s)).
Proof.
  cbn [SlowThreads.q_step]. destruct (waits s l); [done|]. intros H. split; [done|].
  assert (Hplain : (s1 ← t_step mixed hit ro e (qs_sys s) l; Some (QSys s1 (qs_wait s) (qs_buf s) (qs_read s))) = Some s' ->
    t_step mixed hit ro e (qs_sys s) l = Some (qs_sys s') /\ qs_buf s' = qs_buf s /\ qs_read s' = qs_read s /\ qs_wait s' = qs_wait s).
  { destruct (t_step mixed hit ro e (qs_sys s) l) as [s1|]; [|done]. cbn [mbind option_bind]. by intros [= <-]. }
  destruct l as [j f ok|j bs|j|f|f|w|w|w j|w wr]; try (apply Hplain in H as (? & ? & ? & ?); by split_and!; [..|left]).
  destruct (to_write hit ro e (qs_sys s) w) as [[[f i] n]|] eqn:E; [|apply Hplain in H as (? & ? & ? & ?); by split_and!; [..|left]].
  destruct (decide (wr = WTake n)) as [->|]; [|done].
  destruct (t_step mixed hit ro e (qs_sys s) (TRun w (WTake n))) as [s1|]; [|done]. cbn [mbind option_bind] in H. injection H as <-.
  cbn [qs_sys qs_wait qs_buf qs_read]. split_and!; [done..|]. destruct (Nat.eqb_spec n 0); [by left|right].
  exists w, f, i, n. split_and!; [done|done|lia|done].
Qed.
Lemma follow_q n w ps q : q_run (q_new n w) ps = Some q -> t_run mixed hit ro e (t_new n w) (qlabels ps) = Some (qs_sys q).
Proof.
  revert q. induction ps as [|p ps IH] using rev_ind; intros q H; [by injection H as <-|].
  rewrite q_run_app in H. destruct (q_run (q_new n w) ps) as [q1|]; [|done]. cbn [mbind option_bind SlowThreads.q_run] in H.
  destruct (q_step q1 p) as [q2|] eqn:E; [|done]. injection H as <-. rewrite qlabels_app, t_run_app, (IH q1 eq_refl). cbn [mbind option_bind].
  destruct p as [l|w' k|j k].
  - apply q_do in E as (_ & E & _). cbn [qlabels omap list_omap t_run]. by rewrite E.
  - cbn [SlowThreads.q_step] in E. destruct (qs_wait q1 !! w') as [[[f i] m]|]; [|done]. destruct (decide _); [|done]. by injection E as <-.
  - cbn [SlowThreads.q_step] in E. destruct (decide _); [|done]. by injection E as <-.
Qed.

(** Where the workers that wait are. *)
Record qinv (i : nat) (q : qsys U) : Prop := {
  qv_sane : sane mixed (qs_sys q);
  qv_at : forall w f j m, qs_wait q !! w = Some (f, j, m) -> 0 < m /\ ts_workers (qs_sys q) !! w = Some (after_read (negb mixed) f);
  qv_conn : mixed = false -> forall w f j m, qs_wait q !! w = Some (f, j, m) -> ts_fds (qs_sys q) !! f = Some i -> j = i;
  qv_room : forall j, in_buf q j <= room }.

Lemma other_workers s l s' w : t_step mixed hit ro e s l = Some s' -> actor l <> Some w -> ts_workers s' !! w = ts_workers s !! w.
Proof.
  intros H Hne. unfold t_step in H. destruct (ts_down s); [done|].
  assert (Hrec : forall (t : tsys U) v x r, v <> w -> ts_workers (recv_step t v x r) !! w = ts_workers t !! w).
  { intros t v x r Hv. destruct x as [|g|th g st], r as [ch|]; cbn [recv_step]; try done;
      try (destruct (got_byte st ch)); cbn [set_worker ts_workers go_down]; try done; by rewrite list_lookup_insert_ne. }
  destruct l as [j f ok|j bs|j|f|f|v|v|v j|v wr]; cbn [actor] in Hne.
  - destruct (decide _); [|done]. injection H as <-. by destruct mixed, ok.
  - destruct (ts_conns s !! j) as [c|]; [|done]. cbn [mbind option_bind] in H. destruct (tn_fin c); [done|]. by injection H as <-.
  - destruct (ts_conns s !! j) as [c|]; [|done]. by injection H as <-.
  - destruct (conn_of s f) as [ic|]; [|done]. cbn [mbind option_bind] in H. destruct (_ && _); [|done]. by injection H as <-.
  - destruct (conn_of s f) as [ic|]; [|done]. cbn [mbind option_bind] in H. destruct (_ && _); [|done]. by injection H as <-.
  - assert (v <> w) by congruence. destruct (ts_workers s !! v) as [[|g|th g st]|]; try done. destruct (ts_queue s) as [|k q]; [done|].
    injection H as <-. destruct k as [g []|g]; cbn [set_worker close_fd ts_workers]; by rewrite list_lookup_insert_ne.
  - assert (v <> w) by congruence. destruct (ts_workers s !! v) as [x|]; [|done]. cbn [mbind option_bind] in H.
    destruct (wst_fd x) as [g|]; [|done]. cbn [mbind option_bind] in H. destruct (receiving x); [|done].
    destruct (conn_of s g) as [[j c]|]; [|injection H as <-; by apply Hrec].
    destruct (tn_in c) as [|ch rest]; [destruct (tn_fin c); [|done]; injection H as <-; by apply Hrec|].
    injection H as <-. rewrite Hrec by done. by destruct (takes x).
  - assert (v <> w) by congruence. destruct (ts_workers s !! v) as [x|]; [|done]. cbn [mbind option_bind] in H.
    destruct (wst_fd x) as [g|]; [|done]. cbn [mbind option_bind] in H. destruct (_ && _); [|done]. injection H as <-. by apply Hrec.
  - assert (v <> w) by congruence. destruct (ts_workers s !! v) as [[|g|th g st]|]; try done. destruct (finishing st); [|done].
    destruct (finish _ _ _ _ _ _) as [[[[wo texts] sent] cl]| | | | |]; try done; try (by injection H as <-).
    injection H as <-. destruct (conn_of s g) as [[j c]|], cl; cbn [close_fd set_tconn ts_workers]; by rewrite list_lookup_insert_ne.
Qed.
(** A number stands for [i] only if it did before, or if it was given to it now. *)
Lemma numbers s l s' f i : t_step mixed hit ro e s l = Some s' -> ts_fds s' !! f = Some i ->
  ts_fds s !! f = Some i \/ exists ok, l = TAccept i f ok.
Proof.
  intros H Hf. unfold t_step in H. destruct (ts_down s); [done|].
  assert (Hrec : forall (t : tsys U) v x r, ts_fds (recv_step t v x r) = ts_fds t).
  { intros t v x r. destruct x as [|g|th g st], r as [ch|]; cbn [recv_step]; try done. by destruct (got_byte st ch). }
  destruct l as [j g ok|j bs|j|g|g|v|v|v j|v wr].
  - destruct (decide _); [|done]. injection H as <-.
    assert (Hx : <[g := j]> (ts_fds s) !! f = Some i).
    { destruct mixed, ok; cbn [set_tconn add_task close_fd ts_fds] in Hf; try exact Hf. apply lookup_delete_Some in Hf as [_ Hf]. exact Hf. }
    apply lookup_insert_Some in Hx as [[-> ->]|[_ Hx]]; [right; by eexists|by left].
  - destruct (ts_conns s !! j) as [c|]; [|done]. cbn [mbind option_bind] in H. destruct (tn_fin c); [done|]. injection H as <-. by left.
  - destruct (ts_conns s !! j) as [c|]; [|done]. injection H as <-. by left.
  - destruct (conn_of s g) as [ic|]; [|done]. cbn [mbind option_bind] in H. destruct (_ && _); [|done]. injection H as <-. by left.
  - destruct (conn_of s g) as [ic|]; [|done]. cbn [mbind option_bind] in H. destruct (_ && _); [|done]. injection H as <-. left.
    cbn [close_fd ts_fds] in Hf. by apply lookup_delete_Some in Hf as [_ Hf].
  - destruct (ts_workers s !! v) as [[|x|th x st]|]; try done. destruct (ts_queue s) as [|k q]; [done|].
    injection H as <-. left. destruct k as [x []|x]; cbn [set_worker close_fd ts_fds] in Hf; try done. by apply lookup_delete_Some in Hf as [_ Hf].
  - destruct (ts_workers s !! v) as [x|]; [|done]. cbn [mbind option_bind] in H.
    destruct (wst_fd x) as [g|]; [|done]. cbn [mbind option_bind] in H. destruct (receiving x); [|done]. left.
    destruct (conn_of s g) as [[j c]|]; [|injection H as <-; by rewrite Hrec in Hf].
    destruct (tn_in c) as [|ch rest]; [destruct (tn_fin c); [|done]; injection H as <-; by rewrite Hrec in Hf|].
    injection H as <-. rewrite Hrec in Hf. by destruct (takes x).
  - destruct (ts_workers s !! v) as [x|]; [|done]. cbn [mbind option_bind] in H.
    destruct (wst_fd x) as [g|]; [|done]. cbn [mbind option_bind] in H. destruct (_ && _); [|done]. injection H as <-. rewrite Hrec in Hf. by left.
  - destruct (ts_workers s !! v) as [[|g|th g st]|]; try done. destruct (finishing st); [|done].
    destruct (finish _ _ _ _ _ _) as [[[[wo texts] sent] cl]| | | | |]; try done; try (injection H as <-; by left).
    injection H as <-. left. destruct (conn_of s g) as [[j c]|], cl; cbn [close_fd set_tconn ts_fds] in Hf; try done; by apply lookup_delete_Some in Hf as [_ Hf].
Qed.

Lemma qinv_new i n w : qinv i (q_new n w).
Proof. split; [apply sane_new|done|done|]. intros j. unfold in_buf. cbn [q_new qs_buf]. rewrite lookup_empty. cbn. lia. Qed.
Lemma in_buf_insert (s : qsys U) i x j : default 0 (<[i := x]> (qs_buf s) !! j) = if decide (j = i) then x else in_buf s j.
Proof. destruct (decide (j = i)) as [->|]; [by rewrite lookup_insert|by rewrite lookup_insert_ne]. Qed.

(** What is written does not depend on how much of it is taken. *)
Lemma finish_take wr n st wo wo' texts sent cl : finish hit wr ro e st wo = Ok (wo', texts, sent, cl) ->
  exists cl', finish hit (WTake n) ro e st wo = Ok (wo', texts, take n (concat texts), cl').
Proof.
  destruct st as [buf|r m got|r| |]; cbn [finish]; try (intros [= <- <- _ _]; cbn [concat]; rewrite take_nil; by eexists).
  - unfold answer, respond. destruct (dispatch _ _ _ _) as [x| | | | |]; cbn [mbind outcome_bind]; try done.
    destruct (resp_build hit _ []) as [[rc p2] buf].
    destruct (if negb (rc =? kSuccess)%Z then _ else _) as [p3 buf3]. destruct wr as [k| |]; [| |done]; cbn [sock_write mbind outcome_bind sv_world sv_wrote sv_sent sv_closed];
      intros [= <- <- _ _]; cbn [concat]; rewrite app_nil_r; by eexists.
  - destruct (resp_build hit _ []) as [[rc p2] buf]. destruct wr as [k| |]; [| |done]; cbn [sock_write mbind outcome_bind snd];
      intros [= <- <- _ _]; cbn [concat]; rewrite app_nil_r; by eexists.
Qed.

Lemma qinv_step i q p q' : qinv i q -> q_step q p = Some q' ->
  (forall f ok, p = QDo (TAccept i f ok) -> unused f (qs_sys q)) -> qinv i q'.
Proof.
  intros [Hs Ha Hc Hr] H Hun. destruct p as [l|w k|j k].
  - apply q_do in H as (Hwt & Ht & Hb & _ & Hw).
    assert (Hroom : forall j, in_buf q' j <= room) by (intros j; unfold in_buf; rewrite Hb; apply Hr).
    assert (Hold : forall w f j m, qs_wait q !! w = Some (f, j, m) -> ts_workers (qs_sys q') !! w = ts_workers (qs_sys q) !! w).
    { intros w f j m Hm. apply (other_workers _ _ _ _ Ht). intros Hact. unfold waits in Hwt. rewrite Hact, Hm in Hwt.
      rewrite bool_decide_eq_true_2 in Hwt; [done|by eexists]. }
    assert (Hoc : mixed = false -> forall w f j m, qs_wait q !! w = Some (f, j, m) -> ts_fds (qs_sys q') !! f = Some i -> j = i).
    { intros Hmx w f j m Hm Hf. destruct (numbers _ _ _ _ _ Ht Hf) as [Hf'|[ok ->]]; [by eapply Hc|].
      destruct (Hun f ok eq_refl) as [_ Hu]. destruct (Ha _ _ _ _ Hm) as [_ Hx]. apply Hu in Hx. by rewrite Hmx in Hx. }
    assert (Hsane : sane mixed (qs_sys q')) by (by eapply sane_step).
    destruct Hw as [Hw|(v & g & j0 & n0 & -> & Hwr & Hn0 & Hw)].
    + split; [done|..|done].
      * intros w f j m Hm. rewrite Hw in Hm. split; [by eapply Ha|]. rewrite (Hold _ _ _ _ Hm). by eapply Ha.
      * intros Hmx w f j m Hm Hf. rewrite Hw in Hm. by eapply Hoc.
    + unfold to_write in Hwr. destruct (ts_workers (qs_sys q) !! v) as [[|x|th x st]|] eqn:Ev; try done.
      destruct (conn_of (qs_sys q) x) as [[j1 c1]|] eqn:Ec; [|done]. destruct (finish hit (WTake 0) ro e st (ts_world (qs_sys q))) as [[[[wo texts] sent] cl]| | | | |] eqn:Ef; try done.
      apply (inj Some) in Hwr. injection Hwr as -> -> Hlen.
      pose proof (sa_work _ _ Hs _ _ Ev) as Hth. cbn in Hth.
      assert (Eth : th = negb mixed) by (destruct th, mixed; done). subst th.
      assert (Hfd : ts_fds (qs_sys q) !! g = Some j0).
      { unfold conn_of in Ec. destruct (ts_fds (qs_sys q) !! g) as [j2|]; [|done]. cbn [mbind option_bind] in Ec. destruct (ts_conns (qs_sys q) !! j2); [|done]. by injection Ec as -> _. }
      assert (Hv : ts_workers (qs_sys q') !! v = Some (after_read (negb mixed) g)).
      { unfold t_step in Ht. destruct (ts_down (qs_sys q)); [done|]. rewrite Ev in Ht. destruct (finishing st); [|done].
        rewrite Hfd in Ht.
        destruct (finish_take _ n0 _ _ _ _ _ _ Ef) as [cl' Ef']. rewrite Ef', Ec in Ht. apply (inj Some) in Ht. rewrite <- Ht.
        assert (v < length (ts_workers (qs_sys q))) by (by eapply lookup_lt_Some).
        destruct cl'; cbn [close_fd set_tconn ts_workers]; by apply list_lookup_insert. }
      split; [done|..|done].
      * intros w f j m Hm. rewrite Hw in Hm. apply lookup_insert_Some in Hm as [[-> E]|[Hne Hm]].
        -- injection E as <- <- <-. split; [lia|done].
        -- split; [by eapply Ha|]. rewrite (Hold _ _ _ _ Hm). by eapply Ha.
      * intros Hmx w f j m Hm Hf. rewrite Hw in Hm. apply lookup_insert_Some in Hm as [[-> E]|[Hne Hm]]; [|by eapply Hoc].
        injection E as -> -> _. destruct (numbers _ _ _ _ _ Ht Hf) as [Hf'|[ok Ho]]; [congruence|done].
  - cbn [SlowThreads.q_step] in H. destruct (qs_wait q !! w) as [[[f i0] m]|] eqn:Ew; [|done]. destruct (decide _) as [(H1 & H2 & H3)|]; [|done].
    injection H as <-. split; cbn [qs_sys qs_wait]; [done|..].
    + intros v g j m' Hm. destruct (Nat.eqb_spec k m) as [->|Hk].
      * apply lookup_delete_Some in Hm as [_ Hm]. by eapply Ha.
      * apply lookup_insert_Some in Hm as [[<- E]|[_ Hm]]; [|by eapply Ha]. injection E as <- <- <-. split; [lia|by eapply Ha].
    + intros Hmx v g j m' Hm Hf. destruct (Nat.eqb_spec k m) as [->|Hk].
      * apply lookup_delete_Some in Hm as [_ Hm]. by eapply Hc.
      * apply lookup_insert_Some in Hm as [[<- E]|[_ Hm]]; [|by eapply Hc]. injection E as <- <- _. by eapply Hc.
    + intros j. unfold in_buf at 1. cbn [qs_buf]. rewrite (in_buf_insert q i0 _ j). destruct (decide (j = i0)); [done|apply Hr].
  - cbn [SlowThreads.q_step] in H. destruct (decide _) as [(H1 & H2)|]; [|done]. injection H as <-. split; cbn [qs_sys qs_wait]; [done..|].
    intros j0. unfold in_buf at 1. cbn [qs_buf]. rewrite (in_buf_insert q j _ j0). destruct (decide (j0 = j)); [pose proof (Hr j); lia|apply Hr].
Qed.

(** ** Counting *)

Lemma unsent_insert i w f j m wait : wait !! w = None ->
  unsent i (<[w := (f, j, m)]> wait) = (if decide (j = i) then m else 0) + unsent i wait.
Proof.
  intros Hn. unfold unsent. rewrite map_fold_insert_L; [|intros; repeat case_decide; lia|done].
  cbn [fst snd]. case_decide; lia.
Qed.
Lemma unsent_take i w f j m wait : wait !! w = Some (f, j, m) ->
  unsent i wait = (if decide (j = i) then m else 0) + unsent i (delete w wait).
Proof. intros H. rewrite <- (insert_delete wait w (f, j, m) H) at 1. apply unsent_insert, lookup_delete. Qed.

Definition counted (q : qsys U) : Prop := forall i,
  match ts_conns (qs_sys q) !! i with
  | Some c => length (concat (tn_out c)) = has_read q i + in_buf q i + unsent i (qs_wait q)
  | None => has_read q i = 0 /\ in_buf q i = 0 /\ unsent i (qs_wait q) = 0
  end.

(** Only [TRun] writes. *)
Lemma out_kept s l s' : t_step mixed hit ro e s l = Some s' -> (forall w wr, l <> TRun w wr) -> forall i,
  match ts_conns s' !! i with
  | Some c => match ts_conns s !! i with Some c0 => tn_out c = tn_out c0 | None => tn_out c = [] end
  | None => ts_conns s !! i = None
  end.
Proof.
  intros H Hl i. unfold t_step in H. destruct (ts_down s); [done|].
  assert (Hsame : ts_conns s' = ts_conns s -> match ts_conns s' !! i with
    | Some c => match ts_conns s !! i with Some c0 => tn_out c = tn_out c0 | None => tn_out c = [] end | None => ts_conns s !! i = None end).
  { intros ->. by destruct (ts_conns s !! i). }
  assert (Hset : forall j c0 c, ts_conns s !! j = Some c0 -> tn_out c = tn_out c0 -> ts_conns s' = <[j := c]> (ts_conns s) ->
    match ts_conns s' !! i with
    | Some c => match ts_conns s !! i with Some c0 => tn_out c = tn_out c0 | None => tn_out c = [] end | None => ts_conns s !! i = None end).
  { intros j c0 c H0 Ho ->. destruct (decide (j = i)) as [->|]; [by rewrite lookup_insert, H0|]. rewrite lookup_insert_ne by done.
    by destruct (ts_conns s !! i). }
  assert (Hrec : forall (t : tsys U) v x r, ts_conns (recv_step t v x r) = ts_conns t).
  { intros t v x r. destruct x as [|g|th g st], r as [ch|]; cbn [recv_step]; try done. by destruct (got_byte st ch). }
  destruct l as [j f ok|j bs|j|f|f|v|v|v j|v wr]; [..|by destruct (Hl v wr)].
  - destruct (decide _) as [[Hj _]|]; [|done]. injection H as <-.
    assert (E : ts_conns (if mixed then (if ok then set_tconn (TSys (ts_world s) (<[f := j]> (ts_fds s)) (ts_conns s) (ts_queue s) (ts_workers s) false) j tconn_new
      else close_fd (set_tconn (TSys (ts_world s) (<[f := j]> (ts_fds s)) (ts_conns s) (ts_queue s) (ts_workers s) false) j tconn_new) f)
      else add_task (set_tconn (TSys (ts_world s) (<[f := j]> (ts_fds s)) (ts_conns s) (ts_queue s) (ts_workers s) false) j tconn_new) (KConn f ok))
      = <[j := tconn_new]> (ts_conns s)) by (by destruct mixed, ok).
    rewrite E. destruct (decide (j = i)) as [->|]; [by rewrite lookup_insert, Hj|]. rewrite lookup_insert_ne by done. by destruct (ts_conns s !! i).
  - destruct (ts_conns s !! j) as [c|] eqn:Ej; [|done]. cbn [mbind option_bind] in H. destruct (tn_fin c); [done|]. injection H as <-.
    eapply Hset; [exact Ej| |reflexivity]; done.
  - destruct (ts_conns s !! j) as [c|] eqn:Ej; [|done]. injection H as <-. eapply Hset; [exact Ej| |reflexivity]; done.
  - destruct (conn_of s f) as [ic|]; [|done]. cbn [mbind option_bind] in H. destruct (_ && _); [|done]. injection H as <-. by apply Hsame.
  - destruct (conn_of s f) as [ic|]; [|done]. cbn [mbind option_bind] in H. destruct (_ && _); [|done]. injection H as <-. by apply Hsame.
  - destruct (ts_workers s !! v) as [[|g|th g st]|]; try done. destruct (ts_queue s) as [|k q]; [done|].
    injection H as <-. apply Hsame. by destruct k as [g []|g].
  - destruct (ts_workers s !! v) as [x|]; [|done]. cbn [mbind option_bind] in H.
    destruct (wst_fd x) as [g|]; [|done]. cbn [mbind option_bind] in H. destruct (receiving x); [|done].
    destruct (conn_of s g) as [[j c]|] eqn:Ec; [|injection H as <-; apply Hsame, Hrec].
    destruct (tn_in c) as [|ch rest]; [destruct (tn_fin c); [|done]; injection H as <-; apply Hsame, Hrec|].
    injection H as <-. destruct (takes x); [|apply Hsame, Hrec]. 
    assert (Hj : ts_conns s !! j = Some c).
    { unfold conn_of in Ec. destruct (ts_fds s !! g) as [j2|]; [|done]. cbn [mbind option_bind] in Ec. destruct (ts_conns s !! j2) eqn:E2; [|done]. by injection Ec as -> ->. }
    eapply (Hset j c (TConn rest (tn_fin c) (tn_out c) (tn_sent c))); [done|done|]. apply Hrec.
  - destruct (ts_workers s !! v) as [x|]; [|done]. cbn [mbind option_bind] in H.
    destruct (wst_fd x) as [g|]; [|done]. cbn [mbind option_bind] in H. destruct (_ && _); [|done]. injection H as <-. apply Hsame, Hrec.
Qed.

Lemma counted_step q p q' : counted q -> q_step q p = Some q' -> counted q'.
Proof.
  intros Hc H. destruct p as [l|w k|j k].
  - assert (Hd : (exists w wr, l = TRun w wr) \/ (forall w wr, l <> TRun w wr)).
    { destruct l; first [by right|left; by do 2 eexists]. }
    destruct Hd as [(w & wr & ->)|Hl].
    + cbn [SlowThreads.q_step] in H. unfold waits in H. cbn [actor] in H.
      destruct (qs_wait q !! w) as [x|] eqn:Ew; [by rewrite bool_decide_eq_true_2 in H by (by eexists)|].
      rewrite bool_decide_eq_false_2 in H by (by intros [? ?]).
      destruct (to_write hit ro e (qs_sys q) w) as [[[f i0] n]|] eqn:E.
      * destruct (decide (wr = WTake n)) as [->|]; [|done].
        unfold to_write in E. destruct (ts_workers (qs_sys q) !! w) as [[|x|th x st]|] eqn:Ev; try done.
        destruct (conn_of (qs_sys q) x) as [[j1 c1]|] eqn:Ec; [|done].
        destruct (finish hit (WTake 0) ro e st (ts_world (qs_sys q))) as [[[[wo texts] sent] cl]| | | | |] eqn:Ef; try done.
        apply (inj Some) in E. injection E as -> -> Hlen.
        assert (Hfd : ts_fds (qs_sys q) !! f = Some i0 /\ ts_conns (qs_sys q) !! i0 = Some c1).
        { unfold conn_of in Ec. destruct (ts_fds (qs_sys q) !! f) as [j2|]; [|done]. cbn [mbind option_bind] in Ec.
          destruct (ts_conns (qs_sys q) !! j2) eqn:E2; [|done]. by injection Ec as -> ->. }
        destruct Hfd as [Hfd Hc1].
        destruct (t_step mixed hit ro e (qs_sys q) (TRun w (WTake n))) as [s1|] eqn:Ht; [|done]. cbn [mbind option_bind] in H. injection H as <-.
        assert (Hs1 : exists c2, ts_conns s1 = <[i0 := c2]> (ts_conns (qs_sys q)) /\ tn_out c2 = tn_out c1 ++ texts).
        { unfold t_step in Ht. destruct (ts_down (qs_sys q)); [done|]. rewrite Ev in Ht. destruct (finishing st); [|done].
          rewrite Hfd in Ht. destruct (finish_take _ n _ _ _ _ _ _ Ef) as [cl' Ef']. rewrite Ef', Ec in Ht. apply (inj Some) in Ht. rewrite <- Ht.
          eexists. split; [by destruct cl'|]. done. }
        destruct Hs1 as (c2 & Hs1 & Ho). intros i. specialize (Hc i). unfold has_read, in_buf in *. cbn [qs_sys qs_wait qs_buf qs_read].
        assert (Hu : unsent i (if n =? 0 then qs_wait q else <[w := (f, i0, n)]> (qs_wait q)) = (if decide (i0 = i) then n else 0) + unsent i (qs_wait q)).
        { destruct (Nat.eqb_spec n 0) as [->|]; [by case_decide|]. by apply unsent_insert. }
        rewrite Hu, Hs1. destruct (decide (i0 = i)) as [<-|Hne].
        -- rewrite lookup_insert, Ho, concat_app, app_length. rewrite Hc1 in Hc. lia.
        -- by rewrite lookup_insert_ne.
      * destruct (t_step mixed hit ro e (qs_sys q) (TRun w wr)) as [s1|] eqn:Ht; [|done]. cbn [mbind option_bind] in H. injection H as <-.
        intros i. specialize (Hc i). unfold has_read, in_buf in *. cbn [qs_sys qs_wait qs_buf qs_read].
        enough (ts_conns s1 = ts_conns (qs_sys q)) as -> by done.
        unfold t_step in Ht. destruct (ts_down (qs_sys q)); [done|]. unfold to_write in E.
        destruct (ts_workers (qs_sys q) !! w) as [[|x|th x st]|] eqn:Ev; try done. destruct (finishing st); [|done].
        destruct (finish hit _ ro e st (ts_world (qs_sys q))) as [[[[wo texts] sent] cl]| | | | |] eqn:Ef in Ht; try done; try (by injection Ht as <-).
        destruct (finish_take _ 0 _ _ _ _ _ _ Ef) as [cl' Ef']. rewrite Ef' in E. destruct (conn_of (qs_sys q) x) as [[j1 c1]|]; [done|].
        injection Ht as <-. by destruct cl.
    + apply q_do in H as (_ & Ht & Hb & Hr & Hw). intros i. specialize (Hc i).
      destruct Hw as [Hw|(v & g & j0 & n0 & -> & _)]; [|by destruct (Hl v (WTake n0))].
      pose proof (out_kept _ _ _ Ht Hl i) as Ho. unfold has_read, in_buf in *. rewrite Hw, Hb, Hr.
      destruct (ts_conns (qs_sys q') !! i) as [c|]; [|by rewrite Ho in Hc].
      destruct (ts_conns (qs_sys q) !! i) as [c0|]; rewrite Ho; [done|]. cbn. lia.
  - cbn [SlowThreads.q_step] in H. destruct (qs_wait q !! w) as [[[f i0] m]|] eqn:Ew; [|done]. destruct (decide _) as [(H1 & H2 & H3)|]; [|done].
    injection H as <-. intros i. specialize (Hc i). cbn [qs_sys qs_wait].
    assert (E : in_buf q i + unsent i (qs_wait q) =
      in_buf (QSys (qs_sys q) (if k =? m then delete w (qs_wait q) else <[w := (f, i0, m - k)]> (qs_wait q)) (<[i0 := in_buf q i0 + k]> (qs_buf q)) (qs_read q)) i +
      unsent i (if k =? m then delete w (qs_wait q) else <[w := (f, i0, m - k)]> (qs_wait q)) /\ (in_buf q i + unsent i (qs_wait q) = 0 -> i <> i0)).
    { unfold in_buf at 2. cbn [qs_buf]. rewrite (in_buf_insert q i0 _ i), (unsent_take i w f i0 m) by done.
      destruct (Nat.eqb_spec k m) as [->|Hk].
      - repeat case_decide; subst; try done; split; try lia; intros ?; lia.
      - rewrite <- insert_delete_insert, unsent_insert by apply lookup_delete. repeat case_decide; subst; try done; split; try lia; intros ?; lia. }
    destruct E as [E E0]. unfold has_read in *. cbn [qs_read] in *. destruct (ts_conns (qs_sys q) !! i); lia.
  - cbn [SlowThreads.q_step] in H. destruct (decide _) as [(H1 & H2)|]; [|done]. injection H as <-. intros i. specialize (Hc i). cbn [qs_sys qs_wait].
    set (q1 := QSys _ _ _ _).
    assert (Hb : in_buf q1 i = if decide (i = j) then in_buf q j - k else in_buf q i) by (exact (in_buf_insert q j _ i)).
    assert (Hr : has_read q1 i = if decide (i = j) then has_read q j + k else has_read q i).
    { unfold has_read, q1. cbn [qs_read]. destruct (decide (i = j)) as [->|]; [by rewrite lookup_insert|by rewrite lookup_insert_ne]. }
    rewrite Hb, Hr. destruct (decide (i = j)) as [->|], (ts_conns (qs_sys q) !! _); lia.
Qed.
Lemma counted_run n w ps q : q_run (q_new n w) ps = Some q -> counted q.
Proof.
  revert q. induction ps as [|p ps IH] using rev_ind; intros q H.
  - injection H as <-. intros i. unfold has_read, in_buf, unsent. cbn [q_new qs_sys qs_wait qs_buf qs_read t_new ts_conns]. by rewrite !lookup_empty, map_fold_empty.
  - rewrite q_run_app in H. destruct (q_run (q_new n w) ps) as [q1|]; [|done]. cbn [mbind option_bind SlowThreads.q_run] in H.
    destruct (q_step q1 p) as [q2|] eqn:E; [|done]. injection H as <-. by eapply counted_step; [apply IH|].
Qed.
Lemma qinv_run i n w ps q : q_run (q_new n w) ps = Some q -> own_number mixed hit ro e (t_new n w) i (qlabels ps) -> qinv i q.
Proof.
  revert q. induction ps as [|p ps IH] using rev_ind; intros q H Hown; [injection H as <-; apply qinv_new|].
  rewrite q_run_app in H. destruct (q_run (q_new n w) ps) as [q1|] eqn:E1; [|done]. cbn [mbind option_bind SlowThreads.q_run] in H.
  destruct (q_step q1 p) as [q2|] eqn:E; [|done]. injection H as <-. eapply qinv_step; [apply IH; [done|]|exact E|].
  - intros pre f ok post s Hpre. rewrite qlabels_app, Hpre, <- app_assoc in Hown. by apply (Hown pre f ok (post ++ qlabels [p])).
  - intros f ok ->. apply (Hown (qlabels ps) f ok []); [by rewrite qlabels_app|]. by apply follow_q.
Qed.

(** A worker that writes to peer [i] gets on if [i] reads. *)
Lemma drain i m : 0 < room -> forall q w f, qs_wait q !! w = Some (f, i, m) -> 0 < m ->
  exists ps q', Forall (server_or i) ps /\ qlabels ps = [] /\ q_run q ps = Some q' /\ qs_sys q' = qs_sys q /\
    qs_wait q' = delete w (qs_wait q).
Proof.
  intros Hroom. induction m as [|m IH]; intros q w f Hw Hm; [lia|].
  assert (Hcopy : forall q, qs_wait q !! w = Some (f, i, S m) -> in_buf q i = 0 -> exists ps q', Forall (server_or i) ps /\ qlabels ps = [] /\
    q_run q ps = Some q' /\ qs_sys q' = qs_sys q /\ qs_wait q' = delete w (qs_wait q)).
  { clear q Hw. intros q Hw Hb.
    assert (Hs : q_step q (QCopy w 1) = Some (QSys (qs_sys q) (if 1 =? S m then delete w (qs_wait q) else <[w := (f, i, m)]> (qs_wait q))
      (<[i := in_buf q i + 1]> (qs_buf q)) (qs_read q))).
    { cbn [SlowThreads.q_step]. rewrite Hw, decide_True by lia. do 3 f_equal. by rewrite Nat.sub_1_r. }
    destruct m as [|m].
    - eexists [QCopy w 1], _. split; [by repeat constructor|]. split; [done|]. split; [cbn [SlowThreads.q_run]; rewrite Hs; done|]. done.
    - destruct (IH (QSys (qs_sys q) (<[w := (f, i, S m)]> (qs_wait q)) (<[i := in_buf q i + 1]> (qs_buf q)) (qs_read q)) w f) as (ps & q' & H1 & H2 & H3 & H4 & H5);
        [apply lookup_insert|lia|].
      exists (QCopy w 1 :: ps), q'. split; [by constructor|]. split; [done|]. split; [cbn [SlowThreads.q_run]; rewrite Hs; exact H3|].
      split; [done|]. rewrite H5. cbn [qs_wait]. by rewrite delete_insert_delete. }
  destruct (decide (in_buf q i = 0)) as [Hb|Hb]; [by apply Hcopy|].
  destruct (Hcopy (QSys (qs_sys q) (qs_wait q) (<[i := in_buf q i - in_buf q i]> (qs_buf q)) (<[i := default 0 (qs_read q !! i) + in_buf q i]> (qs_read q))))
    as (ps & q' & H1 & H2 & H3 & H4 & H5); [done|unfold in_buf at 1; cbn [qs_buf]; rewrite lookup_insert; cbn; lia|].
  exists (QRecv i (in_buf q i) :: ps), q'. split; [by constructor|]. split; [done|].
  split; [cbn [SlowThreads.q_run SlowThreads.q_step]; rewrite decide_True by lia; exact H3|]. done.
Qed.

Lemma q_step_qinv_quiet i ps : Forall (server_or i) ps -> forall q q', qinv i q -> q_run q ps = Some q' -> qinv i q'.
Proof.
  induction 1 as [|p ps Hp HF IH]; intros q q' Hq H; [by injection H as <-|]. cbn [SlowThreads.q_run] in H.
  destruct (q_step q p) as [q1|] eqn:E; [|done]. eapply IH; [|exact H]. eapply qinv_step; [exact Hq|exact E|]. intros f ok ->. done.
Qed.

Lemma unsent_some i wait : unsent i wait = 0 \/ exists w f m, wait !! w = Some (f, i, m).
Proof.
  induction wait as [|w [[f j] m] wait Hw IH] using map_ind; [left; unfold unsent; by rewrite map_fold_empty|].
  rewrite unsent_insert by done. destruct (decide (j = i)) as [->|Hne]; [right; exists w, f, m; by rewrite lookup_insert|].
  destruct IH as [IH|(v & g & k & IH)]; [by left|right]. exists v, g, k. rewrite lookup_insert_ne; [done|congruence].
Qed.

(** Everything for [i] arrives if it reads. *)
Lemma deliver i : 0 < room -> forall k q, qinv i q -> base.size (qs_wait q) < k ->
  exists ps q', Forall (server_or i) ps /\ qlabels ps = [] /\ q_run q ps = Some q' /\ qs_sys q' = qs_sys q /\
    unsent i (qs_wait q') = 0 /\ in_buf q' i = 0.
Proof.
  intros Hroom. induction k as [|k IH]; intros q Hq Hk; [lia|].
  destruct (unsent_some i (qs_wait q)) as [Hu|(w & f & m & Hw)].
  - destruct (decide (in_buf q i = 0)) as [Hb|Hb]; [by exists [], q|].
    eexists [QRecv i (in_buf q i)], _. split; [by repeat constructor|]. split; [done|].
    split; [cbn [SlowThreads.q_run SlowThreads.q_step]; rewrite decide_True by lia; done|]. split; [done|]. split; [done|].
    unfold in_buf at 1. cbn [qs_buf]. rewrite lookup_insert. cbn. lia.
  - destruct (qv_at _ _ Hq _ _ _ _ Hw) as [Hm _].
    destruct (drain i m Hroom q w f Hw Hm) as (ps & q1 & H1 & H2 & H3 & H4 & H5).
    destruct (IH q1) as (ps' & q' & G1 & G2 & G3 & G4 & G5 & G6).
    { by eapply q_step_qinv_quiet. }
    { rewrite H5. rewrite <- (insert_delete (qs_wait q) w _ Hw) in Hk. rewrite map_size_insert_None in Hk by apply lookup_delete. lia. }
    exists (ps ++ ps'), q'. split; [by apply Forall_app|]. split; [by rewrite qlabels_app, H2, G2|].
    split; [by rewrite q_run_app, H3|]. by rewrite G4.
Qed.
End slow.

Section multi.
Context {U : Type} (room : nat) (hit : iter_order) (ro : router U) (e : bytes).
Local Notation q_step := (q_step false room hit ro e).
Local Notation q_run := (q_run false room hit ro e).
Local Notation qinv := (qinv false room).

Lemma not_waiting (q : qsys U) l w : actor l = Some w -> qs_wait q !! w = None -> waits q l = false.
Proof. intros Hl Hw. unfold waits. rewrite Hl, Hw. apply bool_decide_eq_false_2. by intros [? ?]. Qed.

(** The steps of HttpThreads.v are there for a worker that does not wait. *)
Lemma q_can q w l s' : qs_wait q !! w = None -> (l = TPop w \/ l = TRecv w \/
    l = TRun w (WTake (match to_write hit ro e (qs_sys q) w with Some (_, _, n) => n | None => 0 end))) ->
  t_step false hit ro e (qs_sys q) l = Some s' -> exists q', q_step q (QDo l) = Some q' /\ qs_sys q' = s'.
Proof.
  intros Hw Hl Ht. cbn [SlowThreads.q_step].
  rewrite (not_waiting q l w) by (first [done|by destruct Hl as [->|[->| ->]]]).
  destruct Hl as [->|[->| ->]]; [rewrite Ht; by eexists..|].
  destruct (to_write hit ro e (qs_sys q) w) as [[[f i] n]|]; [rewrite decide_True by done|]; rewrite Ht; by eexists.
Qed.

Lemma q_finish_worker i texts rs f w :
  valid_order hit -> requests texts rs -> Forall (tame ro) rs -> 0 < room -> forall m ls q c k eaten x, mu c x < m ->
  qinv i q -> holds false ro i texts rs ls (qs_sys q) f c k eaten -> tsent_by i ls = concat texts -> ts_down (qs_sys q) = false ->
  ts_workers (qs_sys q) !! w = Some x -> wst_fd x = Some f ->
  exists ps q' c', Forall (server_or i) ps /\ q_run q ps = Some q' /\
    ts_conns (qs_sys q') !! i = Some c' /\ Forall2 (answers ro) rs (tn_out c').
Proof.
  intros Hit Hreq Htame Hroom. induction m as [|m IH]; intros ls q c k eaten x Hm Hq H Hall Hd Ew Hxf; [lia|].
  destruct (decide (eaten ++ tn_in c = [])) as [Hnil|Hne].
  { apply app_eq_nil in Hnil as [-> Hin]. exists [], q, c. split; [constructor|]. split; [done|].
    split; [by apply ho_conn in H|]. by eapply all_done. }
  assert (Hgo : exists ps1 q1, Forall (server_or i) ps1 /\ q_run q ps1 = Some q1 /\ qs_sys q1 = qs_sys q /\ qs_wait q1 !! w = None).
  { destruct (qs_wait q !! w) as [[[g j] n]|] eqn:Eq; [|by exists [], q].
    destruct (qv_at _ _ _ _ Hq _ _ _ _ Eq) as [Hn Hx]. rewrite Ew in Hx. injection Hx as ->. cbn in Hxf. injection Hxf as ->.
    assert (j = i) as -> by (eapply (qv_conn _ _ _ _ Hq); [done|exact Eq|by apply ho_fd in H]).
    destruct (drain false room hit ro e i n Hroom q w f Eq Hn) as (ps & q1 & H1 & _ & H3 & H4 & H5).
    exists ps, q1. rewrite H5. split_and!; [done..|apply lookup_delete]. }
  destruct Hgo as (ps1 & q1 & HF1 & Hr1 & Hs1 & Hw1).
  assert (Hq1 : qinv i q1) by (by eapply q_step_qinv_quiet).
  rewrite <- Hs1 in H, Hd, Ew.
  destruct (next_step hit ro e i texts rs ls (qs_sys q1) f c k eaten w x
      (match to_write hit ro e (qs_sys q1) w with Some (_, _, n) => n | None => 0 end) Hit Hreq Htame (qv_sane _ _ _ _ Hq1) H Hall Hd Ew Hxf Hne)
    as (l & s2 & x2 & c2 & Hl & Hby & Hfi & Hs & Hd2 & Ew2 & Hxf2 & Hc2 & Hmu).
  destruct (q_can q1 w l s2 Hw1 (or_intror Hl) Hs) as (q2 & Hq2 & <-).
  assert (Hall2 : tsent_by i (ls ++ [l]) = concat texts) by (by rewrite sent_server).
  destruct (holds_step _ _ _ _ _ _ _ _ _ _ _ _ _ _ _ Hit Hreq Htame (qv_sane _ _ _ _ Hq1) H Hfi ltac:(by rewrite Hall2) Hs) as (c2' & k2 & eaten2 & H2).
  assert (c2' = c2) as -> by (apply ho_conn in H2; congruence).
  destruct (IH (ls ++ [l]) q2 c2 k2 eaten2 x2) as (ps & q' & c' & HF & Hrun & Hc' & Ha); try done; [lia|..].
  { eapply qinv_step; [exact Hq1|exact Hq2|]. intros g ok [= ->]. done. }
  exists (ps1 ++ QDo l :: ps), q', c'. split; [apply Forall_app; split; [done|by constructor]|]. split; [|done].
  rewrite q_run_app, Hr1. cbn [mbind option_bind SlowThreads.q_run]. rewrite Hq2. done.
Qed.

Lemma q_finish_conn i texts rs f :
  valid_order hit -> requests texts rs -> Forall (tame ro) rs -> 0 < room -> forall m ls q c k eaten, length (ts_queue (qs_sys q)) < m ->
  qinv i q -> holds false ro i texts rs ls (qs_sys q) f c k eaten -> tsent_by i ls = concat texts -> ts_down (qs_sys q) = false ->
  load (qs_sys q) <= length (ts_workers (qs_sys q)) ->
  exists ps q' c', Forall (server_or i) ps /\ q_run q ps = Some q' /\
    ts_conns (qs_sys q') !! i = Some c' /\ Forall2 (answers ro) rs (tn_out c').
Proof.
  intros Hit Hreq Htame Hroom. induction m as [|m IH]; intros ls q c k eaten Hm Hq H Hall Hd Hload; [lia|].
  destruct (decide (0 < wcount f (ts_workers (qs_sys q)))) as [Hw|Hw].
  { apply wcount_pos in Hw as (w & x & Ew & Hxf). by eapply (q_finish_worker i texts rs f w Hit Hreq Htame Hroom (S (mu c x))); [|done..]; lia. }
  destruct (ho_some _ _ _ _ _ _ _ _ _ _ _ H eq_refl) as [Hu|(Hfin & Hin & ->)].
  2: { exists [], q, c. split; [constructor|]. split; [done|]. split; [by apply ho_conn in H|]. by eapply all_done. }
  destruct (ts_queue (qs_sys q)) as [|t qu] eqn:Eq.
  { unfold users in Hu. rewrite Eq in Hu. unfold qcount in Hu. cbn in Hu. lia. }
  destruct (nbusy_free (ts_workers (qs_sys q))) as [w Ew]; [unfold load in Hload; rewrite Eq in Hload; cbn in Hload; lia|].
  destruct (t_step false hit ro e (qs_sys q) (TPop w)) as [s1|] eqn:Hs.
  2: { unfold t_step in Hs. by rewrite Hd, Ew, Eq in Hs. }
  assert (Hall1 : tsent_by i (ls ++ [TPop w]) = concat texts) by (by rewrite sent_server).
  destruct (holds_step _ _ _ _ _ (TPop w) _ _ _ _ _ _ _ _ _ Hit Hreq Htame (qv_sane _ _ _ _ Hq) H I ltac:(by rewrite Hall1) Hs) as (c1 & k1 & eaten1 & H1).
  destruct (load_step _ _ _ _ _ _ Hs) as [L1 L2]. cbn [accepted] in L1.
  assert (Hq1 : ts_queue s1 = qu /\ ts_down s1 = false).
  { unfold t_step in Hs. rewrite Hd, Ew, Eq in Hs. injection Hs as <-. by destruct t as [g []|g]. }
  destruct Hq1 as [Hq1 Hd1]. cbn in Hm.
  assert (Hnw : qs_wait q !! w = None).
  { destruct (qs_wait q !! w) as [[[g j] n]|] eqn:En; [|done]. destruct (qv_at _ _ _ _ Hq _ _ _ _ En) as [_ Hx]. by rewrite Ew in Hx. }
  destruct (q_can q w (TPop w) s1 Hnw (or_introl eq_refl) Hs) as (q1 & Hst & <-).
  destruct (IH (ls ++ [TPop w]) q1 c1 k1 eaten1) as (ps & q' & c' & HF & Hrun & Hc' & Ha); try done; [rewrite Hq1; lia|..|lia|].
  { eapply qinv_step; [exact Hq|exact Hst|done]. }
  exists (QDo (TPop w) :: ps), q', c'. split; [by constructor|]. split; [|done]. cbn [SlowThreads.q_run]. rewrite Hst. done.
Qed.
End multi.

(** One peer holds all workers of mode kMixed. *)
Section mix.
Context {U : Type} (room : nat) (hit : iter_order) (ro : router U) (e : bytes) (n : nat) (text : bytes) (r : req).
Context (Hit : valid_order hit) (Hg : good_text ro text r).
Local Notation q_step := (q_step true room hit ro e).
Local Notation q_run := (q_run true room hit ro e).

Lemma q_calm q l s' : waits q l = false -> (forall w wr, l <> TRun w wr) -> t_step true hit ro e (qs_sys q) l = Some s' ->
  q_step q (QDo l) = Some (QSys s' (qs_wait q) (qs_buf q) (qs_read q)).
Proof.
  intros Hw Hl Ht. cbn [SlowThreads.q_step]. rewrite Hw. destruct l as [| | | | | | | |v wr]; [rewrite Ht; done..|by destruct (Hl v wr)].
Qed.

Lemma read_text w : forall left eaten st s c, ts_down s = false -> ts_fds s !! 0 = Some 0 -> ts_conns s !! 0 = Some c -> tn_in c = left ->
  ts_workers s !! w = Some (WRead false 0 st) -> reached ro st eaten -> text = eaten ++ left ->
  exists st', finishing st' = true /\ reached ro st' text /\
    t_run true hit ro e s (replicate (length left) (TRecv w)) =
      Some (TSys (ts_world s) (ts_fds s) (<[0 := TConn [] (tn_fin c) (tn_out c) (tn_sent c)]> (ts_conns s)) (ts_queue s)
                 (<[w := WRead false 0 st']> (ts_workers s)) false).
Proof.
  induction left as [|ch left IH]; intros eaten st s c Hd Hfd Hc Hin Hw Hre Ht.
  - rewrite app_nil_r in Ht. subst eaten. assert (Hf : finishing st = true).
    { destruct (finishing st) eqn:Ef; [done|exfalso].
      destruct (reached_unfinished ro hit e (ts_world s) st text text r [] Hit Hre Ef Hg) as (q & Hq & Hqn); [by eexists|].
      rewrite <- (app_nil_r text) in Hq at 1. by apply app_inv_head in Hq as <-. }
    exists st. split; [done|]. split; [done|]. cbn [replicate length t_run]. destruct s as [wo fds cs qu ws dn]. cbn in *. subst dn.
    rewrite list_insert_id by done. rewrite insert_id; [done|]. destruct c. cbn in *. by subst.
  - assert (Hf : finishing st = false).
    { destruct (finishing st) eqn:Ef; [exfalso|done].
      destruct (reached_finished ro hit e (ts_world s) st eaten text r [] 0 Hit Hre Ef Hg) as (-> & _); [rewrite Ht, app_nil_r; by eexists|].
      rewrite <- (app_nil_r text) in Ht at 1. by apply app_inv_head in Ht. }
    destruct (reached_next ro hit e (ts_world s) st eaten text r ch left [] Hit Hre Hf Hg) as [st1 Hst1]; [rewrite Ht, app_nil_r; done|].
    set (c1 := TConn left (tn_fin c) (tn_out c) (tn_sent c)).
    set (s1 := TSys (ts_world s) (ts_fds s) (<[0 := c1]> (ts_conns s)) (ts_queue s) (<[w := WRead false 0 st1]> (ts_workers s)) false).
    assert (Hs : t_step true hit ro e s (TRecv w) = Some s1).
    { unfold t_step. rewrite Hd, Hw. cbn [mbind option_bind wst_fd receiving]. rewrite Hf, (conn_of_eq _ _ _ _ Hfd Hc), Hin.
      cbn [takes recv_step negb]. rewrite Hst1. unfold s1, c1, set_worker, set_tconn. cbn [ts_world ts_fds ts_conns ts_queue ts_workers ts_down]. by rewrite Hd. }
    destruct (IH (eaten ++ [ch]) st1 s1 c1) as (st' & H1 & H2 & H3); [done|done|apply lookup_insert|done|..].
    { apply list_lookup_insert. by eapply lookup_lt_Some. }
    { by eapply reached_byte. }
    { by rewrite <- app_assoc. }
    exists st'. split; [done|]. split; [done|]. cbn [length replicate t_run]. rewrite Hs. cbn [mbind option_bind]. rewrite H3.
    unfold s1, c1. cbn [ts_world ts_fds ts_conns ts_queue ts_workers ts_down tn_fin tn_out tn_sent]. by rewrite insert_insert, list_insert_insert.
Qed.
Lemma q_reads q w k s' : qs_wait q !! w = None -> t_run true hit ro e (qs_sys q) (replicate k (TRecv w)) = Some s' ->
  q_run q (replicate k (QDo (TRecv w))) = Some (QSys s' (qs_wait q) (qs_buf q) (qs_read q)).
Proof.
  revert q. induction k as [|k IH]; intros q Hw H; cbn [replicate t_run SlowThreads.q_run] in *; [injection H as <-; by destruct q|].
  destruct (t_step true hit ro e (qs_sys q) (TRecv w)) as [s1|] eqn:E; [|done]. cbn [mbind option_bind] in H.
  rewrite (q_calm q _ s1); [|by apply (not_waiting q _ w)|done|done]. cbn [mbind option_bind]. by rewrite IH.
Qed.

(** Between two requests of peer 0; the first [d] workers wait. *)
Record stage (d : nat) (q : qsys U) : Prop := {
  sg_down : ts_down (qs_sys q) = false;
  sg_fd : ts_fds (qs_sys q) !! 0 = Some 0;
  sg_zero : exists c, ts_conns (qs_sys q) !! 0 = Some c /\ tn_in c = [] /\ tn_fin c = false;
  sg_one : ts_conns (qs_sys q) !! 1 = Some tconn_new;
  sg_queue : ts_queue (qs_sys q) = [];
  sg_work : ts_workers (qs_sys q) = replicate n WFree;
  sg_wait : forall w, w < d -> exists m, qs_wait q !! w = Some (0, 0, m) /\ 0 < m;
  sg_free : forall w, d <= w -> qs_wait q !! w = None;
  sg_room : in_buf q 0 <= room;
  sg_full : 0 < d -> in_buf q 0 = room }.

Definition plain (l : tlab) : Prop :=
  match l with TAccept _ _ _ | TFin _ | TTimeout _ _ => False | TRun _ wr => exists k, wr = WTake k | _ => True end.
Definition asking (k : nat) (ps : list qlab) : Prop :=
  Forall plain (qlabels ps) /\ tsent_by 0 (qlabels ps) = concat (replicate k text) /\ tsent_by 1 (qlabels ps) = [].

Lemma tsent_app i a b : tsent_by i (a ++ b) = tsent_by i a ++ tsent_by i b.
Proof. unfold tsent_by. by rewrite map_app, concat_app. Qed.
Lemma asking_app j k a b : asking j a -> asking k b -> asking (j + k) (a ++ b).
Proof.
  intros (A1 & A2 & A3) (B1 & B2 & B3). unfold asking. rewrite qlabels_app, !tsent_app, A2, A3, B2, B3, replicate_add, concat_app.
  split; [by apply Forall_app|done].
Qed.

(** One request. *)
Lemma one_ask d q : stage d q -> d < n -> exists ps q1 m, asking 1 ps /\ q_run q ps = Some q1 /\ 0 < m /\
  qs_wait q1 = <[d := (0, 0, m)]> (qs_wait q) /\ qs_buf q1 = qs_buf q /\
  ts_down (qs_sys q1) = false /\ ts_fds (qs_sys q1) !! 0 = Some 0 /\
  (exists c, ts_conns (qs_sys q1) !! 0 = Some c /\ tn_in c = [] /\ tn_fin c = false) /\
  ts_conns (qs_sys q1) !! 1 = Some tconn_new /\ ts_queue (qs_sys q1) = [] /\ ts_workers (qs_sys q1) = replicate n WFree.
Proof.
  intros [Hd Hfd (c & Hc & Hin & Hfin) H1 Hqu Hwk Hwait Hfree Hroom Hfull] Hdn.
  pose proof (Hfree d (le_n d)) as Hnw.
  destruct q as [[wo fds cs qu ws dn] wt bf rd]. cbn [qs_sys qs_wait qs_buf qs_read ts_down ts_fds ts_conns ts_queue ts_workers] in *. subst dn qu.
  assert (Hne : text <> []) by (destruct Hg as (_ & Hr & _); by eapply request_text_nonempty).
  assert (Hdw : ws !! d = Some WFree) by (by rewrite Hwk, lookup_replicate_2).
  set (c1 := TConn text false (tn_out c) (tn_sent c)).
  set (s1 := TSys wo fds (<[0 := c1]> cs) [] ws false).
  assert (E1 : q_step (QSys (TSys wo fds cs [] ws false) wt bf rd) (QDo (TSend 0 text)) = Some (QSys s1 wt bf rd)).
  { apply (q_calm (QSys (TSys wo fds cs [] ws false) wt bf rd)); [done|done|]. unfold t_step. cbn [qs_sys ts_down ts_conns]. rewrite Hc. cbn [mbind option_bind]. rewrite Hfin, Hin. done. }
  set (s2 := TSys wo fds (<[0 := c1]> cs) [KRead 0] ws false).
  assert (E2 : q_step (QSys s1 wt bf rd) (QDo (TNotify 0)) = Some (QSys s2 wt bf rd)).
  { apply (q_calm (QSys s1 wt bf rd)); [done|done|]. unfold t_step. cbn [qs_sys ts_down s1].
    rewrite (conn_of_eq s1 0 0 c1); [|done|apply lookup_insert]. cbn [mbind option_bind snd andb]. rewrite bool_decide_eq_true_2 by done. done. }
  set (s3 := TSys wo fds (<[0 := c1]> cs) [] (<[d := WRead false 0 (RHead [])]> ws) false).
  assert (E3 : q_step (QSys s2 wt bf rd) (QDo (TPop d)) = Some (QSys s3 wt bf rd)).
  { apply (q_calm (QSys s2 wt bf rd)); [by apply (not_waiting (QSys s2 wt bf rd) _ d)|done|]. unfold t_step. cbn [qs_sys ts_down s2 ts_workers ts_queue].
    rewrite Hdw. done. }
  assert (Hlen : d < length ws) by (rewrite Hwk, replicate_length; done).
  destruct (read_text d text [] (RHead []) s3 c1) as (st & Hst & Hre & Hrun); [done|done|apply lookup_insert|done|by apply list_lookup_insert|apply reached_start|done|].
  set (c4 := TConn [] false (tn_out c) (tn_sent c)).
  set (s4 := TSys wo fds (<[0 := c4]> cs) [] (<[d := WRead false 0 st]> ws) false).
  assert (E4 : q_run (QSys s3 wt bf rd) (replicate (length text) (QDo (TRecv d))) = Some (QSys s4 wt bf rd)).
  { apply (q_reads (QSys s3 wt bf rd)); [done|]. cbn [qs_sys]. rewrite Hrun. unfold s3, s4, c1, c4. cbn [ts_world ts_fds ts_conns ts_queue ts_workers tn_fin tn_out tn_sent].
    by rewrite insert_insert, list_insert_insert. }
  destruct (reached_finished ro hit e wo st text text r [] 0 Hit Hre Hst Hg) as (_ & w0 & out & Hf0 & Hans); [by eexists|].
  assert (Hout : 0 < length out).
  { enough (out <> []) by (destruct out; [done|cbn; lia]).
    destruct Hans as (w3 & w4 & c' & _ & Ha & Hb). destruct (decide (rs_status (cx_resp c') = sUNKNOWN)) as [Eu|Eu]; [specialize (Hb Eu)|specialize (Ha Eu); clear Hb; rename Ha into Hb];
      destruct Hb as (first & hdrs & ver & (Hm2 & _) & _); intros ->; by destruct first. }
  destruct (reached_finished ro hit e wo st text text r [] (length out) Hit Hre Hst Hg) as (_ & w5 & out5 & Hf5 & _); [by eexists|].
  destruct (finish_take hit ro e _ (length out) _ _ _ _ _ _ Hf0) as [cl Hf6]. rewrite Hf6 in Hf5. injection Hf5 as <- <- _ ->.
  set (c7 := TConn [] false (tn_out c ++ [out]) (tn_sent c ++ take (length out) (concat [out]))).
  set (s7 := TSys w0 fds (<[0 := c7]> cs) [] ws false).
  assert (E7 : q_step (QSys s4 wt bf rd) (QDo (TRun d (WTake (length out)))) = Some (QSys s7 (<[d := (0, 0, length out)]> wt) bf rd)).
  { cbn [SlowThreads.q_step qs_sys qs_wait qs_buf qs_read]. rewrite (not_waiting (QSys s4 wt bf rd) _ d) by done.
    assert (Hd4 : ts_workers s4 !! d = Some (WRead false 0 st)) by (by apply list_lookup_insert).
    assert (Hc4 : conn_of s4 0 = Some (0, c4)) by (apply conn_of_eq; [done|apply lookup_insert]).
    assert (Ew : to_write hit ro e s4 d = Some (0, 0, length out)).
    { unfold to_write. rewrite Hd4, Hc4. cbn [s4 ts_world]. rewrite Hf0. cbn [concat]. by rewrite app_nil_r. }
    rewrite Ew, decide_True by done.
    assert (Et : t_step true hit ro e s4 (TRun d (WTake (length out))) = Some s7).
    { unfold t_step. rewrite Hd4, Hst, Hc4. cbn [s4 ts_down ts_fds ts_world]. rewrite Hfd, Hf6.
      unfold s7, c7, c4, s4, set_tconn. cbn [ts_world ts_fds ts_conns ts_queue ts_workers ts_down tn_in tn_fin tn_out tn_sent after_read].
      by rewrite insert_insert, list_insert_insert, list_insert_id. }
    rewrite Et. cbn [mbind option_bind]. destruct (Nat.eqb_spec (length out) 0); [lia|done]. }
  exists ([QDo (TSend 0 text); QDo (TNotify 0); QDo (TPop d)] ++ replicate (length text) (QDo (TRecv d)) ++ [QDo (TRun d (WTake (length out)))]),
    (QSys s7 (<[d := (0, 0, length out)]> wt) bf rd), (length out).
  split.
  { assert (Hq : forall k, qlabels (replicate k (QDo (TRecv d))) = replicate k (TRecv d)) by (induction k as [|k IHk]; [done|cbn; f_equal; exact IHk]).
    assert (Ht : forall i k, tsent_by i (replicate k (TRecv d)) = []) by (intros i; induction k as [|k IHk]; [done|exact IHk]).
    unfold asking. rewrite !qlabels_app, Hq, !tsent_app, !Ht. split; [|split; [cbn; by rewrite !app_nil_r|done]].
    apply Forall_app. split; [by repeat constructor|]. apply Forall_app. split; [by apply Forall_replicate|]. constructor; [by eexists|constructor]. }
  split.
  { rewrite !q_run_app. cbn [SlowThreads.q_run]. rewrite E1. cbn [mbind option_bind]. rewrite E2. cbn [mbind option_bind]. rewrite E3. cbn [mbind option_bind].
    rewrite q_run_app, E4. cbn [mbind option_bind SlowThreads.q_run]. rewrite E7. done. }
  cbn [qs_wait qs_buf qs_sys s7 ts_down ts_fds ts_conns ts_queue ts_workers]. split_and!; try done.
  - exists c7. rewrite lookup_insert. done.
  - by rewrite lookup_insert_ne.
Qed.

(** Requests until worker [d] waits, too. *)
Lemma hold_next d : d < n -> forall k q, stage d q -> room - in_buf q 0 < k ->
  exists ps q' j, asking j ps /\ q_run q ps = Some q' /\ stage (S d) q'.
Proof.
  intros Hdn. induction k as [|k IH]; intros q Hs Hk; [lia|].
  destruct (one_ask d q Hs Hdn) as (ps & q1 & m & Ha & Hr & Hm & Hw & Hb & G1 & G2 & G3 & G4 & G5 & G6).
  destruct Hs as [Hd Hfd Hz H1 Hqu Hwk Hwait Hfree Hroom Hfull].
  assert (Hib : in_buf q1 0 = in_buf q 0) by (unfold in_buf; by rewrite Hb).
  assert (Hwd : qs_wait q1 !! d = Some (0, 0, m)) by (rewrite Hw; apply lookup_insert).
  destruct (decide (m <= room - in_buf q 0)) as [Hfit|Hfit].
  - (* the answer fits *)
    assert (d = 0) as -> by (destruct d; [done|]; pose proof (Hfull ltac:(lia)); lia).
    set (q2 := QSys (qs_sys q1) (delete 0 (qs_wait q1)) (<[0 := in_buf q1 0 + m]> (qs_buf q1)) (qs_read q1)).
    assert (E : q_step q1 (QCopy 0 m) = Some q2).
    { cbn [SlowThreads.q_step]. rewrite Hwd, decide_True by lia. by rewrite Nat.eqb_refl. }
    assert (Hb2 : in_buf q2 0 = in_buf q 0 + m) by (unfold in_buf at 1, q2; cbn [qs_buf]; rewrite lookup_insert; cbn; lia).
    destruct (IH q2) as (ps' & q' & j & B1 & B2 & B3).
    { split; try done.
      - intros w Hlt. lia.
      - intros w _. unfold q2. cbn [qs_wait]. rewrite Hw. destruct (decide (w = 0)) as [->|Hne]; [apply lookup_delete|].
        rewrite lookup_delete_ne, lookup_insert_ne by done. apply Hfree. lia.
      - rewrite Hb2. lia.
      - lia. }
    { rewrite Hb2. lia. }
    exists (ps ++ QCopy 0 m :: ps'), q', (1 + j). split; [apply asking_app; [done|exact B1]|]. split; [|done].
    rewrite q_run_app, Hr. cbn [mbind option_bind SlowThreads.q_run]. rewrite E. done.
  - assert (Hst : forall q2 m', qs_sys q2 = qs_sys q1 -> qs_wait q2 = <[d := (0, 0, m')]> (qs_wait q) -> 0 < m' -> in_buf q2 0 = room -> stage (S d) q2).
    { intros q2 m' E1 E2 Hm' Hf. split; rewrite ?E1, ?E2; try done; [| |lia].
      - intros w Hlt. destruct (decide (w = d)) as [->|Hne]; [rewrite lookup_insert; by eexists|]. rewrite lookup_insert_ne by done. apply Hwait. lia.
      - intros w Hle. rewrite lookup_insert_ne by lia. apply Hfree. lia. }
    destruct (decide (in_buf q 0 = room)) as [Hfl|Hfl].
    { exists ps, q1, 1. split; [done|]. split; [done|]. apply (Hst q1 m); try done. lia. }
    set (x := room - in_buf q 0).
    set (q2 := QSys (qs_sys q1) (<[d := (0, 0, m - x)]> (qs_wait q1)) (<[0 := in_buf q1 0 + x]> (qs_buf q1)) (qs_read q1)).
    assert (E : q_step q1 (QCopy d x) = Some q2).
    { cbn [SlowThreads.q_step]. rewrite Hwd, decide_True by (unfold x; lia). destruct (Nat.eqb_spec x m); [unfold x in *; lia|done]. }
    exists (ps ++ [QCopy d x]), q2, (1 + 0). split; [apply asking_app; [done|by split; [constructor|]]|]. split.
    { rewrite q_run_app, Hr. cbn [mbind option_bind SlowThreads.q_run]. rewrite E. done. }
    apply (Hst q2 (m - x)); [done|unfold q2; cbn [qs_wait]; rewrite Hw; by rewrite insert_insert|unfold x; lia|].
    unfold in_buf at 1, q2. cbn [qs_buf]. rewrite lookup_insert. cbn. unfold x. lia.
Qed.
Lemma hold_all q : stage 0 q -> forall d, d <= n -> exists ps q' j, asking j ps /\ q_run q ps = Some q' /\ stage d q'.
Proof.
  intros H0. induction d as [|d IH]; intros Hd; [exists [], q, 0; split; [by split; [constructor|]|done]|].
  destruct IH as (ps & q1 & j & A1 & A2 & A3); [lia|].
  destruct (hold_next d ltac:(lia) (S (room - in_buf q1 0)) q1 A3 ltac:(lia)) as (ps' & q' & k & B1 & B2 & B3).
  exists (ps ++ ps'), q', (j + k). split; [by apply asking_app|]. split; [by rewrite q_run_app, A2|done].
Qed.

(** All workers wait for peer 0. *)
Definition held (q : qsys U) : Prop :=
  (forall w, w < length (ts_workers (qs_sys q)) -> exists f m, qs_wait q !! w = Some (f, 0, m)) /\
  (forall w x, qs_wait q !! w = Some x -> x.1.2 = 0 /\ in_buf q 0 = room) /\
  exists c, ts_conns (qs_sys q) !! 1 = Some c /\ tn_out c = [].

Lemma t_len s l s' : t_step true hit ro e s l = Some s' -> actor l = None -> ts_workers s' = ts_workers s.
Proof.
  intros H Hl. apply list_eq. intros w. eapply other_workers; [exact H|]. by rewrite Hl.
Qed.
Lemma held_step q p q' : held q -> q_step q p = Some q' -> (forall k, p <> QRecv 0 k) -> held q'.
Proof.
  intros (H1 & H2 & H3) H Hp. destruct p as [l|w k|j k].
  - apply q_do in H as (Hwt & Ht & Hb & _ & Hw).
    assert (Hact : actor l = None).
    { destruct (actor l) as [v|] eqn:Ea; [exfalso|done].
      destruct (decide (v < length (ts_workers (qs_sys q)))) as [Hv|Hv].
      - destruct (H1 v Hv) as (f & m & Hm). unfold waits in Hwt. rewrite Ea, Hm, bool_decide_eq_true_2 in Hwt by (by eexists). done.
      - assert (Hn : ts_workers (qs_sys q) !! v = None) by (apply lookup_ge_None; lia).
        unfold t_step in Ht. destruct (ts_down (qs_sys q)); [done|]. destruct l; cbn [actor] in Ea; try done; injection Ea as ->; by rewrite Hn in Ht. }
    pose proof (t_len _ _ _ Ht Hact) as Hlen.
    destruct Hw as [Hw|(v & g & j0 & n0 & -> & _)]; [|done].
    split; [rewrite Hlen, Hw; done|]. split; [unfold in_buf; rewrite Hw, Hb; exact H2|].
    destruct H3 as (c & Hc & Ho). pose proof (out_kept true hit ro e _ _ _ Ht) as Hk. specialize (Hk ltac:(intros w wr ->; done) 1). rewrite Hc in Hk.
    destruct (ts_conns (qs_sys q') !! 1) as [c'|]; [|done]. exists c'. split; [done|congruence].
  - cbn [SlowThreads.q_step] in H. destruct (qs_wait q !! w) as [[[f i0] m]|] eqn:Ew; [|done]. destruct (decide _) as [(? & ? & ?)|]; [|done].
    destruct (H2 _ _ Ew) as [E1 E2]. cbn in E1. subst i0. lia.
  - cbn [SlowThreads.q_step] in H. destruct (decide _) as [(? & ?)|]; [|done]. injection H as <-.
    assert (Hj : j <> 0) by (intros ->; by destruct (Hp k)).
    split; [exact H1|]. split; [|exact H3]. intros w x Hx. cbn [qs_wait] in Hx. unfold in_buf. cbn [qs_buf]. rewrite lookup_insert_ne by done. by apply (H2 w).
Qed.
Lemma held_run ps : (forall k, QRecv 0 k ∉ ps) -> forall q q', held q -> q_run q ps = Some q' -> held q'.
Proof.
  induction ps as [|p ps IH]; intros Hps q q' Hq H; [by injection H as <-|]. cbn [SlowThreads.q_run] in H.
  destruct (q_step q p) as [q1|] eqn:E; [|done]. apply (IH ltac:(intros k Hk; apply (Hps k); by right) q1); [|exact H].
  eapply held_step; [exact Hq|exact E|]. intros k ->. apply (Hps k). left.
Qed.
End mix.

(** ** C215 *)

(** Of the answers to peer [i] every byte is read, in the buffer, or still to be copied by
    a worker that waits. *)
Theorem slow_threads_bytes : forall U mixed room hit (ro : router U) e n w ps q i c,
  q_run mixed room hit ro e (q_new n w) ps = Some q -> ts_conns (qs_sys q) !! i = Some c ->
  length (concat (tn_out c)) = has_read q i + in_buf q i + unsent i (qs_wait q).
Proof.
  intros U mixed room hit ro e n w ps q i c Hrun Hc. pose proof (counted_run _ _ _ _ _ _ _ _ _ Hrun i) as H. by rewrite Hc in H.
Qed.
Print Assumptions slow_threads_bytes.

(** Missing: mode kMixed, where it is false (below). *)
Theorem slow_threads_partial : forall U room hit (ro : router U) e n w ps q i c texts rs,
  valid_order hit -> 0 < room -> q_run false room hit ro e (q_new n w) ps = Some q -> ts_down (qs_sys q) = false ->
  naccepted (qlabels ps) <= n -> ts_conns (qs_sys q) !! i = Some c ->
  requests texts rs -> Forall (tame ro) rs -> tsent_by i (qlabels ps) = concat texts ->
  Forall smooth (qlabels ps) -> own_number false hit ro e (t_new n w) i (qlabels ps) ->
  exists ps' q' c', Forall (server_or i) ps' /\ q_run false room hit ro e q ps' = Some q' /\
    ts_conns (qs_sys q') !! i = Some c' /\ Forall2 (answers ro) rs (tn_out c') /\
    has_read q' i = length (concat (tn_out c')).
Proof.
  intros U room hit ro e n w ps q i c texts rs Hit Hroom Hrun Hd Hn Hc Hreq Htame Hall Hsm Hown.
  pose proof (follow_q _ _ _ _ _ _ _ _ _ Hrun) as Ht.
  pose proof (qinv_run _ _ _ _ _ _ _ _ _ _ Hrun Hown) as Hq.
  destruct (holds_run false hit ro e n w (qlabels ps) (qs_sys q) i texts rs c Hit Hreq Htame Ht) as (f & k & eaten & H); [|by rewrite Hall|done|].
  { by eapply own_fine. }
  destruct (load_run hit ro e n w _ _ Ht) as [L1 L2].
  destruct (q_finish_conn room hit ro e i texts rs f Hit Hreq Htame Hroom (S (length (ts_queue (qs_sys q)))) (qlabels ps) q c k eaten)
    as (ps1 & q1 & c1 & H1 & H2 & H3 & H4); try done; [lia|lia|].
  destruct (deliver false room hit ro e i Hroom (S (base.size (qs_wait q1))) q1) as (ps2 & q2 & G1 & G2 & G3 & G4 & G5 & G6);
    [by eapply q_step_qinv_quiet|lia|].
  assert (Hr : q_run false room hit ro e q (ps1 ++ ps2) = Some q2) by (by rewrite q_run_app, H2).
  exists (ps1 ++ ps2), q2, c1. split; [by apply Forall_app|]. split; [done|]. rewrite G4. split; [done|]. split; [done|].
  rewrite (slow_threads_bytes U false room hit ro e n w (ps ++ ps1 ++ ps2) q2 i c1); [lia|by rewrite q_run_app, Hrun|by rewrite G4].
Qed.
Print Assumptions slow_threads_partial.

Lemma two_own {U} hit (ro : router U) e n w i ls : Forall plain ls ->
  own_number true hit ro e (t_new n w) i (TAccept 0 0 true :: TAccept 1 1 true :: ls).
Proof.
  intros Hls pre f ok post s E Hrun.
  assert (Hu : ts_queue s = [] /\ ts_workers s = replicate n WFree).
  { destruct pre as [|a [|b pre]].
    - injection Hrun as <-. done.
    - injection E as <- _ _. cbn [t_run] in Hrun. unfold t_step, t_new in Hrun. cbn [ts_down ts_conns ts_fds] in Hrun.
      rewrite !lookup_empty, decide_True in Hrun by done. injection Hrun as <-. done.
    - injection E as _ _ E. exfalso. rewrite E in Hls. apply Forall_app in Hls as [_ Hls]. by apply Forall_cons in Hls as [? _]. }
  destruct Hu as [Hq Hw]. split; rewrite ?Hq, ?Hw; [by intros k ?%elem_of_nil|]. intros v x [-> _]%lookup_replicate. done.
Qed.

(** C215, otherwise: in mode kMixed a peer that asks and does not read gets hold of one
    worker after the other, however many there are and however large the buffer is; until
    it reads nobody else is answered. *)
Theorem one_peer_stops_mixed : forall U room hit (ro : router U) e n w text r,
  valid_order hit -> requests [text] [r] -> tame ro r ->
  exists ps q j, q_run true room hit ro e (q_new n w) ps = Some q /\ ts_down (qs_sys q) = false /\ naccepted (qlabels ps) = 2 /\
    Forall smooth (qlabels ps) /\ (forall k, TFin k ∉ qlabels ps) /\ own_number true hit ro e (t_new n w) 1 (qlabels ps) /\
    tsent_by 0 (qlabels ps) = concat (replicate j text) /\ tsent_by 1 (qlabels ps) = text /\
    ts_conns (qs_sys q) !! 1 = Some (TConn text false [] []) /\
    forall ps' q', (forall k, QRecv 0 k ∉ ps') -> q_run true room hit ro e q ps' = Some q' ->
      exists c, ts_conns (qs_sys q') !! 1 = Some c /\ tn_out c = [].
Proof.
  intros U room hit ro e n w text r Hit (Hreq & Hsh & Hnul) Htame.
  assert (Hg : good_text ro text r).
  { apply Forall2_cons in Hreq as [Hr _]. apply Forall_cons in Hsh as [? _]. apply Forall_cons in Hnul as [? _]. done. }
  set (s0 := TSys w (<[1 := 1]> (<[0 := 0]> ∅)) (<[1 := tconn_new]> (<[0 := tconn_new]> ∅)) [] (replicate n WFree) false).
  assert (E0 : q_run true room hit ro e (q_new n w) [QDo (TAccept 0 0 true); QDo (TAccept 1 1 true)] = Some (QSys s0 ∅ ∅ ∅)).
  { cbn [q_run]. rewrite (q_calm room hit ro e (q_new n w) (TAccept 0 0 true) (TSys w (<[0 := 0]> ∅) (<[0 := tconn_new]> ∅) [] (replicate n WFree) false)); [|done|done|].
    - cbn [mbind option_bind]. rewrite (q_calm room hit ro e _ (TAccept 1 1 true) s0); [done|done|done|]. unfold t_step. cbn [qs_sys ts_down ts_conns ts_fds].
      rewrite !lookup_insert_ne, !lookup_empty, decide_True by done. done.
    - unfold t_step, q_new, t_new. cbn [qs_sys ts_down ts_conns ts_fds]. rewrite !lookup_empty, decide_True by done. done. }
  assert (Hs0 : stage room n 0 (QSys s0 ∅ ∅ ∅)).
  { split; cbn [qs_sys qs_wait s0 ts_down ts_fds ts_conns ts_queue ts_workers]; try done.
    - exists tconn_new. rewrite lookup_insert_ne, lookup_insert by done. done.
    - lia.
    - unfold in_buf. cbn [qs_buf]. rewrite lookup_empty. cbn. lia.
    - lia. }
  destruct (hold_all room hit ro e n text r Hit Hg _ Hs0 n (le_n n)) as (ps & q & j & (A1 & A2 & A3) & Hrun & Hst).
  set (q1 := QSys (set_tconn (qs_sys q) 1 (TConn text false [] [])) (qs_wait q) (qs_buf q) (qs_read q)).
  assert (E1 : q_step true room hit ro e q (QDo (TSend 1 text)) = Some q1).
  { apply q_calm; [done|done|]. unfold t_step. rewrite (sg_down _ _ _ _ Hst), (sg_one _ _ _ _ Hst). done. }
  exists ([QDo (TAccept 0 0 true); QDo (TAccept 1 1 true)] ++ ps ++ [QDo (TSend 1 text)]), q1, j.
  assert (El : qlabels ([QDo (TAccept 0 0 true); QDo (TAccept 1 1 true)] ++ ps ++ [QDo (TSend 1 text)]) =
    TAccept 0 0 true :: TAccept 1 1 true :: (qlabels ps ++ [TSend 1 text])) by (by rewrite !qlabels_app).
  assert (Hpl : Forall plain (qlabels ps ++ [TSend 1 text])) by (apply Forall_app; split; [done|by repeat constructor]).
  rewrite El. split; [by rewrite !q_run_app, E0; cbn [mbind option_bind]; rewrite q_run_app, Hrun; cbn [mbind option_bind q_run]; rewrite E1|].
  split; [apply (sg_down _ _ _ _ Hst)|]. split.
  { unfold naccepted. cbn [List.filter accepted length]. do 2 f_equal. clear -Hpl. induction Hpl as [|l ls Hl Hls IH]; [done|].
    cbn [List.filter]. destruct l; done. }
  split. { do 2 (constructor; [done|]). eapply Forall_impl; [exact Hpl|]. intros []; done. }
  split.
  { intros k Hk. apply elem_of_cons in Hk as [|Hk]; [done|]. apply elem_of_cons in Hk as [|Hk]; [done|].
    by apply (proj1 (Forall_forall _ _) Hpl) in Hk. }
  split; [by apply two_own|].
  split; [change (tsent_by 0 (qlabels ps ++ [TSend 1 text]) = concat (replicate j text)); by rewrite tsent_app, A2; cbn; rewrite app_nil_r|].
  split; [change (tsent_by 1 (qlabels ps ++ [TSend 1 text]) = text); by rewrite tsent_app, A3; cbn; rewrite app_nil_r|].
  split; [apply lookup_insert|].
  intros ps' q' Hps Hr'.
  destruct (held_run room hit ro e ps' Hps q1 q') as (_ & _ & H); [|done|done].
  split; [|split].
  - intros v Hv. cbn [q1 qs_sys set_tconn ts_workers] in Hv. rewrite (sg_work _ _ _ _ Hst), replicate_length in Hv.
    destruct (sg_wait _ _ _ _ Hst v Hv) as (m & Hm & _). by exists 0, m.
  - intros v x Hx. cbn [q1 qs_wait] in Hx. destruct (decide (v < n)) as [Hv|Hv]; [|by rewrite (sg_free _ _ _ _ Hst) in Hx by lia].
    destruct (sg_wait _ _ _ _ Hst v Hv) as (m & Hm & _). rewrite Hx in Hm. injection Hm as ->. split; [done|]. apply (sg_full _ _ _ _ Hst). lia.
  - exists (TConn text false [] []). split; [apply lookup_insert|done].
Qed.
Print Assumptions one_peer_stops_mixed.

Local Notation wn := HttpSystemProps.wn.
(** The full statement does not hold: mode kMixed, two workers and a buffer of one byte. *)
Theorem slow_threads_refuted : ~ slow_threads_full.
Proof.
  intros H.
  destruct (one_peer_stops_mixed nat 1 map_to_list echo_ro [] 2 wn hi (ex_req (B "hi")) valid_order_sorted (proj1 hi_only))
    as (ps & q & j & H1 & H2 & H3 & H4 & H5 & H6 & _ & H7 & H8 & H9); [by apply (Forall_cons_1 _ _ _ (proj2 hi_only))|].
  destruct (H nat true 1 map_to_list echo_ro [] 2 wn ps q 1 (TConn hi false [] []) [hi] [ex_req (B "hi")] valid_order_sorted)
    as (ps' & q' & c' & G1 & G2 & G3 & G4 & _); [lia|exact H1|exact H2|lia|exact H8|apply hi_only|apply hi_only|rewrite H7; cbn [concat]; by rewrite app_nil_r|exact H4|exact H5|exact H6|].
  destruct (H9 ps' q') as (c & Hc & Ho); [|exact G2|].
  - intros k Hk. by apply (proj1 (Forall_forall _ _) G1) in Hk.
  - rewrite G3 in Hc. injection Hc as ->. rewrite Ho in G4. by apply Forall2_length in G4.
Qed.
Print Assumptions slow_threads_refuted.

(** ** Examples *)

(** Mode kMultiThread: peer 0 does not read the answer; peer 1 gets its own. *)
Definition stuck_run : list qlab :=
  map QDo ([TAccept 0 5 true; TAccept 1 6 true; TPop 0; TSend 0 hi; TRecv 0] ++ eat 0 (length hi) ++ [TRun 0 (WTake 40)]) ++
  [QCopy 0 4; QDo (TSend 1 hi)].
Lemma stuck_end : exists q, q_run false 4 map_to_list echo_ro [] (q_new 2 wn) stuck_run = Some q /\
  ts_conns (qs_sys q) !! 1 = Some (TConn hi false [] []) /\ ts_down (qs_sys q) = false /\
  map_to_list (qs_wait q) = [(0, (5, 0, 36))] /\ (in_buf q 0, has_read q 0) = (4, 0) /\ ts_conns (qs_sys q) !! 0 <> None.
Proof.
  assert (E : match q_run false 4 map_to_list echo_ro [] (q_new 2 wn) stuck_run with
    | Some q => Some (ts_conns (qs_sys q) !! 1, ts_down (qs_sys q), map_to_list (qs_wait q), (in_buf q 0, has_read q 0), bool_decide (ts_conns (qs_sys q) !! 0 = None))
    | None => None end = Some (Some (TConn hi false [] []), false, [(0, (5, 0, 36))], (4, 0), false)) by (by vm_compute).
  destruct (q_run false 4 map_to_list echo_ro [] (q_new 2 wn) stuck_run) as [q|]; [|discriminate E].
  apply (inj Some) in E. injection E as E1 E2 E3 E4 E5 E6. exists q. apply bool_decide_eq_false in E6.
  split; [reflexivity|]. split; [exact E1|]. split; [exact E2|]. split; [exact E3|]. split; [by rewrite E4, E5|].
  exact E6.
Qed.
Example slow_threads_ex : exists q ps' q' c', q_run false 4 map_to_list echo_ro [] (q_new 2 wn) stuck_run = Some q /\
  Forall (server_or 1) ps' /\ q_run false 4 map_to_list echo_ro [] q ps' = Some q' /\
  ts_conns (qs_sys q') !! 1 = Some c' /\ Forall2 (answers echo_ro) [ex_req (B "hi")] (tn_out c') /\ has_read q' 1 = length (concat (tn_out c')).
Proof.
  destruct stuck_end as (q & Hrun & Hc & Hd & _).
  destruct (slow_threads_partial nat 4 map_to_list echo_ro [] 2 wn stuck_run q 1 (TConn hi false [] []) [hi] [ex_req (B "hi")] valid_order_sorted)
    as (ps' & q' & c' & H1 & H2 & H3 & H4 & H5).
  - lia.
  - exact Hrun.
  - exact Hd.
  - vm_compute. lia.
  - exact Hc.
  - apply hi_only.
  - apply hi_only.
  - by vm_compute.
  - apply smooth_by. by vm_compute.
  - apply own_by. by vm_compute.
  - exists q, ps', q', c'. exact (conj Hrun (conj H1 (conj H2 (conj H3 (conj H4 H5))))).
Qed.
Example slow_threads_bytes_ex : exists q c, q_run false 4 map_to_list echo_ro [] (q_new 2 wn) stuck_run = Some q /\
  ts_conns (qs_sys q) !! 0 = Some c /\ length (concat (tn_out c)) = has_read q 0 + in_buf q 0 + unsent 0 (qs_wait q) /\ in_buf q 0 = 4.
Proof.
  destruct stuck_end as (q & Hrun & _ & _ & _ & [= Hb _] & Hc). destruct (ts_conns (qs_sys q) !! 0) as [c|] eqn:E; [|by destruct Hc].
  exists q, c. split; [exact Hrun|]. split; [exact E|]. split; [|exact Hb].
  exact (slow_threads_bytes nat false 4 map_to_list echo_ro [] 2 wn stuck_run q 0 c Hrun E).
Qed.
(** Mode kMixed: ten workers, a buffer of 100000 bytes, and one peer that does not read. *)
Example one_peer_stops_mixed_ex : exists ps q j, q_run true (N.to_nat 100000) map_to_list echo_ro [] (q_new 10 wn) ps = Some q /\
  tsent_by 0 (qlabels ps) = concat (replicate j hi) /\ tsent_by 1 (qlabels ps) = hi /\
  forall ps' q', (forall k, QRecv 0 k ∉ ps') -> q_run true (N.to_nat 100000) map_to_list echo_ro [] q ps' = Some q' ->
    exists c, ts_conns (qs_sys q') !! 1 = Some c /\ tn_out c = [].
Proof.
  destruct (one_peer_stops_mixed nat (N.to_nat 100000) map_to_list echo_ro [] 10 wn hi (ex_req (B "hi")) valid_order_sorted (proj1 hi_only))
    as (ps & q & j & H1 & _ & _ & _ & _ & _ & H6 & H7 & _ & H9); [apply (Forall_cons_1 _ _ _ (proj2 hi_only))|].
  exists ps, q, j. exact (conj H1 (conj H6 (conj H7 H9))).
Qed.
