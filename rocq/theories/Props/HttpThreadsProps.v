(** C147-C151: an HTTP server with worker threads
    (src/cppnet/http/server/http_server.cpp on src/cppnet/server/tcp_server.cpp in
    modes kMultiThread and kMixed). *)
From Verif.Lib Require Import CxxStringFacts.
From Verif.Proof Require Import RouteProof ReqProof SocketProof RouterProof ServerProof HttpSystemProof.
From Verif.Spec Require Import SocketSpec RouterSpec.
From Verif.Props Require Import SocketProps RouterProps ServerProps HttpSystemProps.
From Verif.Model Require Import HttpThreads.
From Verif.Proof Require Import HttpThreadsProof.

(** No task and no worker uses the number [f]. *)
Definition unused {U} (f : nat) (s : tsys U) : Prop :=
  (forall k, k ∈ ts_queue s -> task_fd k <> f) /\
  (forall w x, ts_workers s !! w = Some x -> wst_fd x <> Some f).
Lemma unused_users {U} f (s : tsys U) : unused f s -> users f s = 0.
Proof.
  intros [Hq Hw]. unfold users. assert (qcount f (ts_queue s) = 0) as ->.
  { clear Hw. induction (ts_queue s) as [|k q IH]; [done|]. rewrite qcount_cons, decide_False by (apply Hq; left).
    apply IH. intros k' Hk'. apply Hq. by right. }
  destruct (decide (0 < wcount f (ts_workers s))) as [H|]; [|lia].
  apply wcount_pos in H as (w & x & Hx & Hf). by apply Hw in Hx.
Qed.
Lemma users_unused {U} f (s : tsys U) : users f s = 0 -> unused f s.
Proof.
  intros H. unfold users in H. split.
  - intros k. apply no_task_in. lia.
  - intros w x Hx Hf. pose proof (wcount_lookup f _ _ _ Hx) as Ho. unfold on in Ho. rewrite decide_True in Ho by done. lia.
Qed.

(** What the peer of [i] sends before it closes its side is all it sends. *)
Lemma fin_step {U} mixed hit (ro : router U) e s l s' i c :
  t_step mixed hit ro e s l = Some s' -> ts_conns s !! i = Some c -> tn_fin c = true ->
  (forall bs, l <> TSend i bs) /\ exists c', ts_conns s' !! i = Some c' /\ tn_fin c' = true.
Proof.
  intros Hs Hc Hf. unfold t_step in Hs. destruct (ts_down s); [done|].
  assert (Hset : forall (t : tsys U) j d, ts_conns t = ts_conns s ->
    (forall c', ts_conns s !! j = Some c' -> tn_fin c' = true -> tn_fin d = true) ->
    exists c', ts_conns (set_tconn t j d) !! i = Some c' /\ tn_fin c' = true).
  { intros t j d E Hd. cbn. rewrite E. destruct (decide (j = i)) as [->|].
    - rewrite lookup_insert. eexists. split; [done|]. by eapply Hd.
    - rewrite lookup_insert_ne by done. by exists c. }
  assert (Hrec : forall (t : tsys U) w x r, ts_conns (recv_step t w x r) = ts_conns t).
  { intros t w [] []; cbn; try done. by destruct (got_byte st a). }
  assert (Hsame : forall t : tsys U, ts_conns t = ts_conns s -> exists c', ts_conns t !! i = Some c' /\ tn_fin c' = true).
  { intros t ->. by exists c. }
  destruct l as [j g ok|j bs|j|g|g|w|w|w j|w wr].
  - destruct (decide _) as [[Hj Hg]|]; [|done]. injection Hs as <-. split; [done|].
    assert (j <> i) by congruence. destruct mixed; [destruct ok|]; cbn; rewrite lookup_insert_ne by done; by exists c.
  - destruct (ts_conns s !! j) as [d|] eqn:Ej; [|done]. cbn [mbind option_bind] in Hs. destruct (tn_fin d) eqn:Ed; [done|]. injection Hs as <-.
    split; [intros bs' [= -> _]; congruence|]. apply Hset; [done|]. intros c' Hc' Hf'. congruence.
  - destruct (ts_conns s !! j) as [d|] eqn:Ej; [|done]. injection Hs as <-. split; [done|]. by apply Hset.
  - destruct (conn_of s g) as [ic|]; [|done]. cbn [mbind option_bind] in Hs. destruct (_ && _); [|done]. injection Hs as <-.
    split; [done|by apply Hsame].
  - destruct (conn_of s g) as [ic|]; [|done]. cbn [mbind option_bind] in Hs. destruct (_ && _); [|done]. injection Hs as <-.
    split; [done|by apply Hsame].
  - destruct (ts_workers s !! w) as [[]|]; try done. destruct (ts_queue s) as [|k q]; [done|]. injection Hs as <-.
    split; [done|]. destruct k as [f []|f]; by apply Hsame.
  - split; [done|]. destruct (ts_workers s !! w) as [x|]; [|done]. cbn [mbind option_bind] in Hs.
    destruct (wst_fd x) as [f|]; [|done]. cbn [mbind option_bind] in Hs. destruct (receiving x); [|done].
    destruct (conn_of s f) as [[j d]|] eqn:Ec.
    + apply conn_of_Some in Ec as [_ Ec]. destruct (tn_in d) as [|ch rest].
      * destruct (tn_fin d); [|done]. injection Hs as <-. by apply Hsame, Hrec.
      * injection Hs as <-. rewrite Hrec. destruct (takes x); [|by exists c]. apply Hset; [done|]. intros c' Hc' Hf'. cbn. congruence.
    + injection Hs as <-. by apply Hsame, Hrec.
  - split; [done|]. destruct (ts_workers s !! w) as [x|]; [|done]. cbn [mbind option_bind] in Hs.
    destruct (wst_fd x) as [f|]; [|done]. cbn [mbind option_bind] in Hs. destruct (_ && _); [|done]. injection Hs as <-. by apply Hsame, Hrec.
  - split; [done|]. destruct (ts_workers s !! w) as [[|g|th g st]|]; try done. destruct (finishing st); [|done].
    destruct (finish _ _ _ _ _ _) as [[[[wo texts] sent] cl]| | | | |]; try done; try (injection Hs as <-; by apply Hsame).
    injection Hs as <-. destruct (conn_of s g) as [[j d]|] eqn:Ec; [|destruct cl; by apply Hsame].
    apply conn_of_Some in Ec as [_ Ec].
    assert (Hx := Hset (TSys wo (ts_fds s) (ts_conns s) (ts_queue s) (<[w := after_read th g]> (ts_workers s)) false) j
      (TConn (tn_in d) (tn_fin d) (tn_out d ++ texts) (tn_sent d ++ sent)) eq_refl).
    assert (Hx2 := Hx ltac:(intros c' Hc' Hf'; cbn; congruence)). by destruct cl.
Qed.

Lemma fin_run {U} mixed hit (ro : router U) e s ls s' i c :
  t_run mixed hit ro e s ls = Some s' -> ts_conns s !! i = Some c -> tn_fin c = true -> tsent_by i ls = [].
Proof.
  revert s c. induction ls as [|l ls IH]; intros s c Hrun Hc Hf; [done|]. cbn [t_run] in Hrun.
  destruct (t_step mixed hit ro e s l) as [s1|] eqn:Hs; [|done]. cbn [mbind option_bind] in Hrun.
  destruct (fin_step _ _ _ _ _ _ _ _ _ Hs Hc Hf) as (Hns & c' & Hc' & Hf').
  specialize (IH s1 c' Hrun Hc' Hf'). change (l :: ls) with ([l] ++ ls). unfold tsent_by in *.
  rewrite map_app, concat_app, IH, app_nil_r. cbn. destruct l; try done. destruct (decide (i0 = i)) as [->|]; [by destruct (Hns bs)|done].
Qed.
Lemma fin_sent {U} mixed hit (ro : router U) e s0 pre i post s' :
  t_run mixed hit ro e s0 (pre ++ TFin i :: post) = Some s' -> tsent_by i (pre ++ TFin i :: post) = tsent_by i pre.
Proof.
  intros H. rewrite t_run_app in H. destruct (t_run mixed hit ro e s0 pre) as [s1|]; [|done]. cbn [mbind option_bind t_run] in H.
  destruct (t_step mixed hit ro e s1 (TFin i)) as [s2|] eqn:Hs; [|done]. cbn [mbind option_bind] in H.
  unfold t_step in Hs. destruct (ts_down s1); [done|]. destruct (ts_conns s1 !! i) as [c|]; [|done]. injection Hs as <-.
  pose proof (fin_run _ _ _ _ _ _ _ i _ H ltac:(cbn; by rewrite lookup_insert) eq_refl) as E.
  unfold tsent_by in *. rewrite map_app, concat_app. cbn. by rewrite E, app_nil_r.
Qed.

(** ** C147 *)

(** Mode kMultiThread.  Nothing fails or times out, the server has nothing left to do,
    and no connection waits for a worker. *)
Definition threads_answer_full : Prop := forall U hit (ro : router U) e n w ls s i c texts rs,
  valid_order hit -> t_run false hit ro e (t_new n w) ls = Some s -> at_rest false hit ro e s -> ts_queue s = [] ->
  ts_conns s !! i = Some c -> requests texts rs -> Forall (tame ro) rs -> tsent_by i ls = concat texts ->
  Forall smooth ls -> Forall2 (answers ro) rs (tn_out c).

(** When connection [i] was accepted, its number was not in use. *)
Definition own_number {U} mixed hit (ro : router U) e (s0 : tsys U) (i : nat) (ls : list tlab) : Prop :=
  forall pre f ok post s, ls = pre ++ TAccept i f ok :: post -> t_run mixed hit ro e s0 pre = Some s -> unused f s.

Lemma own_fine {U} hit (ro : router U) e n w ls s i texts :
  t_run false hit ro e (t_new n w) ls = Some s -> Forall smooth ls -> tsent_by i ls = concat texts ->
  own_number false hit ro e (t_new n w) i ls -> fine_run false hit ro e (t_new n w) i texts ls.
Proof.
  intros Hrun Hsm Hall Hown pre l post s1 E Hpre.
  assert (Hl : smooth l) by (eapply Forall_forall; [exact Hsm|]; rewrite E; apply elem_of_app; right; left).
  destruct l as [j f ok|j bs|j|f|f|w0|w0|w0 j|w0 wr]; cbn [fine smooth] in *; try done.
  - intros ->. split; [done|]. by eapply unused_users, Hown.
  - intros ->. split; [done|]. rewrite <- Hall, E. symmetry. rewrite E in Hrun. by eapply fin_sent.
  - exfalso. rewrite E, t_run_app, Hpre in Hrun. cbn [mbind option_bind t_run] in Hrun. unfold t_step in Hrun.
    destruct (ts_down s1); [done|]. by destruct (conn_of s1 f).
Qed.

(** What the other peers send does not matter, as long as the number is [i]'s own. *)
Theorem threads_answer_own_number : forall U hit (ro : router U) e n w ls s i c texts rs,
  valid_order hit -> t_run false hit ro e (t_new n w) ls = Some s -> at_rest false hit ro e s -> ts_queue s = [] ->
  ts_conns s !! i = Some c -> requests texts rs -> Forall (tame ro) rs -> tsent_by i ls = concat texts ->
  Forall smooth ls -> own_number false hit ro e (t_new n w) i ls ->
  Forall2 (answers ro) rs (tn_out c) /\ exists f, ts_fds s !! f = Some i.
Proof.
  intros U hit ro e n w ls s i c texts rs Hit Hrun Hrest Hq Hc Hreq Htame Hall Hsm Hown.
  destruct (holds_run false hit ro e n w ls s i texts rs c Hit Hreq Htame Hrun) as (f & k & eaten & H); [|by rewrite Hall|done|].
  { by eapply own_fine. }
  destruct (rest_read _ _ _ _ _ _ _ _ _ _ _ _ _ Hit Hreq Htame H Hall Hrest Hq) as [-> Hin].
  split; [by eapply all_done|]. exists f. by apply ho_fd in H.
Qed.
Print Assumptions threads_answer_own_number.

(** Missing: peers that send anything else; the server closes their numbers, while a
    worker still uses them. *)
Theorem threads_answer_partial : forall U hit (ro : router U) e n w ls s i c texts rs,
  valid_order hit -> t_run false hit ro e (t_new n w) ls = Some s -> at_rest false hit ro e s -> ts_queue s = [] ->
  ts_conns s !! i = Some c -> requests texts rs -> Forall (tame ro) rs -> tsent_by i ls = concat texts ->
  Forall smooth ls -> (forall j, exists texts rs, whole ro j ls texts rs) ->
  Forall2 (answers ro) rs (tn_out c) /\ exists f, ts_fds s !! f = Some i.
Proof.
  intros U hit ro e n w ls s i c texts rs Hit Hrun Hrest Hq Hc Hreq Htame Hall Hsm Hgood.
  eapply (threads_answer_own_number U hit ro e n w ls); try done.
  intros pre f ok post s1 E Hpre. apply users_unused.
  destruct (good_run hit ro e n w ls Hit Hsm Hgood pre _ s1 E Hpre) as [_ Hu]. apply Hu.
  rewrite E, t_run_app, Hpre in Hrun. cbn [mbind option_bind t_run] in Hrun. unfold t_step in Hrun.
  destruct (ts_down s1); [done|]. destruct (decide _) as [[_ ?]|]; done.
Qed.
Print Assumptions threads_answer_partial.

(** ** C148 *)

(** A request that was sent can be answered, whatever the other peers do. *)
Definition threads_available_full : Prop := forall U hit (ro : router U) e n w ls s i c texts rs,
  valid_order hit -> t_run false hit ro e (t_new n w) ls = Some s -> ts_down s = false -> 0 < n ->
  ts_conns s !! i = Some c -> requests texts rs -> Forall (tame ro) rs -> tsent_by i ls = concat texts ->
  Forall smooth ls -> own_number false hit ro e (t_new n w) i ls ->
  exists ls' s' c', Forall by_server ls' /\ t_run false hit ro e s ls' = Some s' /\
    ts_conns s' !! i = Some c' /\ Forall2 (answers ro) rs (tn_out c').

(** Missing: more connections than workers; a worker serves one connection until
    its peer closes it. *)
Theorem threads_available_partial : forall U hit (ro : router U) e n w ls s i c texts rs,
  valid_order hit -> t_run false hit ro e (t_new n w) ls = Some s -> ts_down s = false -> naccepted ls <= n ->
  ts_conns s !! i = Some c -> requests texts rs -> Forall (tame ro) rs -> tsent_by i ls = concat texts ->
  Forall smooth ls -> own_number false hit ro e (t_new n w) i ls ->
  exists ls' s' c', Forall by_server ls' /\ t_run false hit ro e s ls' = Some s' /\
    ts_conns s' !! i = Some c' /\ Forall2 (answers ro) rs (tn_out c').
Proof.
  intros U hit ro e n w ls s i c texts rs Hit Hrun Hd Hn Hc Hreq Htame Hall Hsm Hown.
  destruct (holds_run false hit ro e n w ls s i texts rs c Hit Hreq Htame Hrun) as (f & k & eaten & H); [|by rewrite Hall|done|].
  { by eapply own_fine. }
  destruct (load_run hit ro e n w ls s Hrun) as [L1 L2].
  destruct (finish_conn hit ro e i texts rs f Hit Hreq Htame (S (length (ts_queue s))) ls s c k eaten) as (ls' & s' & c' & H1 & H2 & _ & H3 & H4);
    try done; [lia|by eapply sane_run|lia|].
  by exists ls', s', c'.
Qed.
Print Assumptions threads_available_partial.

(** ** C149 *)

(** Mode kMixed. *)
Definition mixed_answers_full : Prop := forall U hit (ro : router U) e n w ls s i c texts rs,
  valid_order hit -> t_run true hit ro e (t_new n w) ls = Some s -> at_rest true hit ro e s -> ts_queue s = [] ->
  ts_conns s !! i = Some c -> requests texts rs -> Forall (tame ro) rs -> tsent_by i ls = concat texts ->
  Forall smooth ls -> TFin i ∉ ls -> Forall2 (answers ro) rs (tn_out c).

(** The events of [i] are not reported while a task for it waits or runs. *)
Definition reported_once {U} hit (ro : router U) e (s0 : tsys U) (i : nat) (ls : list tlab) : Prop :=
  forall pre f post s, ls = pre ++ TNotify f :: post -> t_run true hit ro e s0 pre = Some s ->
    ts_fds s !! f = Some i -> unused f s.

(** Missing: a second report while the first one is being handled, which a level
    trigger gives until everything is read. *)
Theorem mixed_answers_partial : forall U hit (ro : router U) e n w ls s i c texts rs,
  valid_order hit -> t_run true hit ro e (t_new n w) ls = Some s -> at_rest true hit ro e s -> ts_queue s = [] ->
  ts_conns s !! i = Some c -> requests texts rs -> Forall (tame ro) rs -> tsent_by i ls = concat texts ->
  Forall smooth ls -> TFin i ∉ ls -> own_number true hit ro e (t_new n w) i ls -> reported_once hit ro e (t_new n w) i ls ->
  Forall2 (answers ro) rs (tn_out c) /\ exists f, ts_fds s !! f = Some i.
Proof.
  intros U hit ro e n w ls s i c texts rs Hit Hrun Hrest Hq Hc Hreq Htame Hall Hsm Hnf Hown Honce.
  destruct (holds_run true hit ro e n w ls s i texts rs c Hit Hreq Htame Hrun) as (f & k & eaten & H); [|by rewrite Hall|done|].
  { intros pre l post s1 E Hpre.
    assert (Hin : l ∈ ls) by (rewrite E; apply elem_of_app; right; left).
    assert (Hl : smooth l) by (eapply Forall_forall; [exact Hsm|done]).
    destruct l as [j f ok|j bs|j|f|f|w0|w0|w0 j|w0 wr]; cbn [fine smooth] in *; try done.
    - intros ->. split; [done|]. by eapply unused_users, Hown.
    - by intros ->.
    - intros Hf. by eapply unused_users, Honce. }
  destruct (rest_read _ _ _ _ _ _ _ _ _ _ _ _ _ Hit Hreq Htame H Hall Hrest Hq) as [-> Hin].
  split; [by eapply all_done|]. exists f. by apply ho_fd in H.
Qed.
Print Assumptions mixed_answers_partial.

(** ** C150 *)

(** All peers send whole requests, nothing fails or times out: the process runs. *)
Definition threads_stay_up_full : Prop := forall U mixed hit (ro : router U) e n w ls s,
  valid_order hit -> t_run mixed hit ro e (t_new n w) ls = Some s ->
  Forall smooth ls -> (forall j, exists texts rs, whole ro j ls texts rs) -> ts_down s = false.

(** Missing: mode kMixed, where two workers may take one request apart. *)
Theorem threads_stay_up_partial : forall U hit (ro : router U) e n w ls s,
  valid_order hit -> t_run false hit ro e (t_new n w) ls = Some s ->
  Forall smooth ls -> (forall j, exists texts rs, whole ro j ls texts rs) -> ts_down s = false.
Proof.
  intros U hit ro e n w ls s Hit Hrun Hsm Hgood.
  destruct ls as [|l pre _] using rev_ind; [by injection Hrun as <-|].
  apply t_run_snoc in Hrun as (s1 & H1 & Hs).
  destruct (good_run hit ro e n w _ Hit Hsm Hgood pre [l] s1 eq_refl H1) as [Hh Hu].
  pose proof (sane_run _ _ _ _ _ _ _ _ H1) as Hsane.
  assert (Hl0 : smooth l) by (eapply Forall_forall; [exact Hsm|]; apply elem_of_app; right; left).
  assert (Hhold : forall w0 x f, ts_workers s1 !! w0 = Some x -> wst_fd x = Some f -> exists j texts rs c k eaten,
    requests texts rs /\ Forall (tame ro) rs /\ tsent_by j pre `prefix_of` concat texts /\
    holds false ro j texts rs pre s1 f c k eaten).
  { intros w0 x f Hx Hf. destruct (ts_fds s1 !! f) as [j|] eqn:Ef.
    - destruct (sa_conn _ _ Hsane f j Ef) as [c Hc]. destruct (Hgood j) as (texts & rs & Hw).
      destruct (Hh _ _ _ _ Hw Hc) as (g & k & eaten & Hg). pose proof (ho_fd _ _ _ _ _ _ _ _ _ _ _ Hg) as Hgf.
      assert (g = f) as -> by (by eapply (sa_inj _ _ Hsane)). destruct Hw as (? & ? & Hp & _).
      exists j, texts, rs, c, k, eaten. split; [done|]. split; [done|]. split; [|done].
      etrans; [|exact Hp]. rewrite tsent_by_snoc. by eexists.
    - specialize (Hu f Ef). apply users_unused in Hu as [_ Hu]. by apply Hu in Hx. }
  unfold t_step in Hs. destruct (ts_down s1) eqn:Hd; [done|].
  destruct l as [j g ok|j bs|j|g|g|w0|w0|w0 j|w0 wr]; cbn [smooth] in Hl0.
  - destruct (decide _); [|done]. by injection Hs as <-.
  - destruct (ts_conns s1 !! j) as [c|]; [|done]. cbn [mbind option_bind] in Hs. destruct (tn_fin c); [done|]. by injection Hs as <-.
  - destruct (ts_conns s1 !! j) as [c|]; [|done]. by injection Hs as <-.
  - by destruct (conn_of s1 g).
  - by destruct (conn_of s1 g).
  - destruct (ts_workers s1 !! w0) as [[]|]; try done. destruct (ts_queue s1) as [|k q]; [done|]. injection Hs as <-.
    by destruct k as [f []|f].
  - destruct (ts_workers s1 !! w0) as [x|] eqn:Ew; [|done]. cbn [mbind option_bind] in Hs.
    destruct (wst_fd x) as [f|] eqn:Ef; [|done]. cbn [mbind option_bind] in Hs. destruct (receiving x) eqn:Er; [|done].
    destruct (Hhold _ _ _ Ew Ef) as (j & texts & rs & c & k & eaten & Hreq & Htame & Hp & H).
    pose proof (ho_fd _ _ _ _ _ _ _ _ _ _ _ H) as Hfd. pose proof (ho_conn _ _ _ _ _ _ _ _ _ _ _ H) as Hc.
    rewrite (conn_of_eq _ _ _ _ Hfd Hc) in Hs. destruct x as [|g|th g st]; [done|..]; cbn in Ef; injection Ef as ->.
    + destruct (tn_in c) as [|ch rest]; [destruct (tn_fin c); [|done]|]; by injection Hs as <-.
    + destruct (tn_in c) as [|ch rest] eqn:Ein; [destruct (tn_fin c); [|done]; by injection Hs as <-|].
      cbn [receiving] in Er. apply negb_true_iff in Er.
      destruct (ho_read _ _ _ _ _ _ _ _ _ _ _ H w0 th st Ew) as [Hre Hne].
      destruct (next_text _ _ _ _ _ _ _ _ _ _ _ Hreq Htame H Hp Hne) as (text & r & Htk & Hrk & Hg & Hpre). rewrite Ein in Hpre.
      destruct (reached_next ro hit e (ts_world s1) st eaten text r ch rest _ Hit Hre Er Hg Hpre) as [st' Hst'].
      injection Hs as <-. cbn [takes recv_step]. by rewrite Hst'.
  - done.
  - destruct Hl0 as [m ->]. destruct (ts_workers s1 !! w0) as [[|g|th g st]|] eqn:Ew; try done. destruct (finishing st) eqn:Efs; [|done].
    destruct (Hhold _ _ _ Ew eq_refl) as (j & texts & rs & c & k & eaten & Hreq & Htame & Hp & H).
    pose proof (ho_fd _ _ _ _ _ _ _ _ _ _ _ H) as Hfd. pose proof (ho_conn _ _ _ _ _ _ _ _ _ _ _ H) as Hc.
    rewrite Hfd, (conn_of_eq _ _ _ _ Hfd Hc) in Hs.
    destruct (ho_read _ _ _ _ _ _ _ _ _ _ _ H w0 th st Ew) as [Hre Hne].
    destruct (next_text _ _ _ _ _ _ _ _ _ _ _ Hreq Htame H Hp Hne) as (text & r & Htk & Hrk & Hg & Hpre).
    destruct (reached_finished ro hit e (ts_world s1) st eaten text r (concat (drop (S k) texts)) m Hit Hre Efs Hg) as (-> & w' & out & Hfi & _).
    { etrans; [|exact Hpre]. by eexists. }
    rewrite Hfi in Hs. by injection Hs as <-.
Qed.
Print Assumptions threads_stay_up_partial.

(** ** C151 *)

(** The server has nothing left to do: the number of a connection whose peer has
    closed it is given back. *)
Definition numbers_given_back_full : Prop := forall U mixed hit (ro : router U) e n w ls s i c f,
  t_run mixed hit ro e (t_new n w) ls = Some s -> at_rest mixed hit ro e s -> ts_queue s = [] ->
  ts_conns s !! i = Some c -> tn_fin c = true -> ts_fds s !! f <> Some i.

(** Missing: mode kMultiThread. *)
Theorem numbers_given_back_partial : forall U hit (ro : router U) e n w ls s i c f,
  t_run true hit ro e (t_new n w) ls = Some s -> at_rest true hit ro e s ->
  ts_conns s !! i = Some c -> tn_fin c = true -> ts_fds s !! f <> Some i.
Proof.
  intros U hit ro e n w ls s i c f _ [Hd Hrest] Hc Hf Hfd. specialize (Hrest (TLeave f) I). unfold t_step in Hrest.
  rewrite Hd, (conn_of_eq _ _ _ _ Hfd Hc) in Hrest. cbn [mbind option_bind snd andb] in Hrest. by rewrite Hf in Hrest.
Qed.
Print Assumptions numbers_given_back_partial.

(** Mode kMultiThread: a connection that no worker serves, its peer having closed it
    or a time-out having come between two requests, keeps its number for ever, and
    nothing is read from it or written to it. *)
Theorem threads_never_come_back : forall U hit (ro : router U) e n w ls s i c f ls' s',
  t_run false hit ro e (t_new n w) ls = Some s -> ts_fds s !! f = Some i -> ts_conns s !! i = Some c -> unused f s ->
  t_run false hit ro e s ls' = Some s' ->
  ts_fds s' !! f = Some i /\ unused f s' /\
  exists c', ts_conns s' !! i = Some c' /\ tn_out c' = tn_out c /\ tn_in c `prefix_of` tn_in c'.
Proof.
  intros U hit ro e n w ls s i c f ls' s' Hrun Hf Hc Hu Hrun'.
  apply unused_users in Hu. apply sane_run in Hrun as Hsane. clear Hrun.
  enough (H : ts_fds s' !! f = Some i /\ users f s' = 0 /\
    exists c', ts_conns s' !! i = Some c' /\ tn_out c' = tn_out c /\ tn_in c `prefix_of` tn_in c').
  { destruct H as (H1 & H2 & H3). split; [done|]. split; [by apply users_unused|done]. }
  revert s c Hsane Hf Hc Hu Hrun'. induction ls' as [|l ls' IH]; intros s c Hsane Hf Hc Hu Hrun'.
  { injection Hrun' as <-. split; [done|]. split; [done|]. by exists c. }
  cbn [t_run] in Hrun'. destruct (t_step false hit ro e s l) as [s1|] eqn:Hs; [|done]. cbn [mbind option_bind] in Hrun'.
  destruct (abandoned_step hit ro e s l s1 f i c Hsane Hs Hf Hc Hu) as (Hf1 & Hu1 & c1 & Hc1 & Ho1 & Hi1).
  destruct (IH s1 c1 ltac:(by eapply sane_step) Hf1 Hc1 Hu1 Hrun') as (H1 & H2 & c' & H3 & H4 & H5).
  split; [done|]. split; [done|]. exists c'. split; [done|]. split; [congruence|]. by etrans.
Qed.
Print Assumptions threads_never_come_back.

(** ** Examples and refutations *)

Lemma t_run_to {U} mixed hit (ro : router U) e s ls w' fl l q ws d :
  match t_run mixed hit ro e s ls with
  | Some s' => Some (ts_world s', map_to_list (ts_fds s'), map_to_list (ts_conns s'), ts_queue s', ts_workers s', ts_down s')
  | None => None
  end = Some (w', fl, l, q, ws, d) ->
  t_run mixed hit ro e s ls = Some (TSys w' (list_to_map fl) (list_to_map l) q ws d).
Proof.
  destruct (t_run mixed hit ro e s ls) as [[w1 f1 m1 q1 ws1 d1]|]; [|done]. cbn.
  intros [= -> <- <- -> -> ->]. by rewrite !list_to_map_to_list.
Qed.
Ltac trun := apply t_run_to; by vm_compute.

(** The workers are free, or wait for a request; nothing waits for them. *)
Definition resting {U} (s : tsys U) (x : wst) : Prop :=
  x = WFree \/ exists f i c, x = WPeek f /\ ts_fds s !! f = Some i /\ ts_conns s !! i = Some c /\ tn_in c = [] /\ tn_fin c = false.
Lemma rest_threads {U} hit (ro : router U) e s :
  ts_down s = false -> ts_queue s = [] \/ Forall (fun x => x <> WFree) (ts_workers s) -> Forall (resting s) (ts_workers s) ->
  at_rest false hit ro e s.
Proof.
  intros Hd Hq Hw. split; [done|]. intros l Hl. unfold t_step. rewrite Hd. destruct l as [j f ok|j bs|j|f|f|w|w|w j|w wr]; try done.
  - by destruct (conn_of s f).
  - by destruct (conn_of s f).
  - destruct (ts_workers s !! w) as [[]|] eqn:E; try done. destruct Hq as [->|Hn]; [done|].
    eapply Forall_lookup_1 in Hn; [|exact E]. done.
  - destruct (ts_workers s !! w) as [x|] eqn:E; [|done]. eapply Forall_lookup_1 in Hw; [|exact E].
    destruct Hw as [->|(f & i & c & -> & H1 & H2 & H3 & H4)]; [done|]. cbn [mbind option_bind wst_fd receiving].
    by rewrite (conn_of_eq _ _ _ _ H1 H2), H3, H4.
  - destruct (ts_workers s !! w) as [x|] eqn:E; [|done]. eapply Forall_lookup_1 in Hw; [|exact E].
    by destruct Hw as [->|(f & i & c & -> & _)].
Qed.
Lemma rest_mixed {U} hit (ro : router U) e s :
  ts_down s = false -> ts_queue s = [] -> Forall (fun x => x = WFree) (ts_workers s) ->
  (forall f i c, ts_fds s !! f = Some i -> ts_conns s !! i = Some c -> tn_in c = [] /\ tn_fin c = false) ->
  at_rest true hit ro e s.
Proof.
  intros Hd Hq Hw Hc. split; [done|]. intros l Hl. unfold t_step. rewrite Hd. destruct l as [j f ok|j bs|j|f|f|w|w|w j|w wr]; try done.
  - destruct (conn_of s f) as [[i c]|] eqn:E; [|done]. apply conn_of_Some in E as [E1 E2]. destruct (Hc _ _ _ E1 E2) as [H1 H2].
    cbn [mbind option_bind snd]. by rewrite H1, H2.
  - destruct (conn_of s f) as [[i c]|] eqn:E; [|done]. apply conn_of_Some in E as [E1 E2]. destruct (Hc _ _ _ E1 E2) as [H1 H2].
    cbn [mbind option_bind snd]. by rewrite H2.
  - rewrite Hq. by destruct (ts_workers s !! w) as [[]|].
  - destruct (ts_workers s !! w) as [x|] eqn:E; [|done]. eapply Forall_lookup_1 in Hw; [|exact E]. by subst x.
  - destruct (ts_workers s !! w) as [x|] eqn:E; [|done]. eapply Forall_lookup_1 in Hw; [|exact E]. by subst x.
Qed.

Lemma hi_only : requests [hi] [ex_req (B "hi")] /\ Forall (tame echo_ro) [ex_req (B "hi")].
Proof.
  split; [split; [|split]|]; repeat constructor; [apply hi_req|by_compute|]. apply echo_tame; [by_compute|by vm_compute].
Qed.
Lemma yo_only : requests [yo] [ex_req (B "yo")] /\ Forall (tame echo_ro) [ex_req (B "yo")].
Proof.
  split; [split; [|split]|]; repeat constructor; [apply yo_req|by_compute|]. apply echo_tame; [by_compute|by vm_compute].
Qed.

Local Notation wn := HttpSystemProps.wn.
Definition smooth_ok (l : tlab) : bool :=
  match l with TAccept _ _ ok => ok | TTimeout _ _ => false | TRun _ (WTake _) => true | TRun _ _ => false | _ => true end.
Lemma smooth_by ls : forallb smooth_ok ls = true -> Forall smooth ls.
Proof.
  intros H. apply Forall_forall. intros l Hl. rewrite forallb_forall in H. apply elem_of_list_In, H in Hl.
  destruct l as [| | | | | | | |w []]; try done. by eexists.
Qed.

(** The worker [w] reads [n] bytes. *)
Definition eat (w n : nat) : list tlab := replicate n (TRecv w).
(** Serving one request that has arrived. *)
Definition serve (w : nat) : list tlab := TRecv w :: eat w 52 ++ [TRun w (WTake 99)].

(** Two connections, two workers, which take turns; the first peer sends two requests
    and closes its side. *)
Definition pair_run : list tlab :=
  [TAccept 0 5 true; TAccept 1 6 true; TPop 1; TSend 0 (hi ++ take 20 yo); TPop 0; TSend 1 yo]
  ++ TRecv 1 :: TRecv 0 :: concat (replicate 52 [TRecv 0; TRecv 1])
  ++ [TRun 0 (WTake 9); TSend 0 (drop 20 yo); TFin 0; TRun 1 (WTake 99)] ++ serve 1 ++ [TRecv 1].
Definition pair_end : tsys nat :=
  TSys (World true (fun _ => Absent true) [] ∅ 3) (list_to_map [(5, 0); (6, 1)])
    (list_to_map [(0, TConn [] true [ok_text (B "hi"); ok_text (B "yo")] (ok_text (B "hi") ++ ok_text (B "yo")));
                  (1, TConn [] false [ok_text (B "yo")] (take 9 (ok_text (B "yo"))))])
    [] [WPeek 6; WFree] false.
Lemma pair_run_ok : t_run false map_to_list echo_ro [] (t_new 2 wn) pair_run = Some pair_end.
Proof. trun. Qed.
Lemma pair_smooth : Forall smooth pair_run.
Proof. apply smooth_by. by vm_compute. Qed.
Lemma pair_rest : at_rest false map_to_list echo_ro [] pair_end.
Proof.
  apply rest_threads; [done|by left|]. constructor; [|constructor; [by left|constructor]].
  right. do 3 eexists. split; [done|]. split; [by vm_compute|]. split; [by vm_compute|]. done.
Qed.
Lemma whole_by {U} mixed hit (ro : router U) e s0 ls s j texts rs :
  t_run mixed hit ro e s0 ls = Some s -> requests texts rs -> Forall (tame ro) rs -> tsent_by j ls = concat texts ->
  whole ro j ls texts rs.
Proof.
  intros Hrun Hreq Htame Hall. split; [done|]. split; [done|]. split; [by rewrite Hall|].
  intros pre post E. rewrite <- Hall, E. symmetry. rewrite E in Hrun. by eapply fin_sent.
Qed.
Lemma pair_whole j : exists texts rs, whole echo_ro j pair_run texts rs.
Proof.
  destruct j as [|[|j]].
  - exists [hi; yo], [ex_req (B "hi"); ex_req (B "yo")].
    eapply whole_by; [apply pair_run_ok|apply hi_yo|apply hi_yo|by vm_compute].
  - exists [yo], [ex_req (B "yo")]. eapply whole_by; [apply pair_run_ok|apply yo_only|apply yo_only|by vm_compute].
  - exists [], []. eapply whole_by; [apply pair_run_ok|by repeat constructor|constructor|by vm_compute].
Qed.

Example threads_answer_ex :
  Forall2 (answers echo_ro) [ex_req (B "hi"); ex_req (B "yo")] [ok_text (B "hi"); ok_text (B "yo")] /\
  exists f, ts_fds pair_end !! f = Some 0.
Proof.
  exact (threads_answer_partial nat map_to_list echo_ro [] 2 wn pair_run pair_end 0 _ [hi; yo] _ valid_order_sorted
    pair_run_ok pair_rest eq_refl ltac:(by vm_compute) (proj1 hi_yo) (proj2 hi_yo) ltac:(by vm_compute) pair_smooth pair_whole).
Qed.
Example threads_stay_up_ex : ts_down pair_end = false.
Proof. exact (threads_stay_up_partial nat map_to_list echo_ro [] 2 wn pair_run pair_end valid_order_sorted pair_run_ok pair_smooth pair_whole). Qed.

(** A peer that sends rubbish and is answered 400; its number goes to the next
    connection, while the first worker has not looked at it again.  Both workers then
    read the requests of the new peer. *)
Definition stale_run : list tlab :=
  [TAccept 0 5 true; TPop 0; TSend 0 (B "xxxx" ++ CRLFCRLF)] ++ TRecv 0 :: eat 0 8 ++ [TRun 0 (WTake 99);
   TAccept 1 5 true; TPop 1; TSend 1 (hi ++ yo); TRecv 0; TRecv 1; TRecv 0] ++ eat 1 49 ++
  [TRun 1 (WTake 99); TRecv 1; TRecv 0; TRun 0 (WTake 0); TRecv 0].
Lemma t_run_view {U A} mixed hit (ro : router U) e s ls (g : tsys U -> A) v :
  match t_run mixed hit ro e s ls with Some s' => Some (g s') | None => None end = Some v ->
  exists s', t_run mixed hit ro e s ls = Some s' /\ g s' = v.
Proof. destruct (t_run mixed hit ro e s ls) as [s'|]; [|done]. intros [= <-]. by exists s'. Qed.
Lemma stale_end : exists s c, t_run false map_to_list echo_ro [] (t_new 2 wn) stale_run = Some s /\
  ts_conns s !! 1 = Some c /\ length (tn_out c) = 1 /\ ts_queue s = [] /\ ts_workers s = [WFree; WFree] /\ ts_down s = false.
Proof.
  destruct (t_run_view false map_to_list echo_ro [] (t_new 2 wn) stale_run
    (fun s => ((fun c => length (tn_out c)) <$> ts_conns s !! 1, ts_queue s, ts_workers s, ts_down s))
    (Some 1, [], [WFree; WFree], false)) as (s & Hrun & [= Hc Hq Hw Hd]); [by vm_compute|].
  destruct (ts_conns s !! 1) as [c|] eqn:Ec; [|done]. injection Hc as Hc. exists s, c.
  exact (conj Hrun (conj Ec (conj Hc (conj Hq (conj Hw Hd))))).
Qed.
Theorem threads_answer_refuted : ~ threads_answer_full.
Proof.
  intros H. destruct stale_end as (s & c & Hrun & Hc & Ho & Hq & Hw & Hd).
  assert (E : Forall2 (answers echo_ro) [ex_req (B "hi"); ex_req (B "yo")] (tn_out c)).
  { apply (H nat map_to_list echo_ro [] 2 wn stale_run s 1 c [hi; yo]); [apply valid_order_sorted|exact Hrun| |exact Hq|exact Hc|..].
    - apply rest_threads; [done|by left|]. rewrite Hw. repeat constructor; by left.
    - apply hi_yo.
    - apply hi_yo.
    - by vm_compute.
    - apply smooth_by. by vm_compute. }
  apply Forall2_length in E. by rewrite Ho in E.
Qed.

(** The same connections are answered if the number of the new one is fresh. *)
Definition fresh_run : list tlab :=
  [TAccept 0 5 true; TPop 0; TSend 0 (B "xxxx" ++ CRLFCRLF)] ++ TRecv 0 :: eat 0 8 ++ [TRun 0 (WTake 99);
   TAccept 1 6 true; TPop 1; TSend 1 (hi ++ yo); TRecv 0] ++ serve 1 ++ serve 1.

(** Checking that numbers are not in use. *)
Definition unused_ok {U} (f : nat) (s : tsys U) : bool :=
  forallb (fun k => negb (task_fd k =? f)) (ts_queue s) &&
  forallb (fun x => match wst_fd x with Some g => negb (g =? f) | None => true end) (ts_workers s).
Lemma unused_by {U} f (s : tsys U) : unused_ok f s = true -> unused f s.
Proof.
  intros H. apply andb_true_iff in H as [Hq Hw]. rewrite forallb_forall in Hq. rewrite forallb_forall in Hw. split.
  - intros k Hk. apply elem_of_list_In, Hq, negb_true_iff in Hk. by apply Nat.eqb_neq in Hk.
  - intros w x Hx Hf. apply elem_of_list_lookup_2, elem_of_list_In, Hw in Hx. rewrite Hf in Hx.
    apply negb_true_iff, Nat.eqb_neq in Hx. done.
Qed.
Fixpoint checks {U} (p : tsys U -> tlab -> bool) mixed hit (ro : router U) e (s : tsys U) (ls : list tlab) : bool :=
  match ls with
  | [] => true
  | l :: ls' => p s l && match t_step mixed hit ro e s l with Some s' => checks p mixed hit ro e s' ls' | None => true end
  end.
Lemma checks_at {U} p mixed hit (ro : router U) e s0 pre l post s :
  checks p mixed hit ro e s0 (pre ++ l :: post) = true -> t_run mixed hit ro e s0 pre = Some s -> p s l = true.
Proof.
  revert s0. induction pre as [|l0 pre IH]; intros s0 H Hrun; cbn in H.
  - injection Hrun as ->. by apply andb_true_iff in H as [? _].
  - apply andb_true_iff in H as [_ H]. cbn in Hrun. destruct (t_step mixed hit ro e s0 l0) as [s1|]; [|done]. by eapply IH.
Qed.
Lemma own_by {U} mixed hit (ro : router U) e s0 i ls :
  checks (fun s l => match l with TAccept j f _ => negb (j =? i) || unused_ok f s | _ => true end) mixed hit ro e s0 ls = true ->
  own_number mixed hit ro e s0 i ls.
Proof.
  intros H pre f ok post s -> Hrun. apply unused_by. pose proof (checks_at _ _ _ _ _ _ _ _ _ _ H Hrun) as E. cbn in E.
  by rewrite Nat.eqb_refl in E.
Qed.
Lemma once_by {U} hit (ro : router U) e s0 i ls :
  checks (fun s l => match l with TNotify f => negb (bool_decide (ts_fds s !! f = Some i)) || unused_ok f s | _ => true end) true hit ro e s0 ls = true ->
  reported_once hit ro e s0 i ls.
Proof.
  intros H pre f post s -> Hrun Hf. apply unused_by. pose proof (checks_at _ _ _ _ _ _ _ _ _ _ H Hrun) as E. cbn in E.
  by rewrite bool_decide_eq_true_2 in E.
Qed.

Lemma fresh_end : exists s c, t_run false map_to_list echo_ro [] (t_new 2 wn) fresh_run = Some s /\
  ts_fds s !! 6 = Some 1 /\ ts_conns s !! 1 = Some c /\ tn_in c = [] /\ tn_fin c = false /\ tn_out c = [ok_text (B "hi"); ok_text (B "yo")] /\
  ts_queue s = [] /\ ts_workers s = [WFree; WPeek 6] /\ ts_down s = false.
Proof.
  destruct (t_run_view false map_to_list echo_ro [] (t_new 2 wn) fresh_run
    (fun s => (ts_fds s !! 6, (fun c => (tn_in c, tn_fin c, tn_out c)) <$> ts_conns s !! 1, ts_queue s, ts_workers s, ts_down s))
    (Some 1, Some ([], false, [ok_text (B "hi"); ok_text (B "yo")]), [], [WFree; WPeek 6], false)) as (s & Hrun & [= Hf Hc Hq Hw Hd]); [by vm_compute|].
  destruct (ts_conns s !! 1) as [c|] eqn:Ec; [|discriminate Hc]. injection Hc as Hc1 Hc2 Hc3. exists s, c.
  exact (conj Hrun (conj Hf (conj Ec (conj Hc1 (conj Hc2 (conj Hc3 (conj Hq (conj Hw Hd)))))))).
Qed.
Example threads_answer_own_number_ex :
  Forall2 (answers echo_ro) [ex_req (B "hi"); ex_req (B "yo")] [ok_text (B "hi"); ok_text (B "yo")].
Proof.
  destruct fresh_end as (s & c & Hrun & Hf & Hc & Hi & Hfi & Ho & Hq & Hw & Hd). rewrite <- Ho.
  refine (proj1 (threads_answer_own_number nat map_to_list echo_ro [] 2 wn fresh_run s 1 c [hi; yo] _ valid_order_sorted
    Hrun _ Hq Hc (proj1 hi_yo) (proj2 hi_yo) _ _ _)).
  - apply rest_threads; [exact Hd|by left|]. rewrite Hw. constructor; [by left|]. constructor; [right|constructor].
    exists 6, 1, c. exact (conj eq_refl (conj Hf (conj Hc (conj Hi Hfi)))).
  - by vm_compute.
  - apply smooth_by. by vm_compute.
  - apply own_by. by vm_compute.
Qed.

(** Two workers; one peer is silent, the request of the other one has arrived. *)
Definition two_run : list tlab := [TAccept 0 5 true; TAccept 1 6 true; TPop 0; TSend 1 hi].
Example threads_available_ex : exists s ls' s' c', t_run false map_to_list echo_ro [] (t_new 2 wn) two_run = Some s /\
  Forall by_server ls' /\ t_run false map_to_list echo_ro [] s ls' = Some s' /\
  ts_conns s' !! 1 = Some c' /\ Forall2 (answers echo_ro) [ex_req (B "hi")] (tn_out c').
Proof.
  destruct (t_run_view false map_to_list echo_ro [] (t_new 2 wn) two_run
    (fun s => (ts_conns s !! 1, ts_down s)) (Some (TConn hi false [] []), false)) as (s & Hrun & [= Hc Hd]); [by vm_compute|].
  exists s.
  destruct (threads_available_partial nat map_to_list echo_ro [] 2 wn two_run s 1 (TConn hi false [] []) [hi] [ex_req (B "hi")] valid_order_sorted Hrun Hd)
    as (ls' & s' & c' & H1 & H2 & H3 & H4).
  - by vm_compute; lia.
  - exact Hc.
  - apply hi_only.
  - apply hi_only.
  - by vm_compute.
  - apply smooth_by. by vm_compute.
  - apply own_by. by vm_compute.
  - exists ls', s', c'. exact (conj Hrun (conj H1 (conj H2 (conj H3 H4)))).
Qed.

(** Ten silent peers, and one with a request; ten workers. *)
Definition crowd_run : list tlab :=
  map (fun i => TAccept i i true) (seq 0 11) ++ map TPop (seq 0 10) ++ [TSend 10 hi].
Lemma crowd_end : exists s, t_run false map_to_list echo_ro [] (t_new 10 wn) crowd_run = Some s /\
  ts_conns s !! 10 = Some (TConn hi false [] []) /\ ts_down s = false /\ ts_workers s = map WPeek (seq 0 10) /\
  map (fun i => (ts_fds s !! i, ts_conns s !! i)) (seq 0 10) = map (fun i => (Some i, Some tconn_new)) (seq 0 10).
Proof.
  destruct (t_run_view false map_to_list echo_ro [] (t_new 10 wn) crowd_run
    (fun s => (ts_conns s !! 10, ts_down s, ts_workers s, map (fun i => (ts_fds s !! i, ts_conns s !! i)) (seq 0 10)))
    (Some (TConn hi false [] []), false, map WPeek (seq 0 10), map (fun i => (Some i, Some tconn_new)) (seq 0 10)))
    as (s & Hrun & E); [by vm_compute|].
  apply pair_equal_spec in E as [E Hm]. apply pair_equal_spec in E as [E Hw]. apply pair_equal_spec in E as [Hc Hd].
  exists s. exact (conj Hrun (conj Hc (conj Hd (conj Hw Hm)))).
Qed.
Theorem threads_available_refuted : ~ threads_available_full.
Proof.
  intros H. destruct crowd_end as (s & Hrun & Hc & Hd & Hw & Hm).
  destruct (H nat map_to_list echo_ro [] 10 wn crowd_run s 10 (TConn hi false [] []) [hi] [ex_req (B "hi")] valid_order_sorted Hrun Hd)
    as (ls' & s' & c' & H1 & H2 & H3 & H4).
  - lia.
  - exact Hc.
  - apply hi_only.
  - apply hi_only.
  - by vm_compute.
  - apply smooth_by. by vm_compute.
  - apply own_by. by vm_compute.
  - assert (Hrest : at_rest false map_to_list echo_ro [] s).
    { apply rest_threads; [exact Hd|right|]; rewrite Hw.
      - apply Forall_forall. intros x Hx. apply elem_of_list_fmap in Hx as (i & -> & _). done.
      - apply Forall_forall. intros x Hx. apply elem_of_list_fmap in Hx as (i & -> & Hi). right. exists i, i, tconn_new.
        apply elem_of_list_lookup in Hi as [k Hk].
        assert (Hm2 := f_equal (fun l => l !! k) Hm). cbn beta in Hm2. rewrite !list_lookup_fmap, Hk in Hm2. cbn in Hm2.
        injection Hm2 as Hf Hci. exact (conj eq_refl (conj Hf (conj Hci (conj eq_refl eq_refl)))). }
    destruct H1 as [|l ls' Hl _].
    + injection H2 as <-. rewrite Hc in H3. injection H3 as <-. apply Forall2_length in H4. done.
    + cbn [t_run] in H2. destruct Hrest as [_ Hrest]. by rewrite (Hrest l Hl) in H2.
Qed.

Lemma no_fin_by i ls : forallb (fun l => match l with TFin j => negb (j =? i) | _ => true end) ls = true -> TFin i ∉ ls.
Proof. intros H Hin. rewrite forallb_forall in H. apply elem_of_list_In, H in Hin. by rewrite Nat.eqb_refl in Hin. Qed.

(** Mode kMixed: one report for each request. *)
Definition mixed_run : list tlab :=
  [TAccept 0 5 true; TSend 0 hi; TNotify 5; TPop 1] ++ eat 1 52 ++ [TRun 1 (WTake 99); TSend 0 (take 4 yo); TNotify 5; TPop 0]
  ++ eat 0 4 ++ [TSend 0 (drop 4 yo)] ++ eat 0 48 ++ [TRun 0 (WTake 99)].
Example mixed_answers_ex :
  Forall2 (answers echo_ro) [ex_req (B "hi"); ex_req (B "yo")] [ok_text (B "hi"); ok_text (B "yo")].
Proof.
  set (c := TConn [] false [ok_text (B "hi"); ok_text (B "yo")] (ok_text (B "hi") ++ ok_text (B "yo"))).
  set (s := TSys (World true (fun _ => Absent true) [] ∅ 2) (list_to_map [(5, 0)]) (list_to_map [(0, c)]) [] [WFree; WFree] false).
  assert (Hrun : t_run true map_to_list echo_ro [] (t_new 2 wn) mixed_run = Some s) by trun.
  refine (proj1 (mixed_answers_partial nat map_to_list echo_ro [] 2 wn mixed_run s 0 c [hi; yo] _ valid_order_sorted
    Hrun _ eq_refl _ (proj1 hi_yo) (proj2 hi_yo) _ _ _ _ _)).
  - apply rest_mixed; [done|done|repeat constructor|]. intros f i c' Hf Hc. unfold s in Hf, Hc. cbn [ts_fds ts_conns] in Hf, Hc.
    apply elem_of_list_to_map_2, elem_of_list_singleton, pair_equal_spec in Hc as [_ ->]. exact (conj eq_refl eq_refl).
  - by vm_compute.
  - by vm_compute.
  - apply smooth_by. by vm_compute.
  - apply no_fin_by. by vm_compute.
  - apply own_by. by vm_compute.
  - apply once_by. by vm_compute.
Qed.

(** Two reports of one arrival: the second worker takes the first byte. *)
Definition split_run : list tlab :=
  [TAccept 0 5 true; TSend 0 (hi ++ yo); TNotify 5; TNotify 5; TPop 0; TPop 1; TRecv 1] ++ eat 0 49 ++
  [TRun 0 (WTake 99); TRecv 1; TRun 1 (WTake 0)].
Theorem mixed_answers_refuted : ~ mixed_answers_full.
Proof.
  intros H.
  destruct (t_run_view true map_to_list echo_ro [] (t_new 2 wn) split_run
    (fun s => ((fun c => length (tn_out c)) <$> ts_conns s !! 0, map_to_list (ts_fds s), ts_queue s, ts_workers s, ts_down s))
    (Some 1, [], [], [WFree; WFree], false)) as (s & Hrun & [= Hc Hf Hq Hw Hd]); [by vm_compute|].
  destruct (ts_conns s !! 0) as [c|] eqn:Ec; [|discriminate Hc]. injection Hc as Hc.
  assert (E : Forall2 (answers echo_ro) [ex_req (B "hi"); ex_req (B "yo")] (tn_out c)).
  { apply (H nat map_to_list echo_ro [] 2 wn split_run s 0 c [hi; yo]); [apply valid_order_sorted|exact Hrun| |exact Hq|exact Ec|..].
    - apply rest_mixed; [exact Hd|exact Hq|rewrite Hw; by repeat constructor|]. intros f i c' Hf' _.
      apply map_to_list_empty_iff in Hf. by rewrite Hf, lookup_empty in Hf'.
    - apply hi_yo.
    - apply hi_yo.
    - by vm_compute.
    - apply smooth_by. by vm_compute.
    - apply no_fin_by. by vm_compute. }
  apply Forall2_length in E. by rewrite Hc in E.
Qed.

(** Two reports of one arrival: the second worker takes the line feed only. *)
Definition crash_run : list tlab :=
  [TAccept 0 5 true; TSend 0 hi; TNotify 5; TNotify 5; TPop 0; TPop 1] ++ eat 0 17 ++ [TRecv 1].
Theorem threads_stay_up_refuted : ~ threads_stay_up_full.
Proof.
  intros H.
  destruct (t_run_view true map_to_list echo_ro [] (t_new 2 wn) crash_run ts_down true) as (s & Hrun & Hd); [by vm_compute|].
  rewrite (H nat true map_to_list echo_ro [] 2 wn crash_run s valid_order_sorted Hrun) in Hd; [done|apply smooth_by; by vm_compute|].
  intros [|j].
  - exists [hi], [ex_req (B "hi")]. eapply whole_by; [exact Hrun|apply hi_only|apply hi_only|by vm_compute].
  - exists [], []. eapply whole_by; [exact Hrun|by repeat constructor|constructor|by vm_compute].
Qed.

(** A peer that connects and goes away. *)
Definition gone_run : list tlab := [TAccept 0 5 true; TFin 0; TPop 0; TRecv 0].
Definition gone_end : tsys nat :=
  TSys wn (list_to_map [(5, 0)]) (list_to_map [(0, TConn [] true [] [])]) [] [WFree] false.
Lemma gone_run_ok : t_run false map_to_list echo_ro [] (t_new 1 wn) gone_run = Some gone_end.
Proof. trun. Qed.
Theorem numbers_given_back_refuted : ~ numbers_given_back_full.
Proof.
  intros H. apply (H nat false map_to_list echo_ro [] 1 wn gone_run gone_end 0 (TConn [] true [] []) 5); try done.
  - exact gone_run_ok.
  - apply rest_threads; [done|by left|]. by repeat constructor.
Qed.
Example numbers_given_back_ex : ts_fds (TSys wn ∅ (list_to_map [(0, TConn [] true [] [])]) [] [WFree] false) !! 5 <> Some 0.
Proof.
  apply (numbers_given_back_partial nat map_to_list echo_ro [] 1 wn [TAccept 0 5 true; TFin 0; TLeave 5] _ 0 (TConn [] true [] [])); try done.
  - exact (t_run_to true map_to_list echo_ro [] (t_new 1 wn) [TAccept 0 5 true; TFin 0; TLeave 5] wn [] [(0, TConn [] true [] [])] [] [WFree] false
      ltac:(by vm_compute)).
  - apply rest_mixed; [done|done|repeat constructor|]. intros f i c Hf. cbn in Hf. by rewrite lookup_empty in Hf.
Qed.
(** ... and what the next connections do does not change it. *)
Example never_come_back_ex : exists s', t_run false map_to_list echo_ro [] gone_end
    ([TAccept 1 6 true; TPop 0; TSend 1 hi] ++ serve 0) = Some s' /\ ts_fds s' !! 5 = Some 0.
Proof.
  destruct (t_run_view false map_to_list echo_ro [] gone_end ([TAccept 1 6 true; TPop 0; TSend 1 hi] ++ serve 0) ts_down false)
    as (s' & Hrun & _); [by vm_compute|]. exists s'. split; [exact Hrun|].
  apply (threads_never_come_back nat map_to_list echo_ro [] 1 wn gone_run gone_end 0 (TConn [] true [] []) 5
    ([TAccept 1 6 true; TPop 0; TSend 1 hi] ++ serve 0) s' gone_run_ok);
    [done|done|apply unused_by; by vm_compute|exact Hrun].
Qed.
(** A time-out between two requests leaves the connection open, and unserved. *)
Example left_by_timeout : exists s c, t_run false map_to_list echo_ro [] (t_new 1 wn)
    ([TAccept 0 5 true; TSend 0 hi; TPop 0] ++ serve 0 ++ [TTimeout 0 0; TSend 0 yo]) = Some s /\
  ts_fds s !! 5 = Some 0 /\ ts_conns s !! 0 = Some c /\ tn_in c = yo /\ unused 5 s.
Proof.
  destruct (t_run_view false map_to_list echo_ro [] (t_new 1 wn) ([TAccept 0 5 true; TSend 0 hi; TPop 0] ++ serve 0 ++ [TTimeout 0 0; TSend 0 yo])
    (fun s => (ts_fds s !! 5, tn_in <$> ts_conns s !! 0, unused_ok 5 s)) (Some 0, Some yo, true)) as (s & Hrun & [= Hf Hc Hu]); [by vm_compute|].
  destruct (ts_conns s !! 0) as [c|] eqn:Ec; [|discriminate Hc]. injection Hc as Hc. exists s, c.
  exact (conj Hrun (conj Hf (conj Ec (conj Hc (unused_by _ _ Hu))))).
Qed.
