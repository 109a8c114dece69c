(** C158-C161: an HTTPS server with all its connections
    (src/cppnet/http/server/http_server.cpp with InitSSL, on
    src/cppnet/server/tcp_server.cpp in mode kIOMultiplexing). *)
From Verif.Lib Require Import CxxStringFacts.
From Verif.Spec Require Import SocketSpec SslSpec.
From Verif.Model Require Import HttpsSystem.
From Verif.Proof Require Import RouteProof ReqProof SocketProof RouterProof ServerProof SslProof HttpSystemProof HttpsSystemProof.
From Verif.Props Require Import SocketProps RouterProps ServerProps SslProps HttpsProps HttpSystemProps.

(** ** C158 *)

Definition same_served_tls {U} (o1 o2 : outcome (served U * tls)) : Prop :=
  same_served (ofmap fst o1) (ofmap fst o2) /\ ofmap snd o1 = ofmap snd o2.

Lemma handle_read_tls_stateless {U} hit wr (ro : router U) e w1 w2 s : stateless ro ->
  w_running w1 = true -> w_running w2 = true ->
  same_served_tls (handle_read_tls hit wr ro e w1 s) (handle_read_tls hit wr ro e w2 s).
Proof.
  intros H H1 H2. unfold handle_read_tls.
  destruct (ssl_read_until [] CRLFCRLF s) as [[[len buf] s1]| | | | |]; cbn [mbind outcome_bind]; try done.
  destruct (len <=? 0)%Z; [done|].
  destruct (req_parse req_new buf) as [[rc r]| | | | |]; cbn [mbind outcome_bind]; try done.
  destruct (negb (rc =? kSuccess)%Z).
  { destruct (resp_build hit _ []) as [[rc' p] rb]. by destruct (sock_write wr rb) as [[z sent]| | | | |]. }
  assert (Ha : forall r s2, same_served_tls (v ← answer hit wr ro r e w1 (tls_stream s2); Ok (v, s2))
                                            (v ← answer hit wr ro r e w2 (tls_stream s2); Ok (v, s2))).
  { intros r' s2. pose proof (answer_stateless hit wr ro r' e w1 w2 (tls_stream s2) H H1 H2) as Hx.
    destruct (answer hit wr ro r' e w1 _) as [v1| | | | |], (answer hit wr ro r' e w2 _) as [v2| | | | |]; cbn in Hx; try done.
    by subst. }
  destruct (0 <? header_get_content_length (rq_header r))%Z; [|apply Ha].
  destruct (ssl_read_string _ _ _) as [[[rc' b] s2]| | | | |]; cbn [mbind outcome_bind]; try done.
  destruct (rc' <=? 0)%Z; [done|]. apply Ha.
Qed.

(** What the thread does, as far as connection [i] can tell. *)
Definition own_thr (i : nat) (t : xthr) : xthr :=
  match t with
  | XIn j => if decide (j = i) then XIn j else XFree
  | XHand j => if decide (j = i) then XHand j else XFree
  | XFree | XDown => XFree
  end.
(** The system [s'] in which only [i] exists, beside [s]. *)
Definition xalone {U} (i : nat) (s s' : xsys U) : Prop :=
  (xs_conns s' !! i = xs_conns s !! i /\ w_running (xs_world s) = true /\ w_running (xs_world s') = true) /\
  (xs_thr s <> XDown -> xs_thr s' = own_thr i (xs_thr s)).

Lemma xread_running {U} hit (ro : router U) e wr m i c s :
  stateless ro -> w_running (xs_world s) = true -> w_running (xs_world (xread hit ro e wr m i c s)) = true.
Proof.
  intros H Hw. unfold xread. set (t := Tls _ _ _).
  destruct (handle_read_tls_stateless hit wr ro e (xs_world s) (xs_world s) t H Hw Hw) as [E _].
  destruct (handle_read_tls _ _ _ _ _ _) as [[v t1]| | | | |]; cbn in E; try done. apply E.
Qed.
Lemma xread_alone {U} hit (ro : router U) e wr m i c s s' :
  stateless ro -> xs_conns s' !! i = xs_conns s !! i -> w_running (xs_world s) = true -> w_running (xs_world s') = true ->
  let t := xread hit ro e wr m i c s in let t' := xread hit ro e wr m i c s' in
  xalone i t t' /\ (xs_thr t' = XIn i <-> xs_thr t = XIn i).
Proof.
  intros H Hc Hw Hw' t t'.
  pose proof (xread_running hit ro e wr m i c s H Hw) as Hr.
  pose proof (xread_running hit ro e wr m i c s' H Hw') as Hr'.
  unfold t, t', xread in *. set (y := Tls _ _ _) in *.
  destruct (handle_read_tls_stateless hit wr ro e (xs_world s) (xs_world s') y H Hw Hw') as [E E0].
  destruct (handle_read_tls _ _ _ _ (xs_world s) _) as [[v t1]| | | | |],
           (handle_read_tls _ _ _ _ (xs_world s') _) as [[v' t1']| | | | |]; cbn [ofmap mbind outcome_bind same_served fst snd] in E, E0; try done;
    unfold xalone; cbn [xs_conns xs_thr xs_world own_thr] in *.
  - destruct E as (E1 & E2 & E3 & E4 & _). injection E0 as <-. rewrite !lookup_insert, E2, E3, E4. done.
  - rewrite decide_True by done. done.
Qed.

Lemma xstep_running {U} hit (ro : router U) e s t l :
  stateless ro -> w_running (xs_world s) = true -> xstep hit ro e s l = Some t -> w_running (xs_world t) = true.
Proof.
  intros Hro Hw Hl. apply xstep_cases in Hl.
  destruct l as [j|j g|j bs|j|j|j lv wr|j wr|j wr]; cbn [xabout] in *.
  - by destruct Hl as (_ & _ & ->).
  - by destruct Hl as (c & _ & _ & _ & _ & ->).
  - by destruct Hl as (c & _ & _ & _ & _ & ->).
  - by destruct Hl as (c & _ & _ & ->).
  - by destruct Hl as (c & _ & _ & [[_ ->]|[_ ->]]).
  - destruct Hl as (c & _ & _ & _ & _ & H). destruct lv; [by destruct H as [_ ->]|]. subst. by apply xread_running.
  - destruct Hl as (c & _ & _ & -> & _). by apply xread_running.
  - destruct Hl as (c & _ & [[_ ->]|[_ ->]]); [done|by apply xread_running].
Qed.

Lemma xstep_alone_other {U} hit (ro : router U) e s t s' i l :
  stateless ro -> xstep hit ro e s l = Some t -> xabout l <> i -> xalone i s s' -> xalone i t s'.
Proof.
  intros Hro Hl Hi [(Hc & Hw & Hw') Ht]. split.
  { split; [by rewrite (xstep_other _ _ _ _ _ _ _ Hl Hi)|]. split; [|done]. exact (xstep_running _ _ _ _ _ _ Hro Hw Hl). }
  intros Hd.
  assert (Hre : forall wr m j c, j <> i -> own_thr i (xs_thr (xread hit ro e wr m j c s)) = XFree).
  { intros wr m j c Hj. unfold xread. destruct (handle_read_tls _ _ _ _ _ _) as [[v t1]| | | | |]; cbn; try done. by rewrite decide_False. }
  apply xstep_cases in Hl.
  destruct l as [j|j g|j bs|j|j|j lv wr|j wr|j wr]; cbn [xabout] in *.
  - destruct Hl as (Hf & _ & ->). rewrite Ht by (by rewrite Hf). rewrite Hf. cbn. by rewrite decide_False.
  - destruct Hl as (c & _ & _ & _ & _ & ->). by apply Ht.
  - destruct Hl as (c & _ & _ & _ & _ & ->). by apply Ht.
  - destruct Hl as (c & _ & _ & ->). by apply Ht.
  - destruct Hl as (c & _ & Hf & [[_ ->]|[_ ->]]); rewrite Ht by (by rewrite Hf); rewrite Hf; cbn; by rewrite decide_False.
  - destruct Hl as (c & _ & Hf & _ & _ & H). destruct lv.
    + destruct H as [_ ->]. rewrite Ht by (by rewrite Hf). by rewrite Hf.
    + subst. rewrite Ht by (by rewrite Hf). rewrite Hf, Hre by done. done.
  - destruct Hl as (c & _ & Hf & -> & _). rewrite Ht by (by rewrite Hf). rewrite Hf, Hre by done. cbn. by rewrite decide_False.
  - destruct Hl as (c & _ & [[Hf ->]|[Hf ->]]); rewrite Ht by (by rewrite Hf); rewrite Hf.
    + cbn. by rewrite decide_False.
    + rewrite Hre by done. cbn. by rewrite decide_False.
Qed.

Lemma xstep_alone_own {U} hit (ro : router U) e s t s' i l :
  stateless ro -> xstep hit ro e s l = Some t -> xabout l = i -> xalone i s s' ->
  exists t', xstep hit ro e s' l = Some t' /\ xalone i t t'.
Proof.
  intros Hro Hl Hi [(Hc & Hw & Hw') Ht]. apply xstep_cases in Hl.
  destruct l as [j|j g|j bs|j|j|j lv wr|j wr|j wr]; cbn [xabout] in Hi, Hl; subst j; cbn [xstep] in *; rewrite Hc.
  - destruct Hl as (Hf & Hn & ->).
    rewrite decide_True by (split; [|done]; rewrite Ht by (by rewrite Hf); by rewrite Hf).
    eexists. split; [done|]. unfold xalone. cbn. rewrite !lookup_insert, decide_True by done. done.
  - destruct Hl as (c & -> & Ho & Hf & Hh & ->). cbn [mbind option_bind]. rewrite decide_True by done.
    eexists. split; [done|]. unfold xalone. cbn. by rewrite !lookup_insert.
  - destruct Hl as (c & -> & Ho & Hf & Hh & ->). cbn [mbind option_bind]. rewrite decide_True by done.
    eexists. split; [done|]. unfold xalone. cbn. by rewrite !lookup_insert.
  - destruct Hl as (c & -> & Ho & ->). cbn [mbind option_bind]. rewrite Ho.
    eexists. split; [done|]. unfold xalone. cbn. by rewrite !lookup_insert.
  - destruct Hl as (c & -> & Hf & Hd). cbn [mbind option_bind].
    rewrite decide_True by (rewrite Ht by (by rewrite Hf); rewrite Hf; cbn; by rewrite decide_True).
    destruct Hd as [[Hh ->]|[[Hh|[Hh Hfin]] ->]]; rewrite ?Hh, ?Hfin;
      (eexists; split; [done|]; unfold xalone; cbn; by rewrite !lookup_insert).
  - destruct Hl as (c & Ec & Hf & Ho & Hor & Hd). rewrite Ec. cbn [mbind option_bind].
    rewrite decide_True by (split; [rewrite Ht by (by rewrite Hf); by rewrite Hf|done]).
    destruct lv.
    + destruct Hd as [-> ->]. eexists. split; [done|]. unfold xalone. cbn. by rewrite !lookup_insert.
    + subst. eexists. split; [done|].
      by destruct (xread_alone hit ro e wr [] i c s s' Hro) as (Ha & _); [congruence|done..|].
  - destruct Hl as (c & Ec & Hf & -> & Hne). rewrite Ec. cbn [mbind option_bind].
    rewrite decide_True by (rewrite Ht by (by rewrite Hf); rewrite Hf; cbn; by rewrite decide_True).
    destruct (xread_alone hit ro e wr [] i c s s' Hro) as (Ha & Hb); [congruence|done..|].
    eexists. rewrite decide_False by tauto. split; [done|]. done.
  - destruct Hl as (c & Ec & [[Hf ->]|[Hf ->]]); rewrite Ec; cbn [mbind option_bind].
    + rewrite decide_True by (rewrite Ht by (by rewrite Hf); rewrite Hf; cbn; by rewrite decide_True).
      eexists. split; [done|]. unfold xalone. cbn. by rewrite !lookup_insert.
    + assert (Hf' : xs_thr s' = XIn i) by (rewrite Ht by (by rewrite Hf); rewrite Hf; cbn; by rewrite decide_True).
      rewrite decide_False by (by rewrite Hf'). rewrite decide_True by done. eexists. split; [done|].
      by destruct (xread_alone hit ro e wr [SGap] i c s s' Hro) as (Ha & _); [congruence|done..|].
Qed.

(** The events that concern connection [i]. *)
Definition xonly (i : nat) (ls : list xlab) : list xlab := filter (fun l => xabout l = i) ls.

(** Whatever the other peers do, and in whatever order events are handled, a
    connection is served as if it were the only one. *)
Theorem https_connections_are_isolated : forall U hit (ro : router U) e w ls s i c,
  stateless ro -> w_running w = true -> xrun hit ro e (xsys_new w) ls = Some s -> xs_conns s !! i = Some c ->
  exists s', xrun hit ro e (xsys_new w) (xonly i ls) = Some s' /\ xs_conns s' !! i = Some c.
Proof.
  intros U hit ro e w ls s i c Hro Hrun H Hi.
  assert (Hgen : forall ls s0 s0' s1, xrun hit ro e s0 ls = Some s1 -> xalone i s0 s0' ->
    exists s1', xrun hit ro e s0' (xonly i ls) = Some s1' /\ xalone i s1 s1').
  { clear -Hro. induction ls as [|l ls IH]; intros s0 s0' s1 H Ha.
    - injection H as <-. by exists s0'.
    - cbn [xrun] in H. destruct (xstep hit ro e s0 l) as [s2|] eqn:E; [|done]. cbn [mbind option_bind] in H.
      unfold xonly. rewrite filter_cons. destruct (decide (xabout l = i)) as [Hi|Hi].
      + destruct (xstep_alone_own _ _ _ _ _ _ _ _ Hro E Hi Ha) as (t' & Ht' & Ha').
        cbn [xrun]. rewrite Ht'. cbn [mbind option_bind]. by eapply IH.
      + eapply IH; [done|]. by eapply xstep_alone_other. }
  destruct (Hgen ls (xsys_new w) (xsys_new w) s H) as (s' & Hs' & (Hc & _) & _).
  { split; [done|]. intros _. done. }
  exists s'. split; [done|]. by rewrite Hc.
Qed.
Print Assumptions https_connections_are_isolated.

(** ** C159 *)

(** The thread waits in epoll_wait and no event is pending. *)
Definition xidle {U} (s : xsys U) : Prop :=
  xs_thr s = XFree /\
  forall i c, xs_conns s !! i = Some c -> tn_open c = true -> tn_wire c = [] /\ tn_fin c = false.

(** Writing takes something. *)
Definition xwrites_go_through (l : xlab) : Prop :=
  match l with XServe _ _ wr | XResume _ wr | XTimeout _ wr => exists k, wr = WTake k | _ => True end.
(** The peer of [i] shakes hands, does not close its side and does not run into the
    read time-out. *)
Definition xstays (i : nat) (l : xlab) : Prop :=
  match l with XFin j | XTimeout j _ => j <> i | XHello j good => j = i -> good = true | _ => True end.
Lemma xcalm_of i ls : Forall xwrites_go_through ls -> Forall (xstays i) ls -> Forall (xcalm i) ls.
Proof.
  rewrite !Forall_forall. intros H1 H2 l Hl. specialize (H1 l Hl). specialize (H2 l Hl).
  destruct l; cbn in *; try done; by intros _.
Qed.

(** What was written answers the first requests, in order, each once. *)
Theorem https_answers_in_order : forall U hit (ro : router U) e w ls s i c texts rs,
  valid_order hit -> xrun hit ro e (xsys_new w) ls = Some s -> xs_conns s !! i = Some c ->
  requests texts rs -> Forall (tame ro) rs -> concat (recs_by i ls) `prefix_of` concat texts ->
  Forall xwrites_go_through ls -> Forall (xstays i) ls ->
  tn_open c = true /\ exists k, k <= length rs /\ Forall2 (answers ro) (take k rs) (tn_out c).
Proof.
  intros U hit ro e w ls s i c texts rs Hit H Hi Hreq Ht Hsent Hw Hst.
  destruct (run_xprogress hit ro e w s ls i c texts rs Hit H Hi (xcalm_of _ _ Hw Hst) Hreq Ht Hsent) as (k & [Ho Hf Hh Hk Hin Hout] & _).
  split; [done|]. exists k. split; [|done]. destruct Hreq as (HF & _). rewrite <- (Forall2_length _ _ _ HF). lia.
Qed.
Print Assumptions https_answers_in_order.

(** When there is nothing left to do, all are answered. *)
Definition https_all_answered_full : Prop := forall U hit (ro : router U) e w ls s i c texts rs,
  valid_order hit -> xrun hit ro e (xsys_new w) ls = Some s -> xidle s -> xs_conns s !! i = Some c ->
  requests texts rs -> Forall (tame ro) rs -> concat (recs_by i ls) = concat texts ->
  Forall xwrites_go_through ls -> Forall (xstays i) ls -> Forall2 (answers ro) rs (tn_out c).

(** Missing: records that contain the end of one request and the beginning of the
    next (C109). *)
Theorem https_all_answered_partial : forall U hit (ro : router U) e w ls s i c recss rs,
  valid_order hit -> xrun hit ro e (xsys_new w) ls = Some s -> xidle s -> xs_conns s !! i = Some c ->
  requests (map (@concat ascii) recss) rs -> Forall (tame ro) rs ->
  recs_by i ls = concat recss -> Forall filled recss ->
  Forall xwrites_go_through ls -> Forall (xstays i) ls ->
  Forall2 (answers ro) rs (tn_out c) /\ tn_open c = true.
Proof.
  intros U hit ro e w ls s i c recss rs Hit H [_ Hidle] Hi Hreq Ht Hsent Hfill Hw Hst.
  set (texts := map (@concat ascii) recss) in *.
  assert (Ec : concat (recs_by i ls) = concat texts).
  { rewrite Hsent. unfold texts. clear. induction recss as [|g recss IH]; [done|]. cbn. by rewrite concat_app, IH. }
  destruct (run_xprogress hit ro e w s ls i c texts rs Hit H Hi (xcalm_of _ _ Hw Hst) Hreq Ht) as (k & [Ho Hf Hh Hk Hin Hout] & Hal).
  { by rewrite Ec. }
  split; [|done]. destruct (Hidle i c Hi Ho) as [Hnil _].
  destruct (Hal recss) as [[Hb Hrec] _]; [by split|by rewrite Hsent|].
  unfold pending in Hin. rewrite Hb, Hnil, app_nil_r, Ec in Hin.
  assert (E : take k texts = texts) by (apply concat_take_all; [by eapply requests_nonempty|done]).
  assert (Hl : length texts <= k) by (rewrite <- E; rewrite take_length; lia).
  destruct Hreq as (HF & _). rewrite take_ge in Hout; [done|]. by rewrite <- (Forall2_length _ _ _ HF).
Qed.
Print Assumptions https_all_answered_partial.

(** ** C160 *)

(** Steps of the server alone, without time-outs. *)
Definition xby_server (l : xlab) : Prop :=
  match l with XShake _ | XServe _ _ _ | XResume _ _ => True | _ => False end.

(** Whole requests wait on connection [i], each in records of its own; the server
    gets to answer one. *)
Definition https_available_full : Prop := forall U hit (ro : router U) e w ls s i c recss rs,
  valid_order hit -> xrun hit ro e (xsys_new w) ls = Some s -> xs_thr s <> XDown -> xs_conns s !! i = Some c ->
  tn_wire c <> [] -> requests (map (@concat ascii) recss) rs -> Forall (tame ro) rs ->
  recs_by i ls = concat recss -> Forall filled recss ->
  Forall xwrites_go_through ls -> Forall (xstays i) ls ->
  exists ls' s' c', Forall xby_server ls' /\ xrun hit ro e s ls' = Some s' /\
    xs_conns s' !! i = Some c' /\ length (tn_out c) < length (tn_out c').

(** All peers do their part of the handshake, send whole requests and stay. *)
Definition xgood_peers {U} (ro : router U) (s : xsys U) (ls : list xlab) : Prop := forall j c,
  xs_conns s !! j = Some c -> tn_hello c <> None /\ Forall (xstays j) ls /\
  exists recss rs, requests (map (@concat ascii) recss) rs /\ Forall (tame ro) rs /\
    recs_by j ls = concat recss /\ Forall filled recss.

Lemma concat_concat (recss : list (list bytes)) : concat (concat recss) = concat (map (@concat ascii) recss).
Proof. induction recss as [|g recss IH]; [done|]. cbn. by rewrite concat_app, IH. Qed.

(** The thread is at most waiting for a connection that exists. *)
Lemma xthr_has_conn {U} hit (ro : router U) e w ls s i :
  xrun hit ro e (xsys_new w) ls = Some s -> xs_thr s = XIn i \/ xs_thr s = XHand i -> is_Some (xs_conns s !! i).
Proof.
  revert s. induction ls as [|l ls IH] using rev_ind; intros s H Ht; [injection H as <-; by destruct Ht|].
  apply xrun_snoc in H as (s1 & H1 & Hl).
  assert (Hre : forall wr m j c1, xs_conns s1 !! j = Some c1 ->
    xs_thr (xread hit ro e wr m j c1 s1) = XIn i \/ xs_thr (xread hit ro e wr m j c1 s1) = XHand i ->
    is_Some (xs_conns (xread hit ro e wr m j c1 s1) !! i)).
  { intros wr m j c1 Hj Hx. unfold xread in *. destruct (handle_read_tls _ _ _ _ _ _) as [[v t]| | | | |]; cbn in *; destruct Hx as [Hx|Hx]; try done.
    injection Hx as ->. by exists c1. }
  assert (Hkeep : xs_thr s1 = xs_thr s -> is_Some (xs_conns s !! i)).
  { intros Eq. eapply xstep_keeps; [exact Hl|]. apply IH; [done|]. by rewrite Eq. }
  apply xstep_cases in Hl. destruct l as [j|j g|j bs|j|j|j lv wr|j wr|j wr]; cbn [xabout] in *.
  - destruct Hl as (_ & _ & ->). cbn in *. destruct Ht as [?|[= ->]]; [done|]. rewrite lookup_insert. by eexists.
  - destruct Hl as (c & _ & _ & _ & _ & ->). by apply Hkeep.
  - destruct Hl as (c & _ & _ & _ & _ & ->). by apply Hkeep.
  - destruct Hl as (c & _ & _ & ->). by apply Hkeep.
  - destruct Hl as (c & _ & _ & [[_ ->]|[_ ->]]); cbn in Ht; by destruct Ht.
  - destruct Hl as (c & Hc & _ & _ & _ & H). destruct lv; [destruct H as [_ ->]; cbn in Ht; by destruct Ht|].
    subst. by apply Hre.
  - destruct Hl as (c & Hc & _ & -> & _). by apply Hre.
  - destruct Hl as (c & Hc & [[_ ->]|[_ ->]]); [cbn in Ht; by destruct Ht|by apply Hre].
Qed.

(** With only whole requests pending, reading does not wait. *)
Lemma xwhole_served {U} hit (ro : router U) e (s : xsys U) i c recss rs ls k :
  valid_order hit -> requests (map (@concat ascii) recss) rs -> Forall (tame ro) rs ->
  xprogress ro i (map (@concat ascii) recss) rs ls c k -> aligned i recss ls c k ->
  recs_by i ls = concat recss -> Forall filled recss -> tn_wire c <> [] ->
  exists w' c', xread hit ro e (WTake 0) [] i c s = XSys w' XFree (<[i := c']> (xs_conns s)) /\
    length (tn_out c) < length (tn_out c').
Proof.
  intros Hit Hreq Ht Hk [Ha1 Ha2] Hs Hfill Hne. set (texts := map (@concat ascii) recss) in *.
  assert (Ec : concat (recs_by i ls) = concat texts) by (rewrite Hs; apply concat_concat).
  destruct (xread_progress hit ro e 0 s i c texts rs ls k Hit Hreq Ht Hk) as [[Hc _]|(w' & c' & E & Hk' & _)].
  - by rewrite Ec.
  - exfalso. destruct Hk as [_ _ _ _ Hin _]. rewrite Ec in Hin.
    assert (E : concat texts = concat (take k texts) ++ concat (drop k texts)) by (by rewrite <- concat_app, take_drop).
    rewrite E in Hin. apply app_inv_head in Hin. destruct Hc as [Hc|(text & rest & Hd & Hp & Hn)].
    + unfold pending in Hc. rewrite Ha1 in Hc. cbn in Hc. apply Hne, filled_concat_nil; [|done].
      pose proof (filled_concat_all _ Hfill) as Hf. rewrite <- Hs, Ha2 in Hf. by apply Forall_app in Hf as [_ ?].
    + rewrite Hd in Hin. cbn in Hin. apply Hn, prefix_same_length; [done|]. rewrite <- Hin, app_length. lia.
  - exists w', c'. split; [done|]. destruct Hk as [_ _ _ [-> _] _ _], Hk' as [_ _ _ [-> _] _ _]. lia.
Qed.

(** Missing: a peer that connects and does not shake hands holds the only thread, and
    so does one that stops in the middle of a request. *)
Theorem https_available_partial : forall U hit (ro : router U) e w ls s i c,
  valid_order hit -> xrun hit ro e (xsys_new w) ls = Some s -> xs_thr s <> XDown -> xs_conns s !! i = Some c ->
  tn_wire c <> [] -> Forall xwrites_go_through ls -> xgood_peers ro s ls ->
  exists ls' s' c', Forall xby_server ls' /\ xrun hit ro e s ls' = Some s' /\
    xs_conns s' !! i = Some c' /\ length (tn_out c) < length (tn_out c').
Proof.
  intros U hit ro e w ls s i c Hit H Hd Hi Hne Hw Hgood.
  assert (Hprog : forall j cj, xs_conns s !! j = Some cj ->
    tn_hello cj = Some true /\ tn_open cj = true /\ (xs_thr s = XIn j -> tn_wire cj <> []) /\
    forall s0, tn_wire cj <> [] -> exists w' c', xread hit ro e (WTake 0) [] j cj s0 = XSys w' XFree (<[j := c']> (xs_conns s0)) /\
      length (tn_out cj) < length (tn_out c')).
  { intros j cj Hj. destruct (Hgood j cj Hj) as (Hh & Hst & recss & rs & Hreq & Ht & Hs & Hf).
    destruct (run_xprogress hit ro e w s ls j cj _ rs Hit H Hj (xcalm_of _ _ Hw Hst) Hreq Ht) as (k & Hk & Hal).
    { by rewrite Hs, concat_concat. }
    destruct (Hal recss) as [Ha Hx]; [by split|by rewrite Hs|].
    split. { destruct Hk as [_ _ Hh' _ _ _]. by destruct (tn_hello cj) as [[]|]. }
    split; [by destruct Hk|]. split; [done|]. intros s0 Hn0. by apply (xwhole_served hit ro e s0 j cj recss rs ls k). }
  destruct (Hprog i c Hi) as (Hh & Ho & _ & Hserv).
  assert (Hserve : forall s0, xs_thr s0 = XFree -> xs_conns s0 !! i = Some c ->
    exists s' c', xrun hit ro e s0 [XServe i false (WTake 0)] = Some s' /\
      xs_conns s' !! i = Some c' /\ length (tn_out c) < length (tn_out c')).
  { intros s0 Hf H0. destruct (Hserv s0 Hne) as (w' & c' & E & Hl).
    exists (XSys w' XFree (<[i := c']> (xs_conns s0))), c'.
    cbn [xrun xstep]. rewrite H0. cbn [mbind option_bind].
    rewrite decide_True by (split; [done|]; split; [done|by left]). rewrite E. cbn [xs_conns].
    rewrite lookup_insert. done. }
  destruct (xs_thr s) as [|j|j|] eqn:Ethr; [| | |done].
  - destruct (Hserve s Ethr Hi) as (s' & c' & Hr & Hc & Hl).
    exists [XServe i false (WTake 0)], s', c'. split; [by repeat constructor|]. done.
  - destruct (xthr_has_conn _ _ _ _ _ _ _ H (or_intror Ethr)) as [cj Hj].
    destruct (Hprog j cj Hj) as (Hhj & Hoj & _).
    set (cj' := TConn (tn_buf cj) (tn_wire cj) (tn_fin cj) (tn_hello cj) true (tn_open cj) (tn_out cj) (tn_sent cj)).
    assert (Hres : xstep hit ro e s (XShake j) = Some (xwith s XFree j cj')).
    { cbn [xstep]. rewrite Hj. cbn [mbind option_bind]. rewrite decide_True by done. unfold cj'. by rewrite Hhj. }
    destruct (decide (j = i)) as [->|Hji].
    + rewrite Hi in Hj. injection Hj as <-.
      assert (Hrd : exists w' c', xread hit ro e (WTake 0) [] i cj' (xwith s XFree i cj') = XSys w' XFree (<[i := c']> (xs_conns (xwith s XFree i cj'))) /\
        length (tn_out c) < length (tn_out c')).
      { destruct (Hserv (xwith s XFree i cj') Hne) as (w' & c' & E & Hl). revert E. unfold xread, cj'. cbn [tn_buf tn_wire tn_fin tn_hello tn_est tn_out tn_sent].
        destruct (handle_read_tls _ _ _ _ _ _) as [[v t]| | | | |]; intros E; try done.
        injection E as <- E. eexists _, _. split; [reflexivity|]. cbn [tn_out].
        apply (f_equal (fun m => m !! i)) in E. rewrite !lookup_insert in E. injection E as <-. exact Hl. }
      destruct Hrd as (w' & c' & E & Hl).
      exists [XShake i; XServe i false (WTake 0)]. do 2 eexists. split; [by repeat constructor|].
      cbn [xrun]. rewrite Hres. cbn [mbind option_bind xstep xwith xs_conns]. rewrite lookup_insert. cbn [mbind option_bind].
      rewrite decide_True by (split; [done|]; split; [done|by left]).
      split; [exact (f_equal Some E)|]. cbn [xs_conns]. rewrite lookup_insert. by split.
    + destruct (Hserve (xwith s XFree j cj')) as (s' & c' & Hr & Hc & Hl); [done|by cbn; rewrite lookup_insert_ne|].
      exists [XShake j; XServe i false (WTake 0)], s', c'. split; [by repeat constructor|].
      split; [|done]. cbn [xrun] in *. rewrite Hres. exact Hr.
  - destruct (xthr_has_conn _ _ _ _ _ _ _ H (or_introl Ethr)) as [cj Hj].
    destruct (Hprog j cj Hj) as (_ & _ & Hnj & Hservj).
    destruct (Hservj s (Hnj eq_refl)) as (w' & cj' & E & Hl).
    assert (Hres : xstep hit ro e s (XResume j (WTake 0)) = Some (XSys w' XFree (<[j := cj']> (xs_conns s)))).
    { cbn [xstep]. rewrite Hj. cbn [mbind option_bind]. rewrite decide_True by done. rewrite E. by rewrite decide_False. }
    destruct (decide (j = i)) as [->|Hji].
    + exists [XResume i (WTake 0)]. do 2 eexists. split; [by repeat constructor|].
      cbn [xrun]. rewrite Hres. cbn [mbind option_bind]. split; [done|]. cbn [xs_conns]. rewrite lookup_insert.
      split; [done|]. rewrite Hi in Hj. injection Hj as <-. done.
    + destruct (Hserve (XSys w' XFree (<[j := cj']> (xs_conns s)))) as (s' & c' & Hr & Hc & Hl'); [done|by cbn; rewrite lookup_insert_ne|].
      exists [XResume j (WTake 0); XServe i false (WTake 0)], s', c'. split; [by repeat constructor|].
      split; [|done]. cbn [xrun] in *. rewrite Hres. exact Hr.
Qed.
Print Assumptions https_available_partial.

(** ** C161 *)

(** A peer that does not shake hands in time is closed, and the thread is free. *)
Theorem https_handshake_timeout : forall U hit (ro : router U) e w ls s i wr,
  xrun hit ro e (xsys_new w) ls = Some s -> xs_thr s = XHand i ->
  exists c c' s', xs_conns s !! i = Some c /\ xstep hit ro e s (XTimeout i wr) = Some s' /\
    xs_thr s' = XFree /\ xs_world s' = xs_world s /\ xs_conns s' !! i = Some c' /\
    tn_open c' = false /\ tn_out c' = tn_out c /\ tn_sent c' = tn_sent c /\
    (forall j, j <> i -> xs_conns s' !! j = xs_conns s !! j).
Proof.
  intros U hit ro e w ls s i wr H Ht. destruct (xthr_has_conn _ _ _ _ _ _ _ H (or_intror Ht)) as [c Hc].
  exists c, (tn_closed c), (xwith s XFree i (tn_closed c)). split; [done|]. split.
  { cbn [xstep]. rewrite Hc. cbn [mbind option_bind]. by rewrite decide_True. }
  cbn. rewrite lookup_insert. do 6 (split; [done|]). intros j Hj. by rewrite lookup_insert_ne.
Qed.
Print Assumptions https_handshake_timeout.

Lemma until_blocked_gap b : short b -> read_until [] CRLFCRLF (Stream (map Byte b) Wait) = Blocked ->
  read_until [] CRLFCRLF (Stream (map Byte b ++ [Gap]) Wait) = Ok ((-1)%Z, b, Stream [] Wait).
Proof.
  intros Hs H. pose proof (short_fits _ Hs) as Hf.
  destruct (decide (LF ∈ take 3 b)) as [Hlf|Hlf].
  { destruct (proj2 (read_until_throws_iff CRLFCRLF b [] Wait blank_line_delim Hf (or_introl eq_refl))) as [x Hx]; [by apply early_end_lf|].
    rewrite app_nil_r in Hx. congruence. }
  rewrite <- early_end_lf in Hlf. destruct (find_idx CRLFCRLF b) as [k|] eqn:Ei.
  - destruct (shortest_exists CRLFCRLF b) as (pre & rest & Hsh); [apply find_idx_contains; by rewrite Ei|].
    destruct (read_until_first_occurrence_partial CRLFCRLF b pre rest [] Wait blank_line_delim Hf Hlf Hsh) as [H1 _].
    rewrite app_nil_r in H1. congruence.
  - assert (Hnc : ~ contains CRLFCRLF b) by (by apply find_idx_None_contains).
    by destruct (read_until_unfinished_partial CRLFCRLF b Wait blank_line_delim Hf Hlf Hnc) as (H1 & _).
Qed.

(** A call of HandleRead that waits is ended by the time-out; no handler runs. *)
Lemma handle_read_tls_timeout {U} hit wr (ro : router U) e w b t0 t1 :
  short b -> tls_stream t0 = Stream (map Byte b) Wait -> tls_stream t1 = Stream (map Byte b ++ [Gap]) Wait ->
  ~ handlers_block ro w -> handle_read_tls hit wr ro e w t0 = Blocked ->
  exists v t, handle_read_tls hit wr ro e w t1 = Ok (v, t) /\ sv_world v = w /\ sv_wrote v = [] /\ sv_sent v = [] /\ sv_closed v = true.
Proof.
  intros Hs H0 H1 Hnb H. unfold handle_read_tls in *.
  assert (Hb0 : forall r s1, answer hit wr ro r e w s1 <> Blocked).
  { clear -Hnb. intros r s1 Hb. destruct (answer_cases hit wr ro r e w s1) as [[v Hv]|[[_ ?]|[? _]]]; [congruence|done|done]. }
  pose proof (seen_ok _ _ (ssl_read_until_same [] CRLFCRLF t0)) as Hu0. rewrite H0 in Hu0.
  pose proof (seen_ok _ _ (ssl_read_until_same [] CRLFCRLF t1)) as Hu1. rewrite H1 in Hu1.
  destruct (ssl_read_until [] CRLFCRLF t0) as [[[len buf] s1]| | | | |] eqn:E0; cbn [mbind outcome_bind] in H; try discriminate H.
  - assert (Hmore : read_until [] CRLFCRLF (Stream (map Byte b ++ [Gap]) Wait) = Ok (len, buf, more [Gap] Wait (tls_stream s1))).
    { revert Hu0. unfold read_until. cbn [sm_items sm_tail]. change CRLFCRLF with (CR :: drop 1 CRLFCRLF). cbv iota beta.
      intros Hu0. rewrite until_loop_more by (by rewrite Hu0). by rewrite Hu0. }
    rewrite Hmore in Hu1.
    destruct (ssl_read_until [] CRLFCRLF t1) as [[[len' buf'] s1']| | | | |] eqn:E1; try done.
    assert (Hs1 : tls_stream s1' = more [Gap] Wait (tls_stream s1)) by congruence.
    assert (len' = len /\ buf' = buf) as [-> ->] by (split; congruence). clear Hu1. cbn [mbind outcome_bind].
    assert (exists b', tls_stream s1 = Stream (map Byte b') Wait) as [b' Hb'].
    { unfold read_until in Hu0. cbn [sm_items sm_tail] in Hu0.
      change CRLFCRLF with (CR :: drop 1 CRLFCRLF) in Hu0. cbv iota beta in Hu0. eapply until_loop_bytes. exact Hu0. }
    destruct (Z.leb_spec len 0) as [Hlz|Hlz]; [done|].
    assert (Hsb : short buf).
    { destruct (read_until_cases b [] Wait Hs (or_introl eq_refl)) as [[_ [x Hx]]|[(pre & rest & Hp & Hx)|[(z & Hz & l' & Hx)|(_ & _ & Hx)]]];
        rewrite app_nil_r, Hu0 in Hx; try done; injection Hx; intros; subst; [|lia].
      apply prefix_length in Hp. unfold short in *. lia. }
    destruct (req_parse_total req_new buf Hsb) as (rc & r & Hpr & _). rewrite Hpr in *. cbn [mbind outcome_bind] in *.
    destruct (negb (rc =? kSuccess)%Z).
    { destruct (resp_build hit _ []) as [[? ?] ?]. by destruct wr. }
      pose proof (content_length_range (rq_header r)) as Hmax.
      destruct (Z.ltb_spec 0 (header_get_content_length (rq_header r))).
      2:{ exfalso. destruct (answer _ _ _ _ _ _ _) eqn:Ea; cbn in H; try done. by apply Hb0 in Ea. }
      set (n := header_get_content_length (rq_header r)) in *.
      pose proof (seen_ok _ _ (wait_all_bytes n s1 b' ltac:(lia) Hb')) as Hr. unfold read_string in Hr.
      rewrite recv_all_bytes in Hr. case_decide as Hlen.
      { exfalso. destruct (ssl_read_string true _ s1) as [[[rc' body] s2]| | | | |]; cbn [mbind outcome_bind] in H, Hr; try done.
        destruct (rc' <=? 0)%Z; [done|]. destruct (answer _ _ _ _ _ _ _) eqn:Ea; cbn in H; try done. by apply Hb0 in Ea. }
      assert (Hi : sm_items (tls_stream s1') = map Byte b' ++ [Gap]).
      { by rewrite Hs1, Hb'. }
      destruct (ssl_wait_all_fails b' [Gap] s1' (Z.to_N n)) as (s2 & E2); [unfold int_max in Hmax; lia|done|by right|].
      unfold ssl_read_string. rewrite E2. cbn [mbind outcome_bind]. by do 2 eexists.
  - rewrite (until_blocked_gap b Hs Hu0) in Hu1.
    destruct (ssl_read_until [] CRLFCRLF t1) as [[[len' buf'] s1']| | | | |] eqn:E1; try done.
    injection Hu1 as <- <- _ _. cbn [mbind outcome_bind]. by do 2 eexists.
Qed.

(** The request is not complete (otherwise the thread could go on): the time-out
    closes the connection, nothing is answered, and the thread is free. *)
Theorem https_read_timeout : forall U hit (ro : router U) e s i c wr,
  xs_conns s !! i = Some c -> xs_thr s = XIn i -> short (pending c) -> tn_fin c = false ->
  ~ handlers_block ro (xs_world s) -> xstep hit ro e s (XResume i wr) = None ->
  exists s' c', xstep hit ro e s (XTimeout i wr) = Some s' /\
    xs_thr s' = XFree /\ xs_world s' = xs_world s /\ xs_conns s' !! i = Some c' /\
    tn_open c' = false /\ tn_out c' = tn_out c /\ tn_sent c' = tn_sent c /\
    (forall j, j <> i -> xs_conns s' !! j = xs_conns s !! j).
Proof.
  intros U hit ro e s i c wr Hc Ht Hs Hf Hnb Hres. cbn [xstep] in *. rewrite Hc in *. cbn [mbind option_bind] in *.
  rewrite decide_True in Hres by done. rewrite decide_False by (by rewrite Ht). rewrite decide_True by done.
  destruct (decide (xs_thr (xread hit ro e wr [] i c s) = XIn i)) as [Hd|]; [|done]. clear Hres.
  assert (Hb : handle_read_tls hit wr ro e (xs_world s) (Tls (tn_buf c) ((Rec <$> tn_wire c) ++ []) (if tn_fin c then Eof else Wait)) = Blocked).
  { unfold xread in Hd. by destruct (handle_read_tls _ _ _ _ _ _) as [[v t]| | | | |]. }
  destruct (handle_read_tls_timeout hit wr ro e (xs_world s) (pending c) _
    (Tls (tn_buf c) ((Rec <$> tn_wire c) ++ [SGap]) (if tn_fin c then Eof else Wait)) Hs (conn_stream c Hf)) as (v & t & E & Hv1 & Hv2 & Hv3 & Hv4); [|done|done|].
  { rewrite Hf. unfold tls_stream. cbn [tl_buf tl_items tl_tail]. f_equal. unfold flat. rewrite bind_app.
    change (Rec <$> tn_wire c ≫= _) with (flat (Rec <$> tn_wire c)). rewrite flat_recs. unfold pending. rewrite map_app. cbn. by rewrite <- app_assoc. }
  unfold xread. rewrite E. do 2 eexists. split; [done|]. cbn [xs_thr xs_world xs_conns]. split; [done|]. split; [done|].
  split; [by rewrite lookup_insert|]. cbn. rewrite Hv2, Hv3, Hv4, !app_nil_r. do 3 (split; [done|]).
  intros j Hj. by rewrite lookup_insert_ne.
Qed.
Print Assumptions https_read_timeout.

(** ** C162 *)

(** Handlers that do not fail, and a peer that reads: the process stays up. *)
Definition https_process_stays_up_full : Prop := forall U hit (ro : router U) e w ls s,
  valid_order hit -> (forall p c w, ascii_only p -> is_ok (dispatch ro p c w)) ->
  xrun hit ro e (xsys_new w) ls = Some s -> Forall xwrites_go_through ls -> xs_thr s <> XDown.

Lemma handle_read_tls_cases {U} hit wr (ro : router U) e w b l t s : short b -> l = [] \/ l = [Gap] ->
  tls_stream s = Stream (map Byte b ++ l) t ->
  let o := handle_read_tls hit wr ro e w s in
  is_ok o \/ o = Blocked \/ (LF ∈ take 3 b \/ wr = WSig \/ handlers_fail ro w b).
Proof.
  intros Hs Hl Hst o. unfold o, handle_read_tls. clear o.
  pose proof (seen_ok _ _ (ssl_read_until_same [] CRLFCRLF s)) as Hu. rewrite Hst in Hu.
  destruct (read_until_cases b l t Hs Hl) as [[Hlf _]|[(pre & rest & Hp & Hx)|[(rc & Hrc & l' & Hx)|(-> & -> & Hx)]]];
    [by right; right; left|rewrite Hx in Hu|rewrite Hx in Hu|rewrite Hx in Hu];
    (destruct (ssl_read_until [] CRLFCRLF s) as [[[len buf] s1]| | | | |] eqn:E1; try done; cbn [mbind outcome_bind]).
  - assert (len = Z.of_nat (length pre) /\ buf = pre) as [-> ->] by (split; congruence).
    destruct (Z.leb_spec (Z.of_nat (length pre)) 0); [left; by eexists|].
    destruct (req_parse_total req_new pre) as (rc & r & Hpr & _).
    { apply prefix_length in Hp. unfold short in *. lia. }
    rewrite Hpr. cbn [mbind outcome_bind]. destruct (Z.eqb_spec rc kSuccess) as [-> |]; cbn [negb].
    2: { destruct (resp_build hit _ []) as [[? ?] ?]. destruct wr; [left; by eexists|left; by eexists|]. right; right; by right; left. }
    assert (Ha : forall r' s1, (exists x, r' = Req (rq_method r) (rq_version r) (rq_header r) (rq_route r) x) ->
      let o := v ← answer hit wr ro r' e w (tls_stream s1); Ok (v, s1) in
      is_ok o \/ o = Blocked \/ (LF ∈ take 3 b \/ wr = WSig \/ handlers_fail ro w b)).
    { intros r' s2 [x Hr]. cbv zeta. destruct (answer_cases hit wr ro r' e w (tls_stream s2)) as [[v ->]|[[-> _]|[_ [?|Hx']]]];
        [left; by eexists|by right; left|by right; right; right; left|]. right; right; right; right.
      exists pre, r, x. split; [done|]. split; [done|]. by rewrite <- Hr. }
    destruct (Z.ltb_spec 0 (header_get_content_length (rq_header r))); [|apply Ha; exists (rq_body r); by destruct r].
    pose proof (content_length_range (rq_header r)) as Hmax. unfold int_max in Hmax.
    pose proof (ssl_wait_all_exact (Z.to_N (header_get_content_length (rq_header r))) s1 ltac:(lia)) as He.
    unfold ssl_read_string. destruct (ssl_ioread _ _ s1) as [[[rc' body] s2]| | | | |]; try done; cbn [mbind outcome_bind]; [|by right; left].
    destruct (rc' <=? 0)%Z; [left; by eexists|apply Ha; by eexists].
  - assert (len = rc) as -> by congruence. destruct (Z.leb_spec rc 0); [left; by eexists|lia].
  - by right; left.
Qed.

Lemma xread_down {U} hit (ro : router U) e wr m i c s :
  m = [] \/ m = [SGap] -> xs_thr (xread hit ro e wr m i c s) = XDown ->
  ~ short (pending c) \/ LF ∈ take 3 (pending c) \/ wr = WSig \/ handlers_fail ro (xs_world s) (pending c).
Proof.
  intros Hm Hd. destruct (decide (short (pending c))) as [Hs|]; [right|by left].
  unfold xread in Hd. set (t := Tls _ _ _) in Hd.
  assert (Hst : tls_stream t = Stream (map Byte (pending c) ++ flat m) (if tn_fin c then Eof else Wait)).
  { unfold t, tls_stream, pending. cbn [tl_buf tl_items tl_tail]. f_equal. unfold flat at 1. rewrite bind_app.
    change (Rec <$> tn_wire c ≫= _) with (flat (Rec <$> tn_wire c)). rewrite flat_recs, map_app. by rewrite <- app_assoc. }
  assert (Hl : flat m = [] \/ flat m = [Gap]) by (destruct Hm as [->| ->]; [by left|by right]).
  pose proof (handle_read_tls_cases hit wr ro e (xs_world s) (pending c) (flat m) _ t Hs Hl Hst) as H.
  destruct H as [[[v t'] E]|[E|H]]; [rewrite E in Hd; done|rewrite E in Hd; done|done].
Qed.

Definition xwrites (l : xlab) : option wres :=
  match l with XServe _ _ wr | XResume _ wr | XTimeout _ wr => Some wr | _ => None end.

(** As C123. *)
Theorem https_process_stays_up_partial : forall U hit (ro : router U) e w ls s,
  xrun hit ro e (xsys_new w) ls = Some s -> xs_thr s = XDown ->
  exists ls1 l ls2 s1 c, ls = ls1 ++ l :: ls2 /\ xrun hit ro e (xsys_new w) ls1 = Some s1 /\
    xs_conns s1 !! xabout l = Some c /\
    (~ short (pending c) \/ LF ∈ take 3 (pending c) \/ xwrites l = Some WSig \/ handlers_fail ro (xs_world s1) (pending c)).
Proof.
  intros U hit ro e w ls. induction ls as [|l ls IH] using rev_ind; intros s H Hd; [by injection H as <-|].
  apply xrun_snoc in H as (s1 & H1 & Hl).
  destruct (decide (xs_thr s1 = XDown)) as [Hd1|Hd1].
  { destruct (IH s1 H1 Hd1) as (ls1 & l1 & ls2 & s2 & c & -> & Hx). exists ls1, l1, (ls2 ++ [l]), s2, c.
    split; [by rewrite <- app_assoc|done]. }
  assert (Hc : exists c, xs_conns s1 !! xabout l = Some c /\
    (~ short (pending c) \/ LF ∈ take 3 (pending c) \/ xwrites l = Some WSig \/ handlers_fail ro (xs_world s1) (pending c))).
  { apply xstep_cases in Hl. destruct l as [j|j g|j bs|j|j|j lv wr|j wr|j wr]; cbn [xabout xwrites] in *.
    - by destruct Hl as (_ & _ & ->).
    - by destruct Hl as (c & _ & _ & _ & _ & ->).
    - by destruct Hl as (c & _ & _ & _ & _ & ->).
    - by destruct Hl as (c & _ & _ & ->).
    - by destruct Hl as (c & _ & _ & [[_ ->]|[_ ->]]).
    - destruct Hl as (c & Hc & _ & _ & _ & H). destruct lv; [by destruct H as [_ ->]|]. subst. exists c. split; [done|].
      apply xread_down in Hd; naive_solver.
    - destruct Hl as (c & Hc & _ & -> & _). exists c. split; [done|]. apply xread_down in Hd; naive_solver.
    - destruct Hl as (c & Hc & [[_ ->]|[_ ->]]); [done|]. exists c. split; [done|]. apply xread_down in Hd; naive_solver. }
  destruct Hc as (c & Hc & Hx). by exists ls, l, [], s1, c.
Qed.
Print Assumptions https_process_stays_up_partial.

(** ** Examples and refutations *)

Lemma xrun_to {U} hit (ro : router U) e s ls w' t l :
  match xrun hit ro e s ls with Some s' => Some (xs_world s', xs_thr s', map_to_list (xs_conns s')) | None => None end
    = Some (w', t, l) ->
  xrun hit ro e s ls = Some (XSys w' t (list_to_map l)).
Proof.
  destruct (xrun hit ro e s ls) as [[w1 t1 m1]|]; [|done]. cbn. intros [= -> -> <-]. by rewrite list_to_map_to_list.
Qed.
Ltac xrun := apply xrun_to; by vm_compute.

Definition wn2 (n : nat) : world nat := World true (fun _ => Absent true) [] ∅ n.
(** An established connection. *)
Definition est (buf : bytes) (wire out : list bytes) : tconn := TConn buf wire false (Some true) true true out (concat out).

(** Two peers shake hands; one sends its two requests in three records, one of which
    arrives while the thread waits. *)
Definition xtwo_peers : list xlab :=
  [XOpen 0; XHello 0 true; XSend 0 (take 10 hi); XShake 0; XOpen 1; XHello 1 true; XShake 1;
   XServe 0 false (WTake 99); XSend 1 yo; XSend 0 (drop 10 hi); XSend 0 yo;
   XResume 0 (WTake 99); XServe 1 false (WTake 99); XServe 0 false (WTake 99)].
Definition xtwo_peers_end : xsys nat :=
  XSys (wn2 3) XFree (list_to_map [(0, est [] [] [ok_text (B "hi"); ok_text (B "yo")]); (1, est [] [] [ok_text (B "yo")])]).
Lemma xtwo_peers_run : xrun map_to_list echo_ro [] (xsys_new wn) xtwo_peers = Some xtwo_peers_end.
Proof. xrun. Qed.
Lemma xidle_list {U} (w : world U) l : Forall (fun p => tn_wire p.2 = [] /\ tn_fin p.2 = false) l ->
  xidle (XSys w XFree (list_to_map l)).
Proof.
  intros H. split; [done|]. intros i c Hi _. cbn [xs_conns] in Hi. apply elem_of_list_to_map_2 in Hi.
  exact (proj1 (Forall_forall _ _) H _ Hi).
Qed.
Lemma xtwo_peers_idle : xidle xtwo_peers_end.
Proof. apply xidle_list. repeat constructor. Qed.

Example https_isolated_ex : exists s',
  xrun map_to_list echo_ro [] (xsys_new wn) [XOpen 1; XHello 1 true; XShake 1; XSend 1 yo; XServe 1 false (WTake 99)] = Some s' /\
  xs_conns s' !! 1 = Some (est [] [] [ok_text (B "yo")]).
Proof.
  exact (https_connections_are_isolated nat map_to_list echo_ro [] wn xtwo_peers xtwo_peers_end 1 _ echo_stateless eq_refl
    xtwo_peers_run ltac:(by vm_compute)).
Qed.

Definition hi_yo_recs : list (list bytes) := [[take 10 hi; drop 10 hi]; [yo]].
Example https_all_answered_ex :
  Forall2 (answers echo_ro) [ex_req (B "hi"); ex_req (B "yo")] [ok_text (B "hi"); ok_text (B "yo")].
Proof.
  refine (proj1 (https_all_answered_partial nat map_to_list echo_ro [] wn xtwo_peers xtwo_peers_end 0 _ hi_yo_recs _
    valid_order_sorted xtwo_peers_run xtwo_peers_idle ltac:(by vm_compute) _ (proj2 hi_yo) ltac:(by vm_compute) _ _ _)).
  - replace (map (@concat ascii) hi_yo_recs) with [hi; yo] by (by vm_compute). exact (proj1 hi_yo).
  - repeat constructor; by vm_compute.
  - repeat constructor; by eexists.
  - repeat constructor; done.
Qed.

(** Both requests in one record: the second one is not answered. *)
Lemma one_record : xrun map_to_list echo_ro [] (xsys_new wn)
    [XOpen 0; XHello 0 true; XShake 0; XSend 0 (hi ++ yo); XServe 0 false (WTake 99)] =
  Some (XSys (wn2 1) XFree (list_to_map [(0, est yo [] [ok_text (B "hi")])])).
Proof. xrun. Qed.
Lemma one_record_idle : xidle (XSys (wn2 1) XFree (list_to_map [(0, est yo [] [ok_text (B "hi")])])).
Proof. apply xidle_list. repeat constructor. Qed.
Theorem https_all_answered_refuted : ~ https_all_answered_full.
Proof.
  intros H.
  assert (E : Forall2 (answers echo_ro) [ex_req (B "hi"); ex_req (B "yo")] [ok_text (B "hi")]).
  2:{ inversion E as [|? ? ? ? _ E1]. inversion E1. }
  refine (H nat map_to_list echo_ro [] wn _ _ 0 (est yo [] [ok_text (B "hi")]) [hi; yo] _ valid_order_sorted one_record one_record_idle
    ltac:(by vm_compute) (proj1 hi_yo) (proj2 hi_yo) ltac:(by vm_compute) _ _).
  - repeat constructor; by eexists.
  - repeat constructor; done.
Qed.
Print Assumptions https_all_answered_refuted.
Example https_answers_in_order_ex : exists k, Forall2 (answers echo_ro) (take k [ex_req (B "hi"); ex_req (B "yo")]) [ok_text (B "hi")].
Proof.
  destruct (https_answers_in_order nat map_to_list echo_ro [] wn _ _ 0 (est yo [] [ok_text (B "hi")]) [hi; yo] _ valid_order_sorted one_record
    ltac:(by vm_compute) (proj1 hi_yo) (proj2 hi_yo)) as (_ & k & _ & Hk).
  - apply (bool_decide_unpack _). by vm_compute.
  - repeat constructor; by eexists.
  - repeat constructor; done.
  - by exists k.
Qed.

(** The thread waits for the handshake of 1, whose message has arrived; a request of
    0 is waiting. *)
Definition xbusy : list xlab :=
  [XOpen 0; XHello 0 true; XShake 0; XOpen 1; XSend 0 (take 10 hi); XSend 0 (drop 10 hi); XHello 1 true].
Definition xbusy_end : xsys nat :=
  XSys wn (XHand 1) (list_to_map [(0, est [] [take 10 hi; drop 10 hi] []); (1, TConn [] [] false (Some true) false true [] [])]).
Example https_available_ex : exists ls' s' c', Forall xby_server ls' /\
  xrun map_to_list echo_ro [] xbusy_end ls' = Some s' /\ xs_conns s' !! 0 = Some c' /\ 0 < length (tn_out c').
Proof.
  apply (https_available_partial nat map_to_list echo_ro [] wn xbusy xbusy_end 0 (est [] [take 10 hi; drop 10 hi] []) valid_order_sorted).
  - xrun.
  - done.
  - by vm_compute.
  - done.
  - repeat constructor; by eexists.
  - intros j c Hj. unfold xbusy_end in Hj. cbn [xs_conns] in Hj.
    apply elem_of_list_to_map_2, elem_of_cons in Hj as [[= -> ->]|Hj].
    { split; [done|]. split; [repeat constructor; done|].
      exists [[take 10 hi; drop 10 hi]], [ex_req (B "hi")]. split; [|split; [|split; [by vm_compute|repeat constructor; by vm_compute]]].
      - replace (map (@concat ascii) [[take 10 hi; drop 10 hi]]) with [hi] by (by vm_compute).
        split; [|split]; repeat constructor; [apply hi_req|by_compute].
      - repeat constructor. apply echo_tame; [by_compute|by vm_compute]. }
    apply elem_of_list_singleton in Hj as [= -> ->]. split; [done|]. split; [repeat constructor; done|].
    exists [], []. split; [split; [constructor|split; constructor]|]. split; [constructor|]. split; [by vm_compute|constructor].
Qed.

(** A peer connects and says nothing. *)
Theorem https_available_refuted : ~ https_available_full.
Proof.
  intros H.
  set (s := XSys wn (XHand 1) (list_to_map [(0, est [] [hi] []); (1, tconn_new)]) : xsys nat).
  destruct (H nat map_to_list echo_ro [] wn [XOpen 0; XHello 0 true; XShake 0; XOpen 1; XSend 0 hi]
    s 0 (est [] [hi] []) [[hi]] [ex_req (B "hi")] valid_order_sorted) as (ls' & s' & c' & Hby & Hrun & Hc & Hl).
  - xrun.
  - done.
  - by vm_compute.
  - done.
  - replace (map (@concat ascii) [[hi]]) with [hi] by (by vm_compute).
    split; [|split]; repeat constructor; [apply hi_req|by_compute].
  - repeat constructor. apply echo_tame; [by_compute|by vm_compute].
  - by vm_compute.
  - repeat constructor. by vm_compute.
  - repeat constructor; by eexists.
  - repeat constructor; done.
  - assert (E : s' = s).
    { destruct Hby as [|l ls' Hl' _]; [by injection Hrun as <-|exfalso]. cbn [xrun] in Hrun.
      destruct (xstep map_to_list echo_ro [] s l) as [s1|] eqn:E; [|done]. clear Hrun. apply xstep_cases in E.
      destruct l as [j|j g|j bs|j|j|j lv wr|j wr|j wr]; try done; cbn [xabout] in E.
      - destruct E as (c & Ec & Ht & Hx). injection Ht as <-. vm_compute in Ec. injection Ec as <-.
        destruct Hx as [[Hx _]|[[Hx|[_ Hx]] _]]; done.
      - by destruct E as (c & _ & Ht & _).
      - by destruct E as (c & _ & Ht & _). }
    subst s'. vm_compute in Hc. injection Hc as <-. vm_compute in Hl. lia.
Qed.
Print Assumptions https_available_refuted.

(** The same, ended by the time-out; then a time-out in the middle of a body, which a
    TCP connection survives (C122). *)
Example https_handshake_timeout_ex : exists s' c',
  xstep map_to_list echo_ro [] (XSys wn (XHand 1) (list_to_map [(0, est [] [hi] []); (1, tconn_new)])) (XTimeout 1 (WTake 0)) = Some s' /\
  xs_thr s' = XFree /\ xs_conns s' !! 1 = Some c' /\ tn_open c' = false.
Proof.
  destruct (https_handshake_timeout nat map_to_list echo_ro [] wn [XOpen 0; XHello 0 true; XShake 0; XOpen 1; XSend 0 hi]
    (XSys wn (XHand 1) (list_to_map [(0, est [] [hi] []); (1, tconn_new)])) 1 (WTake 0)) as (c & c' & s' & _ & H1 & H2 & _ & H3 & H4 & _); [xrun|done|].
  by exists s', c'.
Qed.
Example https_read_timeout_ex : exists s' c',
  let s := XSys wn (XIn 0) (list_to_map [(0, est [] [ex_text_of (B "h")] [])]) in
  xrun map_to_list echo_ro [] (xsys_new wn) [XOpen 0; XHello 0 true; XShake 0; XSend 0 (ex_text_of (B "h")); XServe 0 false (WTake 0)] = Some s /\
  xstep map_to_list echo_ro [] s (XTimeout 0 (WTake 0)) = Some s' /\
  xs_thr s' = XFree /\ xs_world s' = wn /\ xs_conns s' !! 0 = Some c' /\ tn_open c' = false /\ tn_out c' = [].
Proof.
  destruct (https_read_timeout nat map_to_list echo_ro [] (XSys wn (XIn 0) (list_to_map [(0, est [] [ex_text_of (B "h")] [])])) 0
    (est [] [ex_text_of (B "h")] []) (WTake 0)) as (s' & c' & H1 & H2 & H3 & H4 & H5 & H6 & _);
    [by vm_compute|done|by vm_compute|done| |by vm_compute|].
  { intros [r Hr]. revert Hr. apply dispatch_never_blocks. repeat constructor. by intros h c w [= <-]. }
  exists s', c'. cbv zeta. split; [xrun|]. rewrite H6. do 5 (split; [assumption|]). reflexivity.
Qed.

(** A peer whose first byte is a line feed. *)
Theorem https_process_stays_up_refuted : ~ https_process_stays_up_full.
Proof.
  intros H.
  destruct (xrun map_to_list echo_ro [] (xsys_new wn) [XOpen 0; XHello 0 true; XShake 0; XSend 0 [LF]; XServe 0 false (WTake 0)]) as [s|] eqn:E;
    [|by vm_compute in E].
  apply (H nat map_to_list echo_ro [] wn _ s valid_order_sorted) in E as Hs.
  - vm_compute in E. injection E as <-. by apply Hs.
  - intros p c w Hp. rewrite echo_dispatch by done. by eexists.
  - repeat constructor. by eexists.
Qed.
Print Assumptions https_process_stays_up_refuted.
Example https_process_stays_up_ex : exists ls1 l ls2 s1 c,
  [XOpen 0; XHello 0 true; XShake 0; XSend 0 [LF]; XServe 0 false (WTake 0)] = ls1 ++ l :: ls2 /\
  xrun map_to_list echo_ro [] (xsys_new wn) ls1 = Some s1 /\ xs_conns s1 !! xabout l = Some c /\
  (~ short (pending c) \/ LF ∈ take 3 (pending c) \/ xwrites l = Some WSig \/ handlers_fail echo_ro (xs_world s1) (pending c)).
Proof.
  apply (https_process_stays_up_partial nat map_to_list echo_ro [] wn _ (XSys wn XDown (list_to_map [(0, est [] [[LF]] [])]))); [xrun|done].
Qed.
