(** C221, C222: what reaches the peers of a server, whatever its writes do
    (http_server.cpp: HandleRead; socket.cpp: Socket::Write; ssl_socket.cpp:
    SSLSocket::Write; tcp_server.cpp in the modes kIOMultiplexing, kMultiThread, kMixed). *)
From Verif.Lib Require Import CxxStringFacts.
From Verif.Spec Require Import SocketSpec SslSpec.
From Verif.Model Require Import HttpSystem HttpThreads HttpsThreads.
From Verif.Proof Require Import HttpSystemProof HttpThreadsProof HttpsSystemProof HttpsThreadsProof.
From Verif.Props Require HttpThreadsProps.
From Verif.Props Require Import SocketProps RouterProps ServerProps HttpsProps HttpSystemProps HttpsSystemProps HttpsThreadsProps.
From Verif.Model Require Import HttpsThreads.

Local Notation wn := HttpSystemProps.wn.

(** The bytes are a beginning of the first text, then one of the second, and so on. *)
Definition beginnings (sent : bytes) (texts : list bytes) : Prop :=
  exists parts, sent = concat parts /\ Forall2 prefix parts texts.
(** The bytes are the texts, or all but the last of them. *)
Definition all_but_last (sent : bytes) (texts : list bytes) : Prop :=
  exists before last, texts = before ++ [last] /\ sent = concat before.

Lemma beginnings_app s1 t1 s2 t2 : beginnings s1 t1 -> beginnings s2 t2 -> beginnings (s1 ++ s2) (t1 ++ t2).
Proof.
  intros (p1 & -> & H1) (p2 & -> & H2). exists (p1 ++ p2). split; [by rewrite concat_app|]. by apply Forall2_app.
Qed.
Lemma beginnings_nil : beginnings [] [].
Proof. exists []. by split. Qed.
Lemma beginnings_one p t : p `prefix_of` t -> beginnings p [t].
Proof. intros H. exists [p]. split; [cbn; by rewrite app_nil_r|]. by repeat constructor. Qed.

(** One write, by its result. *)
Definition wrote_as (wr : wres) (sent : bytes) (texts : list bytes) (closed : bool) : Prop :=
  texts = [] /\ sent = [] \/
  exists text, texts = [text] /\ match wr with WTake k => sent = take k text | WFail => sent = [] /\ closed = true | WSig => False end.

Lemma wrote_beginnings wr sent texts cl : wrote_as wr sent texts cl -> beginnings sent texts.
Proof.
  intros [[-> ->]|(text & -> & H)]; [apply beginnings_nil|]. apply beginnings_one.
  destruct wr as [k| |]; [subst; exists (drop k text); by rewrite take_drop|destruct H as [-> _]; apply prefix_nil|done].
Qed.

Section calls.
Context {U : Type}.
Implicit Types ro : router U.

Lemma answer_wrote hit wr ro r e w s v : answer hit wr ro r e w s = Ok v -> wrote_as wr (sv_sent v) (sv_wrote v) (sv_closed v).
Proof.
  unfold answer. destruct (dispatch _ _ _ _) as [cw| | | | |]; cbn [mbind outcome_bind]; try done.
  unfold respond. destruct (resp_build hit _ []) as [[rc p2] buf].
  destruct (negb (rc =? kSuccess)%Z); [destruct (resp_build hit _ buf) as [[? ?] ?]|];
    (destruct wr as [k| |]; intros [= <-]; right; by eexists).
Qed.
Lemma read_wrote hit wr ro e w s v : handle_read hit wr ro e w s = Ok v -> wrote_as wr (sv_sent v) (sv_wrote v) (sv_closed v).
Proof.
  unfold handle_read. destruct (read_until [] CRLFCRLF s) as [[[len buf] s1]| | | | |]; cbn [mbind outcome_bind]; try done.
  destruct (len <=? 0)%Z; [intros [= <-]; by left|].
  destruct (req_parse req_new buf) as [[rc r]| | | | |]; cbn [mbind outcome_bind]; try done.
  destruct (negb (rc =? kSuccess)%Z).
  { destruct (resp_build hit _ []) as [[? ?] out]. destruct wr as [k| |]; intros [= <-]; right; by exists out. }
  destruct (0 <? _)%Z; [|intros H; by eapply answer_wrote].
  destruct (read_string _ _ _ _) as [[[rc' b] s2]| | | | |]; cbn [mbind outcome_bind]; try done.
  destruct (rc' <=? 0)%Z; [intros [= <-]; by left|]. intros H; by eapply answer_wrote.
Qed.
Lemma read_tls_wrote hit wr ro e w s v t : handle_read_tls hit wr ro e w s = Ok (v, t) ->
  wrote_as wr (sv_sent v) (sv_wrote v) (sv_closed v).
Proof.
  unfold handle_read_tls. destruct (ssl_read_until [] CRLFCRLF s) as [[[len buf] s1]| | | | |]; cbn [mbind outcome_bind]; try done.
  destruct (len <=? 0)%Z; [intros [= <- _]; by left|].
  destruct (req_parse req_new buf) as [[rc r]| | | | |]; cbn [mbind outcome_bind]; try done.
  destruct (negb (rc =? kSuccess)%Z).
  { destruct (resp_build hit _ []) as [[? ?] out]. destruct wr as [k| |]; intros [= <- _]; right; by exists out. }
  assert (Ha : forall r' s2, (v0 ← answer hit wr ro r' e w (tls_stream s2); Ok (v0, s2)) = Ok (v, t) ->
    wrote_as wr (sv_sent v) (sv_wrote v) (sv_closed v)).
  { intros r' s2. destruct (answer hit wr ro r' e w _) as [v0| | | | |] eqn:Ev; cbn [mbind outcome_bind]; try done.
    intros [= <- _]. by eapply answer_wrote. }
  destruct (0 <? _)%Z; [|apply Ha].
  destruct (ssl_read_string _ _ _) as [[[rc' b] s2]| | | | |]; cbn [mbind outcome_bind]; try done.
  destruct (rc' <=? 0)%Z; [intros [= <- _]; by left|]. apply Ha.
Qed.
Lemma finish_wrote hit wr ro e st w wo texts sent cl : finish hit wr ro e st w = Ok (wo, texts, sent, cl) -> wrote_as wr sent texts cl.
Proof.
  destruct st as [buf|r n got|r| |]; cbn [finish]; try (intros [= <- <- <- <-]; by left).
  - destruct (answer hit wr ro r e w _) as [v| | | | |] eqn:Ev; cbn [mbind outcome_bind]; try done.
    intros [= <- <- <- <-]. by eapply answer_wrote.
  - destruct (resp_build hit _ []) as [[? ?] out]. destruct wr as [k| |]; intros [= <- <- <- <-]; right; by exists out.
Qed.

(** ** C221 *)

(** A server with one thread. *)
Theorem peers_get_beginnings : forall hit ro e w ls s i c,
  sys_run hit ro e (sys_new w) ls = Some s -> sy_conns s !! i = Some c -> beginnings (hn_sent c) (hn_out c).
Proof.
  intros hit ro e w ls. induction ls as [|l ls IH] using rev_ind; intros s i c H Hi.
  { injection H as <-. unfold sys_new in Hi. cbn [sy_conns] in Hi. by rewrite lookup_empty in Hi. }
  apply sys_run_snoc in H as (s1 & H1 & Hl).
  destruct (decide (about l = i)) as [E|E].
  2:{ rewrite (step_other _ _ _ _ _ _ _ Hl E) in Hi. by eapply IH. }
  assert (Hre : forall wr m c1, sy_conns s1 !! i = Some c1 ->
    sy_conns (read_event hit ro e wr m i c1 s1) !! i = Some c -> beginnings (hn_sent c) (hn_out c)).
  { intros wr m c1 H0 Hx. unfold read_event in Hx.
    destruct (handle_read _ _ _ _ _ _) as [v| | | | |] eqn:Ev; cbn [sy_conns] in Hx;
      try (by rewrite H0 in Hx; injection Hx as <-; eapply IH).
    rewrite lookup_insert in Hx. injection Hx as <-. cbn [hn_out hn_sent].
    apply beginnings_app; [by eapply IH|]. eapply wrote_beginnings, read_wrote, Ev. }
  destruct l as [j|j bs|j|j lv wr|j wr|j wr]; cbn [sys_step about] in *; subst j;
    try (destruct (sy_conns s1 !! i) as [c1|] eqn:Ec; [|done]; cbn [mbind option_bind] in Hl).
  - destruct (decide (_ ∧ _)); [|done]. injection Hl as <-. cbn in Hi. rewrite lookup_insert in Hi. injection Hi as <-. apply beginnings_nil.
  - destruct (_ && _); [|done]. injection Hl as <-. cbn in Hi. rewrite lookup_insert in Hi. injection Hi as <-. cbn. by eapply IH.
  - destruct (hn_open c1); [|done]. injection Hl as <-. cbn in Hi. rewrite lookup_insert in Hi. injection Hi as <-. cbn. by eapply IH.
  - destruct (decide (_ ∧ _)); [|done]. destruct lv.
    + destruct (hn_fin c1); [|done]. injection Hl as <-. cbn in Hi. rewrite lookup_insert in Hi. injection Hi as <-. cbn. by eapply IH.
    + injection Hl as <-. by eapply Hre.
  - destruct (decide (sy_thr s1 = TIn i)) as [Hg|]; [|done].
    destruct (decide (_ = TIn i)); [done|]. injection Hl as <-. by eapply Hre.
  - destruct (decide (sy_thr s1 = TIn i)) as [Hg|]; [|done]. injection Hl as <-. by eapply Hre.
Qed.

(** An HTTPS server with one thread. *)
Theorem https_peers_get_beginnings : forall hit ro e w ls s i c,
  xrun hit ro e (xsys_new w) ls = Some s -> xs_conns s !! i = Some c -> beginnings (tn_sent c) (tn_out c).
Proof.
  intros hit ro e w ls. induction ls as [|l ls IH] using rev_ind; intros s i c H Hi.
  { injection H as <-. unfold xsys_new in Hi. cbn [xs_conns] in Hi. by rewrite lookup_empty in Hi. }
  apply xrun_snoc in H as (s1 & H1 & Hl).
  destruct (decide (xabout l = i)) as [E|E].
  2:{ rewrite (xstep_other _ _ _ _ _ _ _ Hl E) in Hi. by eapply IH. }
  assert (Hre : forall wr m c1, xs_conns s1 !! i = Some c1 ->
    xs_conns (xread hit ro e wr m i c1 s1) !! i = Some c -> beginnings (tn_sent c) (tn_out c)).
  { intros wr m c1 H0 Hx. unfold xread in Hx.
    destruct (handle_read_tls _ _ _ _ _ _) as [[v t]| | | | |] eqn:Ev; cbn [xs_conns] in Hx;
      try (by rewrite H0 in Hx; injection Hx as <-; eapply IH).
    rewrite lookup_insert in Hx. injection Hx as <-. cbn [tn_out tn_sent].
    apply beginnings_app; [by eapply IH|]. eapply wrote_beginnings, read_tls_wrote, Ev. }
  assert (Hw : forall t c1 c2, xs_conns s1 !! i = Some c1 -> s = xwith s1 t i c2 -> tn_out c2 = tn_out c1 -> tn_sent c2 = tn_sent c1 ->
    beginnings (tn_sent c) (tn_out c)).
  { intros t c1 c2 H0 -> E1 E2. cbn in Hi. rewrite lookup_insert in Hi. injection Hi as <-. rewrite E1, E2. by eapply IH. }
  apply xstep_cases in Hl. destruct l as [j|j g|j bs|j|j|j lv wr|j wr|j wr]; cbn [xabout] in *; subst j.
  - destruct Hl as (_ & _ & ->). cbn in Hi. rewrite lookup_insert in Hi. injection Hi as <-. apply beginnings_nil.
  - destruct Hl as (c1 & Hc & _ & _ & _ & Hs). by eapply Hw.
  - destruct Hl as (c1 & Hc & _ & _ & _ & Hs). by eapply Hw.
  - destruct Hl as (c1 & Hc & _ & Hs). by eapply Hw.
  - destruct Hl as (c1 & Hc & _ & [[_ Hs]|[_ Hs]]); by eapply Hw.
  - destruct Hl as (c1 & Hc & _ & _ & _ & Hs). destruct lv; [destruct Hs as [_ Hs]; by eapply Hw|subst s; by eapply Hre].
  - destruct Hl as (c1 & Hc & _ & -> & _). by eapply Hre.
  - destruct Hl as (c1 & Hc & [[_ Hs]|[_ Hs]]); [by eapply Hw|subst s; by eapply Hre].
Qed.

(** Worker threads: each step leaves what was written and sent as it is, or adds one
    write. *)
Definition added (o o' : list bytes) (b b' : bytes) : Prop :=
  (o' = o /\ b' = b) \/ exists wr texts sent cl, wrote_as wr sent texts cl /\ o' = o ++ texts /\ b' = b ++ sent.
Lemma added_beginnings o o' b b' : added o o' b b' -> beginnings b o -> beginnings b' o'.
Proof.
  intros [[-> ->]|(wr & texts & sent & cl & Hw & -> & ->)] H; [done|].
  apply beginnings_app; [done|]. by eapply wrote_beginnings.
Qed.

Lemma tstep_added mixed hit ro e (s s' : tsys U) l i c' :
  t_step mixed hit ro e s l = Some s' -> ts_conns s' !! i = Some c' ->
  (ts_conns s !! i = None /\ c' = HttpThreads.tconn_new) \/
  exists c, ts_conns s !! i = Some c /\ added (HttpThreads.tn_out c) (HttpThreads.tn_out c') (HttpThreads.tn_sent c) (HttpThreads.tn_sent c').
Proof.
  intros H Hi.
  assert (Hsame : ts_conns s' = ts_conns s -> (ts_conns s !! i = None /\ c' = HttpThreads.tconn_new) \/
    exists c, ts_conns s !! i = Some c /\ added (HttpThreads.tn_out c) (HttpThreads.tn_out c') (HttpThreads.tn_sent c) (HttpThreads.tn_sent c')).
  { intros E. rewrite E in Hi. right. exists c'. split; [done|]. by left. }
  assert (Hput : forall j d d', ts_conns s !! j = Some d -> ts_conns s' = <[j := d']> (ts_conns s) ->
    added (HttpThreads.tn_out d) (HttpThreads.tn_out d') (HttpThreads.tn_sent d) (HttpThreads.tn_sent d') ->
    (ts_conns s !! i = None /\ c' = HttpThreads.tconn_new) \/
    exists c, ts_conns s !! i = Some c /\ added (HttpThreads.tn_out c) (HttpThreads.tn_out c') (HttpThreads.tn_sent c) (HttpThreads.tn_sent c')).
  { intros j d d' Hj E Ha. rewrite E in Hi. destruct (decide (j = i)) as [<-|Hn].
    - rewrite lookup_insert in Hi. injection Hi as <-. right. by exists d.
    - rewrite lookup_insert_ne in Hi by done. right. exists c'. split; [done|]. by left. }
  assert (Hrs : forall (s1 : tsys U) w x r, ts_conns (recv_step s1 w x r) = ts_conns s1).
  { intros s1 w x r. destruct x as [|f|th f st], r as [ch|]; cbn [recv_step]; try done. by destruct (got_byte st ch). }
  unfold t_step in H. destruct (ts_down s); [done|].
  destruct l as [j f ok|j bs|j|f|f|w|w|w j|w wr].
  - destruct (decide (_ ∧ _)) as [[Hj _]|]; [|done]. injection H as <-.
    assert (E : forall m, m = <[j := HttpThreads.tconn_new]> (ts_conns s) -> m !! i = Some c' ->
      (ts_conns s !! i = None /\ c' = HttpThreads.tconn_new) \/
      exists c, ts_conns s !! i = Some c /\ added (HttpThreads.tn_out c) (HttpThreads.tn_out c') (HttpThreads.tn_sent c) (HttpThreads.tn_sent c')).
    { intros m -> Hm. apply lookup_insert_Some in Hm as [[<- <-]|[_ Hm]]; [by left|]. right. exists c'. split; [done|]. by left. }
    apply (E _ eq_refl). destruct mixed, ok; exact Hi.
  - destruct (ts_conns s !! j) as [d|] eqn:Ej; [|done]. cbn [mbind option_bind] in H. destruct (HttpThreads.tn_fin d); [done|].
    injection H as <-. eapply Hput; [done|done|by left].
  - destruct (ts_conns s !! j) as [d|] eqn:Ej; [|done]. injection H as <-. eapply Hput; [done|done|by left].
  - destruct (conn_of s f); [|done]. cbn [mbind option_bind] in H. destruct (_ && _); [|done]. injection H as <-. by apply Hsame.
  - destruct (conn_of s f); [|done]. cbn [mbind option_bind] in H. destruct (_ && _); [|done]. injection H as <-. by apply Hsame.
  - destruct (ts_workers s !! w) as [[]|]; try done. destruct (ts_queue s) as [|k q]; [done|]. injection H as <-.
    apply Hsame. by destruct k as [f []|f].
  - destruct (ts_workers s !! w) as [x|]; [|done]. cbn [mbind option_bind] in H. destruct (wst_fd x) as [f|]; [|done].
    cbn [mbind option_bind] in H. destruct (receiving x); [|done].
    destruct (conn_of s f) as [[j d]|] eqn:Ej.
    2:{ injection H as <-. apply Hsame, Hrs. }
    apply conn_of_Some in Ej as [_ Ej].
    destruct (HttpThreads.tn_in d) as [|ch rest] eqn:Ed.
    + destruct (HttpThreads.tn_fin d); [|done]. injection H as <-. apply Hsame, Hrs.
    + injection H as <-. destruct (HttpThreads.takes x).
      * eapply Hput; [done|by rewrite Hrs|by left].
      * apply Hsame, Hrs.
  - destruct (ts_workers s !! w) as [x|]; [|done]. cbn [mbind option_bind] in H. destruct (wst_fd x) as [f|]; [|done].
    cbn [mbind option_bind] in H. destruct (_ && _); [|done]. injection H as <-. apply Hsame, Hrs.
  - destruct (ts_workers s !! w) as [[|f|th f st]|]; try done. destruct (finishing st); [|done].
    destruct (finish _ _ _ _ _ _) as [[[[wo texts] sent] cl]| | | | |] eqn:Ef; try done; try (injection H as <-; by apply Hsame).
    injection H as <-. destruct (conn_of s f) as [[j d]|] eqn:Ej.
    + apply conn_of_Some in Ej as [_ Ej]. eapply Hput; [done|by destruct cl|]. right. do 4 eexists. split; [eapply finish_wrote, Ef|done].
    + apply Hsame. by destruct cl.
Qed.
Theorem threads_peers_get_beginnings : forall mixed hit ro e n w ls s i c,
  t_run mixed hit ro e (t_new n w) ls = Some s -> ts_conns s !! i = Some c ->
  beginnings (HttpThreads.tn_sent c) (HttpThreads.tn_out c).
Proof.
  intros mixed hit ro e n w ls. induction ls as [|l ls IH] using rev_ind; intros s i c H Hi.
  { injection H as <-. unfold t_new in Hi. cbn [ts_conns] in Hi. by rewrite lookup_empty in Hi. }
  apply t_run_snoc in H as (s1 & H1 & Hl).
  destruct (tstep_added _ _ _ _ _ _ _ _ _ Hl Hi) as [[_ ->]|(c1 & Hc & Ha)]; [apply beginnings_nil|].
  eapply added_beginnings; [exact Ha|]. by eapply IH.
Qed.

(** A step of an HTTPS server with worker threads: nothing is written, or the session
    is in use and one text is written, with the result of the step or, when the number
    is not the connection's any more, in vain. *)
Definition s_effect (l : slab) (c c' : sconn) : Prop :=
  (sc_out c' = sc_out c /\ sc_sent c' = sc_sent c /\ (sc_sess c = Closed -> sc_sess c' = Closed)) \/
  (sc_sess c = Live /\ exists wr texts sent, (wr = WFail \/ write_result l = Some wr) /\
    wrote_as wr sent texts (bool_decide (sc_sess c' = Closed)) /\ sc_out c' = sc_out c ++ texts /\ sc_sent c' = sc_sent c ++ sent).

Lemma sclose_conns (b : bool) (s : ssys U) f : ss_conns (if b then sclose s f else s) = ss_conns s.
Proof. by destruct b. Qed.
Lemma sstep_effect hit ro e (s s' : ssys U) l i c' :
  s_step hit ro e s l = Some s' -> ss_conns s' !! i = Some c' ->
  (ss_conns s !! i = None /\ c' = sconn_new) \/ exists c, ss_conns s !! i = Some c /\ s_effect l c c'.
Proof.
  intros H Hi.
  assert (Hsame : ss_conns s' = ss_conns s -> (ss_conns s !! i = None /\ c' = sconn_new) \/ exists c, ss_conns s !! i = Some c /\ s_effect l c c').
  { intros E. rewrite E in Hi. right. exists c'. split; [done|]. by left. }
  assert (Hput : forall j d d', ss_conns s !! j = Some d -> ss_conns s' = <[j := d']> (ss_conns s) -> s_effect l d d' ->
    (ss_conns s !! i = None /\ c' = sconn_new) \/ exists c, ss_conns s !! i = Some c /\ s_effect l c c').
  { intros j d d' Hj E Ha. rewrite E in Hi. destruct (decide (j = i)) as [<-|Hn].
    - rewrite lookup_insert in Hi. injection Hi as <-. right. by exists d.
    - rewrite lookup_insert_ne in Hi by done. right. exists c'. split; [done|]. by left. }
  assert (Hcall : forall wr more w f j d, write_result l = Some wr -> ss_conns s !! j = Some d -> sc_sess d = Live ->
    s_call hit ro e wr more s w f j d = Some s' ->
    (ss_conns s !! i = None /\ c' = sconn_new) \/ exists c, ss_conns s !! i = Some c /\ s_effect l c c').
  { intros wr more w f j d Hwr Hj Hlive Hc. unfold s_call in Hc.
    destruct (handle_read_tls _ _ _ _ _ _) as [[v t]| | | | |] eqn:Ev; try (injection Hc as <-; by apply Hsame).
    - injection Hc as <-. rewrite sclose_conns in *. eapply Hput; [done|cbn [ss_conns]; reflexivity|]. right. split; [done|].
      exists (if bool_decide (ss_fds s !! f = Some j) then wr else WFail). do 2 eexists. split; [|split; [|done]].
      + destruct (bool_decide _); [by right|by left].
      + apply read_tls_wrote in Ev. cbn [sc_sess]. destruct (sv_closed v); [rewrite (bool_decide_eq_true_2 (Closed = Closed)) by done; exact Ev|].
        rewrite Hlive. rewrite (bool_decide_eq_false_2 (Live = Closed)) by done. exact Ev.
    - destruct (decide _); [done|]. injection Hc as <-. eapply Hput; [done|done|by left]. }
  unfold s_step in H. destruct (ss_down s); [done|].
  destruct l as [j f|j g|j bs|j|w|w wr|w wr].
  - destruct (decide (_ ∧ _)) as [[Hj _]|]; [|done]. injection H as <-. cbn [ss_conns] in Hi.
    apply lookup_insert_Some in Hi as [[<- <-]|[_ Hm]]; [by left|]. right. exists c'. split; [done|]. by left.
  - destruct (ss_conns s !! j) as [d|] eqn:Ej; [|done]. cbn [mbind option_bind] in H. destruct (decide _); [|done].
    injection H as <-. eapply Hput; [done|done|by left].
  - destruct (ss_conns s !! j) as [d|] eqn:Ej; [|done]. cbn [mbind option_bind] in H. destruct (decide _); [|done].
    injection H as <-. eapply Hput; [done|done|by left].
  - destruct (ss_conns s !! j) as [d|] eqn:Ej; [|done]. injection H as <-. eapply Hput; [done|done|by left].
  - destruct (ss_workers s !! w) as [[]|]; try done. destruct (ss_queue s) as [|k q]; [done|]. injection H as <-. by apply Hsame.
  - destruct (ss_workers s !! w) as [x|]; [|done]. cbn [mbind option_bind] in H. destruct x as [|f|f|f|f j|f]; cbn [s_go] in H; [done|..].
    + destruct (ss_fds s !! f) as [j|]; [|injection H as <-; by apply Hsame].
      destruct (ss_conns s !! j) as [d|] eqn:Ej; [|done]. cbn [mbind option_bind] in H.
      destruct (sc_sess d) eqn:Es.
      2-4: destruct (_ || _); [|done]; injection H as <-; by apply Hsame.
      destruct (sc_hello d) as [[]|]; [|injection H as <-; by apply Hsame|destruct (sc_fin d); [|done]; injection H as <-; by apply Hsame].
      injection H as <-. eapply Hput; [done|done|]. left. split; [done|]. split; [done|]. by rewrite Es.
    + destruct (ss_fds s !! f) as [j|]; [|injection H as <-; by apply Hsame].
      destruct (ss_conns s !! j) as [d|] eqn:Ej; [|done]. cbn [mbind option_bind] in H.
      destruct (raw d); [injection H as <-; by apply Hsame|]. destruct (sc_fin d); [|done]. injection H as <-. by apply Hsame.
    + destruct (ss_map s !! f) as [j|]; [|injection H as <-; by apply Hsame].
      destruct (ss_conns s !! j) as [d|] eqn:Ej; [|done]. cbn [mbind option_bind] in H.
      destruct (sc_sess d) eqn:Es; try (injection H as <-; by apply Hsame).
      destruct (inside s w j); [injection H as <-; by apply Hsame|]. by eapply Hcall.
    + destruct (ss_conns s !! j) as [d|] eqn:Ej; [|done]. cbn [mbind option_bind] in H.
      destruct (decide (sc_sess d = Live)) as [Es|]; [by eapply Hcall|]. injection H as <-. by apply Hsame.
    + destruct (ss_map s !! f) as [j|]; [|injection H as <-; by apply Hsame].
      destruct (ss_conns s !! j) as [d|] eqn:Ej; [|done]. cbn [mbind option_bind] in H. injection H as <-.
      eapply Hput; [done|done|]. left. destruct (decide (sc_sess d = Live)) as [Es|]; [|done].
      split; [done|]. split; [done|]. by rewrite Es.
  - destruct (ss_workers s !! w) as [x|]; [|done]. cbn [mbind option_bind] in H. destruct x as [|f|f|f|f j|f]; cbn [s_time] in H; try done;
      try (injection H as <-; by apply Hsame).
    destruct (ss_conns s !! j) as [d|] eqn:Ej; [|done]. cbn [mbind option_bind] in H.
    destruct (decide (sc_sess d = Live)) as [Es|]; [by eapply Hcall|]. injection H as <-. by apply Hsame.
Qed.

(** An HTTPS server with worker threads. *)
Theorem https_threads_peers_get_beginnings : forall hit ro e n w ls s i c,
  s_run hit ro e (s_new n w) ls = Some s -> ss_conns s !! i = Some c -> beginnings (sc_sent c) (sc_out c).
Proof.
  intros hit ro e n w ls. induction ls as [|l ls IH] using rev_ind; intros s i c H Hi.
  { injection H as <-. unfold s_new in Hi. cbn [ss_conns] in Hi. by rewrite lookup_empty in Hi. }
  apply s_run_snoc in H as (s1 & H1 & Hl).
  destruct (sstep_effect _ _ _ _ _ _ _ _ Hl Hi) as [[_ ->]|(c1 & Hc & Ha)]; [apply beginnings_nil|].
  specialize (IH _ _ _ H1 Hc). destruct Ha as [(-> & -> & _)|(_ & wr & texts & sent & _ & Hw & -> & ->)]; [done|].
  apply beginnings_app; [done|]. by eapply wrote_beginnings.
Qed.

(** ** C222 *)

(** SSL_write takes a text of at most [n] bytes as a whole, or fails, or the process
    is ended by a signal. *)
Definition takes_all (n : nat) (wr : wres) : Prop := forall k, wr = WTake k -> n <= k.
Definition xtakes_all (n : nat) (l : xlab) : Prop :=
  match l with XServe _ _ wr | XResume _ wr | XTimeout _ wr => takes_all n wr | _ => True end.
Definition stakes_all (n : nat) (l : slab) : Prop := forall wr, write_result l = Some wr -> takes_all n wr.

Lemma wrote_whole n wr sent texts cl : takes_all n wr -> wrote_as wr sent texts cl -> Forall (fun t => length t <= n) texts ->
  sent = concat texts \/ cl = true /\ exists t, texts = [t] /\ sent = [].
Proof.
  intros Hk [[-> ->]|(t & -> & H)] Hn; [by left|]. destruct wr as [k| |]; [|destruct H as [-> ->]; right; by eauto|done].
  left. subst. cbn. rewrite app_nil_r. apply take_ge. apply Forall_cons in Hn as [Hn _]. specialize (Hk k eq_refl). lia.
Qed.
Lemma whole_next n wr o b texts sent cl : takes_all n wr -> wrote_as wr sent texts cl -> Forall (fun t => length t <= n) texts ->
  b = concat o -> b ++ sent = concat (o ++ texts) \/ cl = true /\ all_but_last (b ++ sent) (o ++ texts).
Proof.
  intros Hk Hw Hn ->. destruct (wrote_whole n wr sent texts cl Hk Hw Hn) as [->|[-> (t & -> & ->)]].
  - left. by rewrite concat_app.
  - right. split; [done|]. exists o, t. by rewrite app_nil_r.
Qed.

(** Over TLS a peer gets whole answers only: all that were written, or all but the
    last, and then the connection is closed. *)
Theorem https_whole_answers : forall hit ro e w ls s i c n,
  xrun hit ro e (xsys_new w) ls = Some s -> xs_conns s !! i = Some c ->
  Forall (xtakes_all n) ls -> Forall (fun text => length text <= n) (tn_out c) ->
  tn_sent c = concat (tn_out c) \/ tn_open c = false /\ all_but_last (tn_sent c) (tn_out c).
Proof.
  intros hit ro e w ls s i c n H Hi Ht Ho.
  enough (Hg : (xs_thr s = XIn i -> tn_open c = true) /\
    (tn_sent c = concat (tn_out c) \/ tn_open c = false /\ all_but_last (tn_sent c) (tn_out c))) by apply Hg.
  revert s i c H Hi Ht Ho. induction ls as [|l ls IH] using rev_ind; intros s i c H Hi Ht Ho.
  { injection H as <-. unfold xsys_new in Hi. cbn [xs_conns] in Hi. by rewrite lookup_empty in Hi. }
  apply xrun_snoc in H as (s1 & H1 & Hl). apply Forall_app in Ht as [Ht Htl]. apply Forall_cons in Htl as [Htl _].
  assert (Hre : forall wr m j c1, takes_all n wr -> xs_conns s1 !! j = Some c1 -> (xs_thr s1 = XIn j \/ tn_open c1 = true) ->
    s = xread hit ro e wr m j c1 s1 -> (xs_thr s = XIn i -> tn_open c = true) /\
    (tn_sent c = concat (tn_out c) \/ tn_open c = false /\ all_but_last (tn_sent c) (tn_out c))).
  { intros wr m j c1 Hk H0 Hop ->. destruct (decide (j = i)) as [<-|Hn].
    - unfold xread in *.
      destruct (handle_read_tls _ _ _ _ _ _) as [[v t]| | | | |] eqn:Ev; cbn [xs_conns xs_thr] in *;
        try (rewrite H0 in Hi; injection Hi as <-; destruct (IH _ _ _ H1 H0 Ht Ho) as [A B];
             split; [|done]; intros; destruct Hop; [by apply A|done]).
      rewrite lookup_insert in Hi. injection Hi as <-. cbn [tn_out tn_sent tn_open] in *. split; [done|].
      apply Forall_app in Ho as [Ho1 Ho2]. destruct (IH _ _ _ H1 H0 Ht Ho1) as [A B].
      assert (Hb : tn_sent c1 = concat (tn_out c1)).
      { destruct B as [B|[B _]]; [done|]. destruct Hop as [Hop|Hop]; [apply A in Hop|]; congruence. }
      destruct (whole_next n wr _ _ _ _ _ Hk (read_tls_wrote _ _ _ _ _ _ _ _ Ev) Ho2 Hb) as [E|[E1 E2]]; [by left|right].
      by rewrite E1.
    - rewrite xread_other in Hi by done. destruct (IH _ _ _ H1 Hi Ht Ho) as [A B]. split; [|done].
      intros E. by apply xread_thr_other in E. }
  assert (Hw : forall t j c1 c2, xs_conns s1 !! j = Some c1 -> s = xwith s1 t j c2 -> (forall a, t = XIn a -> t = xs_thr s1 /\ tn_open c2 = tn_open c1) ->
    tn_out c2 = tn_out c1 -> tn_sent c2 = tn_sent c1 -> (tn_open c1 = false -> tn_open c2 = false) ->
    (xs_thr s = XIn i -> tn_open c = true) /\
    (tn_sent c = concat (tn_out c) \/ tn_open c = false /\ all_but_last (tn_sent c) (tn_out c))).
  { intros t j c1 c2 H0 -> Hx E1 E2 E3. cbn in Hi. destruct (decide (j = i)) as [<-|Hn].
    - rewrite lookup_insert in Hi. injection Hi as <-. rewrite E1 in Ho. destruct (IH _ _ _ H1 H0 Ht Ho) as [A B].
      cbn. split. { intros ->. destruct (Hx j eq_refl) as [Hx1 ->]. by apply A. }
      rewrite E1, E2. destruct B as [B|[B1 B2]]; [by left|right]. split; [by apply E3|done].
    - rewrite lookup_insert_ne in Hi by done. destruct (IH _ _ _ H1 Hi Ht Ho) as [A B]. split; [|done]. cbn. intros ->.
      destruct (Hx i eq_refl) as [Hx1 _]. by apply A. }
  apply xstep_cases in Hl. destruct l as [j|j g|j bs|j|j|j lv wr|j wr|j wr]; cbn [xabout xtakes_all] in *.
  - destruct Hl as (_ & Hn & ->). cbn in Hi. apply lookup_insert_Some in Hi as [[<- <-]|[_ Hi]]; [split; [done|by left]|].
    destruct (IH _ _ _ H1 Hi Ht Ho) as [A B]. by split.
  - destruct Hl as (c1 & Hc & _ & _ & _ & Hs). by eapply Hw.
  - destruct Hl as (c1 & Hc & _ & _ & _ & Hs). by eapply Hw.
  - destruct Hl as (c1 & Hc & _ & Hs). by eapply Hw.
  - destruct Hl as (c1 & Hc & _ & [[_ Hs]|[_ Hs]]); by eapply Hw.
  - destruct Hl as (c1 & Hc & _ & Hop & _ & Hs). destruct lv; [destruct Hs as [_ Hs]; by eapply Hw|]. eapply Hre; [done|done|by right|done].
  - destruct Hl as (c1 & Hc & Hx & Hs & _). eapply Hre; [done|done|by left|done].
  - destruct Hl as (c1 & Hc & [[_ Hs]|[Hx Hs]]); [by eapply Hw|]. eapply Hre; [done|done|by left|done].
Qed.

(** With worker threads as well. *)
Theorem https_threads_whole_answers : forall hit ro e m w ls s i c n,
  s_run hit ro e (s_new m w) ls = Some s -> ss_conns s !! i = Some c ->
  Forall (stakes_all n) ls -> Forall (fun text => length text <= n) (sc_out c) ->
  sc_sent c = concat (sc_out c) \/ sc_sess c = Closed /\ all_but_last (sc_sent c) (sc_out c).
Proof.
  intros hit ro e m w ls. induction ls as [|l ls IH] using rev_ind; intros s i c n H Hi Ht Ho.
  { injection H as <-. unfold s_new in Hi. cbn [ss_conns] in Hi. by rewrite lookup_empty in Hi. }
  apply s_run_snoc in H as (s1 & H1 & Hl). apply Forall_app in Ht as [Ht Htl]. apply Forall_cons in Htl as [Htl _].
  destruct (sstep_effect _ _ _ _ _ _ _ _ Hl Hi) as [[_ ->]|(c1 & Hc & Ha)]; [by left|].
  destruct Ha as [(E1 & E2 & E3)|(Es & wr & texts & sent & Hwr & Hw & E1 & E2)]; rewrite E1 in *; rewrite E2.
  - destruct (IH _ _ _ _ H1 Hc Ht Ho) as [B|[B1 B2]]; [by left|right]. by split; [apply E3|].
  - apply Forall_app in Ho as [Ho1 Ho2]. destruct (IH _ _ _ _ H1 Hc Ht Ho1) as [B|[B1 _]]; [|congruence].
    assert (Hk : takes_all n wr) by (destruct Hwr as [->|Hwr]; [done|by apply Htl]).
    destruct (whole_next n wr _ _ _ _ _ Hk Hw Ho2 B) as [E|[E3 E4]]; [by left|right]. split; [|done].
    by apply bool_decide_eq_true in E3.
Qed.
End calls.
Print Assumptions peers_get_beginnings.
Print Assumptions https_peers_get_beginnings.
Print Assumptions threads_peers_get_beginnings.
Print Assumptions https_threads_peers_get_beginnings.
Print Assumptions https_whole_answers.
Print Assumptions https_threads_whole_answers.

(** ** Examples *)

(** send(2) takes 5 bytes of the first answer and all of the second. *)
Definition torn : list hlab :=
  [HttpSystem.LOpen 0; HttpSystem.LSend 0 (hi ++ yo); LServe 0 false (WTake 5); LServe 0 false (WTake 99)].
Definition torn_conn : hconn :=
  HConn [] false true [ok_text (B "hi"); ok_text (B "yo")] (take 5 (ok_text (B "hi")) ++ ok_text (B "yo")).
Lemma torn_run : sys_run map_to_list echo_ro [] (sys_new wn) torn = Some (HSys (wn2 2) TFree (list_to_map [(0, torn_conn)])).
Proof. apply run_to. by vm_compute. Qed.
Example peers_get_beginnings_ex : beginnings (hn_sent torn_conn) [ok_text (B "hi"); ok_text (B "yo")].
Proof. exact (peers_get_beginnings map_to_list echo_ro [] wn torn _ 0 torn_conn torn_run ltac:(by vm_compute)). Qed.
(** The bytes do not decide where one answer ends: a part of the first is followed by
    the second.  Only whole texts in other places are ruled out. *)
Example beginnings_not : ~ beginnings (ok_text (B "yo") ++ ok_text (B "hi")) [ok_text (B "hi"); ok_text (B "yo")].
Proof.
  intros (parts & E & H). apply Forall2_cons_inv_r in H as (p1 & q1 & Hp1 & H & ->).
  apply Forall2_cons_inv_r in H as (p2 & q2 & Hp2 & H & ->). apply Forall2_nil_inv_r in H as ->.
  cbn [concat] in E. rewrite app_nil_r in E.
  assert (L : length (p1 ++ p2) = length (ok_text (B "hi")) + length (ok_text (B "yo"))).
  { rewrite <- E, app_length. vm_compute. reflexivity. }
  rewrite app_length in L. pose proof (prefix_length _ _ Hp1). pose proof (prefix_length _ _ Hp2).
  assert (p1 = ok_text (B "hi")) as -> by (apply prefix_same_length; [done|lia]).
  assert (p2 = ok_text (B "yo")) as -> by (apply prefix_same_length; [done|lia]).
  vm_compute in E. discriminate E.
Qed.

(** The second write fails. *)
Definition xfailing : list xlab :=
  [XOpen 0; XHello 0 true; XShake 0; XSend 0 hi; XSend 0 yo; XServe 0 false (WTake 99); XServe 0 false WFail].
Definition xfailing_conn : tconn :=
  TConn [] [] false (Some true) true false [ok_text (B "hi"); ok_text (B "yo")] (ok_text (B "hi")).
Lemma xfailing_run : xrun map_to_list echo_ro [] (xsys_new wn) xfailing = Some (XSys (wn2 2) XFree (list_to_map [(0, xfailing_conn)])).
Proof. apply xrun_to. by vm_compute. Qed.
Example https_whole_answers_ex : tn_sent xfailing_conn = concat (tn_out xfailing_conn) \/
  tn_open xfailing_conn = false /\ all_but_last (tn_sent xfailing_conn) (tn_out xfailing_conn).
Proof.
  refine (https_whole_answers map_to_list echo_ro [] wn xfailing _ 0 xfailing_conn 50 xfailing_run ltac:(by vm_compute) _ _).
  - repeat constructor; intros k E; try discriminate E; injection E as <-; lia.
  - constructor; [vm_compute; lia|]. constructor; [vm_compute; lia|constructor].
Qed.
Example https_peers_get_beginnings_ex : beginnings (tn_sent xfailing_conn) (tn_out xfailing_conn).
Proof. exact (https_peers_get_beginnings map_to_list echo_ro [] wn xfailing _ 0 xfailing_conn xfailing_run ltac:(by vm_compute)). Qed.

(** Worker threads: two requests, the answer to the second fails. *)
Definition sfailing : list slab :=
  [LAccept 0 5; LHello 0 true; LPop 0; G 0; LSend 0 hi; G 0; G 0; LSend 0 yo; G 0; LGo 0 WFail].
Definition sfailing_conn : sconn := SConn [] [] 0 false (Some true) Closed [ok_text (B "hi"); ok_text (B "yo")] (ok_text (B "hi")).
Lemma sfailing_end : exists s, s_run map_to_list echo_ro [] (s_new 2 wn) sfailing = Some s /\
  view 0 s = (Some sfailing_conn, [], [SPeek 5; SFree], false, []).
Proof. apply s_run_view. by vm_compute. Qed.
Example https_threads_whole_answers_ex : sc_sent sfailing_conn = concat (sc_out sfailing_conn) \/
  sc_sess sfailing_conn = Closed /\ all_but_last (sc_sent sfailing_conn) (sc_out sfailing_conn).
Proof.
  destruct sfailing_end as (s & Hrun & [= Hc Hq Hw Hd Hf]).
  refine (https_threads_whole_answers map_to_list echo_ro [] 2 wn sfailing s 0 sfailing_conn 50 Hrun Hc _ _); clear Hrun.
  - repeat constructor; intros wr E; try discriminate E; injection E as <-; intros k E; try discriminate E; injection E as <-; lia.
  - constructor; [vm_compute; lia|]. constructor; [vm_compute; lia|constructor].
Qed.
Example https_threads_peers_get_beginnings_ex : beginnings (sc_sent sfailing_conn) (sc_out sfailing_conn).
Proof.
  destruct sfailing_end as (s & Hrun & [= Hc Hq Hw Hd Hf]).
  exact (https_threads_peers_get_beginnings map_to_list echo_ro [] 2 wn sfailing s 0 sfailing_conn Hrun Hc).
Qed.

(** Worker threads without TLS: send(2) takes 5 bytes. *)
Fixpoint recvs (w n : nat) : list tlab := match n with 0 => [] | S n' => TRecv w :: recvs w n' end.
Definition ttorn : list tlab :=
  [TAccept 0 5 true; TPop 0; TSend 0 hi; TRecv 0] ++ recvs 0 52 ++ [TRun 0 (WTake 5)].
Example threads_peers_get_beginnings_ex : exists s c, t_run false map_to_list echo_ro [] (t_new 2 wn) ttorn = Some s /\
  ts_conns s !! 0 = Some c /\ HttpThreads.tn_sent c = take 5 (ok_text (B "hi")) /\ beginnings (HttpThreads.tn_sent c) (HttpThreads.tn_out c).
Proof.
  assert (H : exists s, t_run false map_to_list echo_ro [] (t_new 2 wn) ttorn = Some s /\
    ts_conns s !! 0 = Some (HttpThreads.TConn [] false [ok_text (B "hi")] (take 5 (ok_text (B "hi"))))).
  { apply (HttpThreadsProps.t_run_view false map_to_list echo_ro [] (t_new 2 wn) ttorn (fun s => ts_conns s !! 0)). by vm_compute. }
  destruct H as (s & Hrun & Hc). eexists s, _. split; [exact Hrun|]. split; [exact Hc|]. split; [reflexivity|].
  exact (threads_peers_get_beginnings false map_to_list echo_ro [] 2 wn ttorn s 0 _ Hrun Hc).
Qed.
