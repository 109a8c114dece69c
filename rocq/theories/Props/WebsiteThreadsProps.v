(** C202-C204: the routes of the configurable web server (demo/web-server/main.cpp, lines
    68-110) on a server with worker threads (TcpServer in mode kMultiThread) and its
    visitors. *)
From Verif.Lib Require Import CxxStringFacts.
From Verif.Model Require Import WebServer.
From Verif.Proof Require Import ReqProof RespProof RouterProof ServerProof HttpSystemProof HttpThreadsProof PrivacyProof StrangerProof.
From Verif.Spec Require Import StringSpec.
From Verif.Props Require Import MessageProps RouterProps StaticProps WebServerProps ServerProps HttpSystemProps HttpThreadsProps ClientProps ClientServerProps
  WebsiteProps ClientThreadsProps.
From Verif.Model Require Import ClientThreads.
Import WebsiteProps.

(** ** Statements (see WebsiteProps.v for [visit], [site], [shows] and [site_fails]) *)

(** Visits; the server's write to a visitor takes [M] bytes; strangers [X] do what they
    like, and the receive time-out ends only the waiting for them.  The number that the
    connection of a visitor gets is not in use by a thread or a task. *)
Definition thr_visitor {U} (X : nat -> Prop) (M : nat) (f : fs) (cfg : web_config) (s : xsys U) (l : xlab) : Prop :=
  match l with
  | XConnect i g => ~ X i /\ unused g (xs_srv s)
  | XCall _ hit rit q => valid_order hit /\ valid_order rit /\ visit M f cfg q
  | XServer (TRun w wr) =>
      big M wr \/ exists th g st, ts_workers (xs_srv s) !! w = Some (WRead th g st) /\ foreign X (xs_srv s) g
  | XServer (TTimeout _ i) | XOther (TAccept i _ _) | XOther (TSend i _) | XOther (TFin i) => X i
  | XOther _ => False
  | _ => True
  end.
Definition thr_carries_on {U} (X : nat -> Prop) (M : nat) (f : fs) (cfg : web_config) (s : xsys U) (l : xlab) : Prop :=
  thr_visitor X M f cfg s l /\ match l with XConnect _ _ | XClose _ | XCall _ _ _ _ | XOther _ => False | _ => True end.

(** ** Proofs *)

Section visits.
Context {U : Type} (M : nat) (f : fs) (cfg : web_config) (ro : router U).
Context (HM : (N.of_nat M < 2 ^ 31)%N).
Context (Ha : ascii_config cfg) (Ho : in_order (routes_of cfg)) (Hro : web_routes f cfg = Ok (Some ro)).

Lemma thr_visitor_fair X (s : xsys U) l : thr_visitor X M f cfg s l -> xfair_with X M (at_rest f) ro s l.
Proof. destruct l; cbn; try done. intros (H1 & H2 & H3). do 2 (split; [done|]). by apply (visit_good M f cfg ro). Qed.
Lemma thr_all_fair X hit e ls (s : xsys U) : xall (thr_visitor X M f cfg) hit ro e s ls -> xall (xfair_with X M (at_rest f) ro) hit ro e s ls.
Proof. apply xall_impl. intros s' l. apply thr_visitor_fair. Qed.

Lemma thr_calls_from X hit e ls : forall (s s' : xsys U),
  (forall i c q, xs_clients s !! i = Some c -> q ∈ cl_calls c -> visit M f cfg q) ->
  xall (thr_visitor X M f cfg) hit ro e s ls -> x_run false hit ro e s ls = Some s' ->
  forall i c q, xs_clients s' !! i = Some c -> q ∈ cl_calls c -> visit M f cfg q.
Proof.
  induction ls as [|l ls IH]; intros s s' Hs Hf H; cbn [x_run xall] in H, Hf; [by injection H as <-|].
  destruct (x_step false hit ro e s l) as [s1|] eqn:E; [|done]. cbn [mbind option_bind] in H. destruct Hf as [Hfl Hf].
  apply (IH s1 s'); [|done..]. clear IH H s' Hf ls.
  assert (Hup : forall (h : tsys U) i0 c0, (forall q, q ∈ cl_calls c0 -> visit M f cfg q) ->
    forall i c q, xs_clients (XSys h (<[i0 := c0]> (xs_clients s))) !! i = Some c -> q ∈ cl_calls c -> visit M f cfg q).
  { intros h i0 c0 H0 i c q Hi Hq. cbn [xs_clients] in Hi. apply lookup_insert_Some in Hi as [[-> <-]|[_ Hi]]; [by apply H0|]. by eapply Hs. }
  destruct l as [i g|i|i chit crit q|i n|l|i n|l]; cbn [x_step] in E.
  - destruct (t_step _ _ _ _ _ _); [|done]. injection E as <-. apply Hup. intros q Hq. by apply elem_of_nil in Hq.
  - destruct (xs_clients s !! i) as [c|] eqn:Hc; [|done]. cbn [mbind option_bind] in E. destruct (decide _); [|done].
    destruct (t_step _ _ _ _ _ _); [|done]. injection E as <-. exact Hs.
  - destruct (xs_clients s !! i) as [c|] eqn:Hc; [|done]. cbn [mbind option_bind] in E.
    destruct (ts_conns (xs_srv s) !! i) as [k|]; [|done]. cbn [mbind option_bind] in E. destruct (cl_now c); [done|]. destruct (tn_fin k); [done|].
    assert (Hq : forall q', q' ∈ cl_calls c ++ [q] -> visit M f cfg q').
    { intros q' Hq. apply elem_of_app in Hq as [Hq|Hq]; [by eapply Hs|]. apply elem_of_list_singleton in Hq as ->. apply Hfl. }
    destruct (req_build chit crit q []) as [[rc q'] msg]. destruct (rc =? kSuccess)%Z; injection E as <-; by apply Hup.
  - destruct (xs_clients s !! i) as [c|] eqn:Hc; [|done]. cbn [mbind option_bind] in E. destruct (decide _); [|done].
    destruct (t_step _ _ _ _ _ _); [|done]. injection E as <-. apply Hup. intros q Hq. by eapply Hs.
  - destruct l; try done; (destruct (t_step _ _ _ _ _ _); [|done]); injection E as <-; exact Hs.
  - destruct (xs_clients s !! i) as [c|] eqn:Hc; [|done]. cbn [mbind option_bind] in E.
    destruct (cl_now c) as [[[chit crit] q]|]; [|done]. cbn [mbind option_bind] in E.
    destruct (ts_conns (xs_srv s) !! i); [|done]. cbn [mbind option_bind] in E. cbv zeta in E.
    destruct (client_send _ _ _ _ _ _ _) as [[]| | | | |]; try done; injection E as <-; apply Hup; intros q' Hq; by eapply Hs.
  - destruct l; try done; (destruct (xs_clients s !! _); [done|]); (destruct (t_step _ _ _ _ _ _); [|done]); injection E as <-; exact Hs.
Qed.
End visits.

(** ** Theorems *)

(** C202: on worker threads too, whatever strangers send, every visitor sees what the
    configuration says. *)
Theorem threads_website : forall U X M f cfg (ro : router U) hit e m (w : world U) ls s,
  (N.of_nat M < 2 ^ 31)%N -> ascii_config cfg -> in_order (routes_of cfg) -> web_routes f cfg = Ok (Some ro) ->
  w_fs w = f -> w_custom w = ∅ -> valid_order hit ->
  xall (thr_visitor X M f cfg) hit ro e (x_new m w) ls -> x_run false hit ro e (x_new m w) ls = Some s ->
  forall i c j q o a, xs_clients s !! i = Some c -> cl_calls c !! j = Some q -> cl_done c !! j = Some o ->
    site f cfg (path_of_req q) (host_of_req q) a ->
    exists y, o = Ok y /\ st_rc y = kSuccess /\ shows a (st_resp y).
Proof.
  intros U X M f cfg ro hit e m w ls s HM Ha Ho Hro Hfs Hcu Hit Hv Hrun i c j q o a Hc Hq Hd Hsite.
  assert (Hw : at_rest f w) by done.
  pose proof (thr_all_fair M f cfg ro HM Ha Ho Hro X hit e ls _ Hv) as Hfair.
  destruct (threads_strangers_calls_are_serial U X M (at_rest f) ro hit e m w ls [] s s Hit Hw (site_keeps f cfg ro Hro) Hfair I Hrun eq_refl)
    as (log & log2 & _ & (Hser & Hcl & Hex) & _).
  pose proof (thr_calls_from M f cfg ro X hit e ls (x_new m w) s) as Hfrom.
  assert (Hcalls : forall i c q, xs_clients s !! i = Some c -> q ∈ cl_calls c -> visit M f cfg q).
  { apply Hfrom; [|done..]. intros i0 c0 q0 H0. cbn in H0. by rewrite lookup_empty in H0. }
  clear Hfrom.
  destruct (serial_at_rest f cfg ro Hro w _ _ Hser Hw) as [_ Hall].
  destruct (Hex _ _ Hc) as (_ & _ & HF1 & HF2).
  destruct (Forall2_lookup_l _ _ _ _ _ HF2 Hd) as (x & Hx & y & -> & Hrc & Hsame).
  exists y. do 2 (split; [done|]).
  apply lookup_take_Some in Hx as [Hx _].
  destruct (Forall2_lookup_r _ _ _ _ _ HF1 Hx) as (q' & Hq' & Hsq). apply lookup_take_Some in Hq' as [Hq' _].
  rewrite Hq in Hq'. injection Hq' as <-.
  assert (Hx' : x ∈ log ++ log2). { apply elem_of_list_lookup_2 in Hx. by apply elem_of_list_filter in Hx as [_ Hx]. }
  destruct (Hall x Hx') as (w1 & w2 & c' & Hw1 & Hdi & Hre).
  assert (Hvq : visit M f cfg q). { eapply Hcalls; [exact Hc|]. by eapply elem_of_list_lookup_2. }
  destruct (visit_dispatch M f cfg ro Ha Ho Hro q x.1.2 a w1 Hvq Hsq Hw1 Hsite) as (c2 & w3 & H1 & _ & H3).
  rewrite Hdi in H1. injection H1 as <- _. rewrite <- Hre in H3. by eapply shows_answer.
Qed.

(** C203: if there are not more visitors than threads at a time, no visitor waits for ever
    among strangers that go silent, as long as the server runs. *)
Theorem threads_website_returns : forall U X M f cfg (ro : router U) hit e m (w : world U) ls s,
  (N.of_nat M < 2 ^ 31)%N -> ascii_config cfg -> in_order (routes_of cfg) -> web_routes f cfg = Ok (Some ro) ->
  w_fs w = f -> w_custom w = ∅ -> valid_order hit ->
  xall (thr_visitor X M f cfg) hit ro e (x_new m w) ls -> x_run false hit ro e (x_new m w) ls = Some s ->
  (exists n, forall ls' s', xall (thr_carries_on X M f cfg) hit ro e s ls' -> x_run false hit ro e s ls' = Some s' -> length ls' <= n) /\
  ((forall l, thr_carries_on X M f cfg s l -> x_step false hit ro e s l = None) -> ts_down (xs_srv s) = false -> present s <= m ->
   forall i c, xs_clients s !! i = Some c -> cl_now c = None /\ length (cl_done c) = length (cl_calls c)).
Proof.
  intros U X M f cfg ro hit e m w ls s HM Ha Ho Hro Hfs Hcu Hit Hv Hrun.
  pose proof (thr_all_fair M f cfg ro HM Ha Ho Hro X hit e ls _ Hv) as Hfair.
  destruct (threads_strangers_every_call_returns U X M (at_rest f) ro hit e m w ls s Hit (conj Hfs Hcu) (site_keeps f cfg ro Hro) Hfair Hrun) as [(n & Hn) Hst].
  split.
  - exists n. intros ls' s' Hg Hr. apply (Hn ls' s'); [|done]. revert Hg. apply xall_impl.
    intros s1 l [Hl1 Hl2]. split; [by apply (thr_visitor_fair M f cfg ro)|done].
  - intros Hs Hd Hm.
    assert (Hn' : forall l, xgoes_on_with X M (at_rest f) ro s l -> x_step false hit ro e s l = None).
    { intros l [Hl1 Hl2]. apply Hs. split; [|done]. by destruct l. }
    intros i c Hc. by destruct (Hst Hn' Hd Hm i c Hc) as (H1 & H2 & _).
Qed.

(** C204: only strangers stop the process: with a byte that makes ReadUntil or the parser
    throw, with SIGPIPE, or with a request about whose file stat(2) fails. *)
Definition site_stops {U} (X : nat -> Prop) (f : fs) (cfg : web_config) (s : xsys U) (l : xlab) : Prop := exists w th g st,
  ts_workers (xs_srv s) !! w = Some (WRead th g st) /\ foreign X (xs_srv s) g /\
  ((exists i k c rest buf, l = XServer (TRecv w) /\ conn_of (xs_srv s) g = Some (i, k) /\ X i /\ st = RHead buf /\ tn_in k = c :: rest /\
      (~ short (buf ++ [c]) \/ c = LF /\ length buf < 3)) \/
   (exists wr, l = XServer (TRun w wr) /\
      (wr = WSig /\ (exists i, X i /\ ts_fds (xs_srv s) !! g = Some i) \/
       exists r, st = RRun r /\ (site_fails f cfg r \/ ~ short (path_of_req r))))).
Theorem what_stops_the_threads_website : forall U X M f cfg (ro : router U) hit e m (w : world U) ls s,
  (N.of_nat M < 2 ^ 31)%N -> ascii_config cfg -> in_order (routes_of cfg) -> web_routes f cfg = Ok (Some ro) ->
  Forall (fun it => short (si_path it)) (wc_statics cfg) ->
  w_fs w = f -> w_custom w = ∅ -> valid_order hit ->
  xall (thr_visitor X M f cfg) hit ro e (x_new m w) ls -> x_run false hit ro e (x_new m w) ls = Some s -> ts_down (xs_srv s) = true ->
  exists ls1 l ls2 s1, ls = ls1 ++ l :: ls2 /\ x_run false hit ro e (x_new m w) ls1 = Some s1 /\ ts_down (xs_srv s1) = false /\
    site_stops X f cfg s1 l.
Proof.
  intros U X M f cfg ro hit e m w ls s HM Ha Ho Hro Hsh Hfs Hcu Hit Hv Hrun Hd.
  pose proof (thr_all_fair M f cfg ro HM Ha Ho Hro X hit e ls _ Hv) as Hfair.
  destruct (only_strangers_stop_the_threads U X M (at_rest f) ro hit e m w ls s Hit (conj Hfs Hcu) (site_keeps f cfg ro Hro) Hfair Hrun Hd)
    as (ls1 & l & ls2 & s1 & E & R1 & Hup & (wk & th & g & st & Hw & Hfo & Hwhy)).
  exists ls1, l, ls2, s1. do 3 (split; [done|]). exists wk, th, g, st. do 2 (split; [done|]).
  destruct Hwhy as [?|(wr & -> & Hwhy)]; [by left|]. right. exists wr. split; [done|].
  destruct Hwhy as [?|(r & -> & Hfail)]; [by left|]. right. exists r. split; [done|].
  destruct (decide (short (path_of_req r))) as [Hsr|]; [left|by right].
  assert (Hw1 : at_rest f (ts_world (xs_srv s1))).
  { assert (Hf1 : xall (xfair_with X M (at_rest f) ro) hit ro e (x_new m w) ls1).
    { clear -E Hfair. rewrite E in Hfair. clear E. revert Hfair. generalize (x_new m w). induction ls1 as [|l1 ls1 IH]; intros s0; [done|]. cbn [xall app].
      destruct (x_step _ _ _ _ _ _); [|done]. intros [H1 H2]. split; [done|by apply IH]. }
    destruct (threads_strangers_calls_are_serial U X M (at_rest f) ro hit e m w ls1 [] s1 s1 Hit (conj Hfs Hcu) (site_keeps f cfg ro Hro) Hf1 I R1 eq_refl)
      as (log & _ & (Hser & _) & _). by destruct (serial_at_rest f cfg ro Hro w _ _ Hser (conj Hfs Hcu)). }
  by apply (site_takes f cfg ro Ha Ho Hro _ _ Hsh Hw1) in Hfail.
Qed.

(** ** Examples *)

(** The labels for which [thr_visitor] does not depend on the state, but for numbers. *)
Definition thr_visitor_but (X : nat -> Prop) (M : nat) (f : fs) (cfg : web_config) (l : xlab) : Prop :=
  match l with
  | XConnect i _ => ~ X i
  | XServer (TRun _ wr) => big M wr
  | XCall _ hit rit q => valid_order hit /\ valid_order rit /\ visit M f cfg q
  | XServer (TTimeout _ i) | XOther (TAccept i _ _) | XOther (TSend i _) | XOther (TFin i) => X i
  | XOther _ => False
  | _ => True
  end.
Lemma visitor_but {U} X M f cfg (ro : router U) hit e ls : Forall (thr_visitor_but X M f cfg) ls -> forall s, numbers_ok hit ro e s ls = true ->
  xall (thr_visitor X M f cfg) hit ro e s ls.
Proof.
  induction ls as [|l ls IH]; intros Hf s Hn; [done|]. apply Forall_cons in Hf as [Hl Hf]. cbn [xall numbers_ok] in *.
  apply andb_true_iff in Hn as [Hn1 Hn2]. destruct (x_step _ _ _ _ _ _) as [s'|]; [|done]. split; [|by apply IH].
  destruct l as [i g|i|i chit crit q|i m|[]|i m|l]; try done; [|by left]. split; [done|]. by apply unused_by.
Qed.

(** The small site of WebsiteProps.v and two threads.  7 sends half a request and is
    silent; the thread that waited for them serves visitor 1 after the time-out. *)
Definition thr_visits1 : list xlab :=
  [XOther (TAccept 7 6 true); XServer (TPop 0); XOther (TSend 7 (B "GET /"))] ++ recvs 0 6 ++
  [XConnect 0 5; XConnect 1 8;
   XCall 0 map_to_list map_to_list (get_page "localhost" "/");
   XCall 1 map_to_list map_to_list (get_page "localhost" "/about"); XFlow 1 59; XServer (TPop 1); XFlow 0 54] ++ recvs 1 55.
Definition thr_visits2 : list xlab :=
  [XServer (TRun 1 (WTake 400)); XReturn 0 400; XServer (TTimeout 0 7); XServer (TRun 0 (WTake 400)); XServer (TRecv 0); XServer (TPop 0)] ++
  recvs 0 60 ++ [XServer (TRun 0 (WTake 400)); XReturn 1 400].

Lemma thr_visits_fair : Forall (thr_visitor_but peers 400 shipped_files small_site) thr_visits1 /\
  forall s : xsys unit, Forall (thr_carries_on peers 400 shipped_files small_site s) thr_visits2.
Proof.
  assert (V1 : visit 400 shipped_files small_site (get_page "localhost" "/")) by page_at site_front.
  assert (V2 : visit 400 shipped_files small_site (get_page "localhost" "/about")) by page_at site_about.
  assert (Hbig : big 400 (WTake 400)) by (by exists 400).
  unfold thr_visits1, thr_visits2, thr_carries_on, peers, recvs. cbn [repeat app]. split; [|intros s]; repeat (apply Forall_cons_2; [cbn [thr_visitor thr_visitor_but]|]); try apply Forall_nil_2;
    try (split; [|exact I]);
    first [exact I|lia|exact Hbig|(left; exact Hbig)|(split; [apply valid_order_sorted|]; split; [apply valid_order_sorted|]; first [exact V1|exact V2])].
Qed.
Definition thr_told {U} (s : xsys U) : list (nat * list (option (status_code * bytes))) :=
  map (fun x => (x.1, map (fun o => match o with Ok y => Some (rs_status (st_resp y), rs_body (st_resp y)) | _ => None end) (cl_done x.2)))
    (map_to_list (xs_clients s)).
Definition thr_new : xsys unit := x_new 2 (quiet shipped_files).
Notation thr_ro := (router_of shipped_files small_site).
Lemma thr_numbers1 : numbers_ok map_to_list thr_ro [] thr_new thr_visits1 = true.
Proof. by vm_compute. Qed.
Lemma thr_visits_run : exists s1 s2,
  x_run false map_to_list thr_ro [] thr_new thr_visits1 = Some s1 /\ present s1 = 2 /\ ts_down (xs_srv s1) = false /\
  x_run false map_to_list thr_ro [] s1 thr_visits2 = Some s2 /\
  thr_told s2 = [(0, [Some (sFOUND, front_text)]); (1, [Some (sOK, B "<h1>index</h1>")])].
Proof.
  assert (H : match x_run false map_to_list thr_ro [] thr_new thr_visits1 with
    | Some s1 => match x_run false map_to_list thr_ro [] s1 thr_visits2 with Some s2 => Some (present s1, ts_down (xs_srv s1), thr_told s2) | None => None end
    | None => None end = Some (2, false, [(0, [Some (sFOUND, front_text)]); (1, [Some (sOK, B "<h1>index</h1>")])])) by (by vm_compute).
  destruct (x_run false map_to_list thr_ro [] thr_new thr_visits1) as [s1|]; [|discriminate].
  destruct (x_run false map_to_list thr_ro [] s1 thr_visits2) as [s2|] eqn:E; [|discriminate].
  exists s1, s2. apply Some_inj in H.
  assert (H1 := f_equal (fun x => x.1.1) H). assert (H2 := f_equal (fun x => x.1.2) H). assert (H3 := f_equal snd H).
  cbn [fst snd] in *. clear H. exact (conj eq_refl (conj H1 (conj H2 (conj E H3)))).
Qed.
Lemma xall_app {U} (P : xsys U -> xlab -> Prop) hit ro e l1 l2 : forall s s1, xall P hit ro e s l1 -> x_run false hit ro e s l1 = Some s1 ->
  xall P hit ro e s1 l2 -> xall P hit ro e s (l1 ++ l2).
Proof.
  induction l1 as [|l l1 IH]; intros s s1 H1 R1 H2; cbn [x_run] in R1; [injection R1 as ->; exact H2|]. cbn [xall app] in *.
  destruct (x_step _ _ _ _ _ _) as [s'|]; [|done]. cbn [mbind option_bind] in R1. destruct H1 as [H1 H1']. split; [exact H1|]. exact (IH _ _ H1' R1 H2).
Qed.
Lemma x_run_app {U} hit (ro : router U) e l1 l2 : forall s s1, x_run false hit ro e s l1 = Some s1 -> x_run false hit ro e s (l1 ++ l2) = x_run false hit ro e s1 l2.
Proof.
  induction l1 as [|l l1 IH]; intros s s1 R1; cbn [x_run app] in *; [by injection R1 as ->|].
  destruct (x_step _ _ _ _ _ _) as [s'|]; [|done]. cbn [mbind option_bind] in *. by apply IH.
Qed.
Example threads_website_ex : exists s,
  xall (thr_visitor peers 400 shipped_files small_site) map_to_list thr_ro [] thr_new (thr_visits1 ++ thr_visits2) /\
  x_run false map_to_list thr_ro [] thr_new (thr_visits1 ++ thr_visits2) = Some s /\
  thr_told s = [(0, [Some (sFOUND, front_text)]); (1, [Some (sOK, B "<h1>index</h1>")])] /\
  forall i c j q o a, xs_clients s !! i = Some c -> cl_calls c !! j = Some q -> cl_done c !! j = Some o ->
    site shipped_files small_site (path_of_req q) (host_of_req q) a ->
    exists y, o = Ok y /\ st_rc y = kSuccess /\ shows a (st_resp y).
Proof.
  destruct thr_visits_run as (s1 & s & E1 & _ & _ & E2 & Ht). exists s.
  assert (Hf : xall (thr_visitor peers 400 shipped_files small_site) map_to_list thr_ro [] thr_new (thr_visits1 ++ thr_visits2)).
  { apply (xall_app _ _ _ _ _ _ _ s1 (visitor_but _ _ _ _ _ _ _ _ (proj1 thr_visits_fair) _ thr_numbers1) E1).
    apply xall_forall. intros s'. apply (Forall_impl _ _ _ (proj2 thr_visits_fair s')). clear. by intros l [? _]. }
  rewrite <- (x_run_app _ _ _ _ _ _ _ E1) in E2.
  split; [exact Hf|]. split; [exact E2|]. split; [exact Ht|].
  destruct small_ascii as (A1 & A2 & A3).
  apply (threads_website unit peers 400 shipped_files small_site thr_ro map_to_list [] 2 (quiet shipped_files) (thr_visits1 ++ thr_visits2) s);
    [by vm_compute|exact A1|exact A2|exact A3|reflexivity|reflexivity|apply valid_order_sorted|exact Hf|exact E2].
Qed.
Example threads_website_returns_ex : exists s1 s2,
  x_run false map_to_list thr_ro [] thr_new thr_visits1 = Some s1 /\ present s1 <= 2 /\ ts_down (xs_srv s1) = false /\
  (exists n, forall ls' s', xall (thr_carries_on peers 400 shipped_files small_site) map_to_list thr_ro [] s1 ls' ->
     x_run false map_to_list thr_ro [] s1 ls' = Some s' -> length ls' <= n) /\
  xall (thr_carries_on peers 400 shipped_files small_site) map_to_list thr_ro [] s1 thr_visits2 /\
  x_run false map_to_list thr_ro [] s1 thr_visits2 = Some s2 /\
  thr_told s2 = [(0, [Some (sFOUND, front_text)]); (1, [Some (sOK, B "<h1>index</h1>")])].
Proof.
  destruct thr_visits_run as (s1 & s2 & E1 & P1 & D1 & E2 & W2). exists s1, s2.
  split; [exact E1|]. split; [rewrite P1; clear; lia|]. split; [exact D1|].
  split; [|split; [apply xall_forall; exact (proj2 thr_visits_fair)|split; [exact E2|exact W2]]]. destruct small_ascii as (A1 & A2 & A3).
  apply (threads_website_returns unit peers 400 shipped_files small_site thr_ro map_to_list [] 2 (quiet shipped_files) thr_visits1 s1);
    [by vm_compute|exact A1|exact A2|exact A3|reflexivity|reflexivity|apply valid_order_sorted|exact (visitor_but _ _ _ _ _ _ _ _ (proj1 thr_visits_fair) _ thr_numbers1)|exact E1].
Qed.

(** stat(2) fails about one file of the directory; a stranger asks for it, and the process
    is gone. *)
Definition thr_visits3 : list xlab :=
  [XConnect 0 5; XOther (TAccept 7 6 true); XOther (TSend 7 (other_text "/home/x")); XServer (TPop 0); XServer (TPop 1)] ++
  recvs 1 (S (length (other_text "/home/x"))) ++ [XServer (TRun 1 (WTake 500))].
Notation odd_ro := (router_of odd_files small_site).
Definition odd_new : xsys unit := x_new 2 (quiet odd_files).
Lemma odd_numbers : numbers_ok map_to_list odd_ro [] odd_new thr_visits3 = true.
Proof. by vm_compute. Qed.
Lemma odd_fair : xall (thr_visitor peers 400 odd_files small_site) map_to_list odd_ro [] odd_new thr_visits3.
Proof.
  apply visitor_but; [|exact odd_numbers]. unfold thr_visits3, peers. repeat (apply Forall_cons_2; [cbn [thr_visitor_but]; first [exact I|lia]|]).
  apply Forall_singleton. exists 500. split; [reflexivity|]. lia.
Qed.
Lemma odd_short : Forall (fun it => short (si_path it)) (wc_statics small_site).
Proof. repeat (apply Forall_cons_2; [by vm_compute|]). constructor. Qed.
Lemma odd_ok : web_routes odd_files small_site = Ok (Some odd_ro).
Proof. apply router_of_ok. by vm_compute. Qed.
Lemma m400 : (N.of_nat 400 < 2 ^ 31)%N.
Proof. by vm_compute. Qed.
Example what_stops_the_threads_website_ex : exists s ls1 l ls2 s1,
  x_run false map_to_list odd_ro [] odd_new thr_visits3 = Some s /\ ts_down (xs_srv s) = true /\
  thr_visits3 = ls1 ++ l :: ls2 /\ x_run false map_to_list odd_ro [] odd_new ls1 = Some s1 /\ ts_down (xs_srv s1) = false /\
  site_stops peers odd_files small_site s1 l.
Proof.
  assert (H : match x_run false map_to_list odd_ro [] odd_new thr_visits3 with
    | Some s => Some (ts_down (xs_srv s)) | None => None end = Some true) by (by vm_compute).
  destruct (x_run false map_to_list odd_ro [] odd_new thr_visits3) as [s|] eqn:E; [|discriminate].
  apply Some_inj in H.
  destruct (what_stops_the_threads_website unit peers 400 odd_files small_site odd_ro map_to_list [] 2 (quiet odd_files) thr_visits3 s
    m400 (proj1 small_ascii) (proj1 (proj2 small_ascii)) odd_ok odd_short eq_refl eq_refl valid_order_sorted odd_fair E H) as (ls1 & l & ls2 & s1 & Hx).
  exists s, ls1, l, ls2, s1. split; [reflexivity|]. split; [exact H|exact Hx].
Qed.

Print Assumptions threads_website.
Print Assumptions threads_website_returns.
Print Assumptions what_stops_the_threads_website.
