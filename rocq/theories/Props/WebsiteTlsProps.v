(** C194-C196: the configurable web server with a certificate (demo/web-server/main.cpp,
    lines 52-66) and its visitors over HTTPS. *)
From Verif.Lib Require Import CxxStringFacts.
From Verif.Model Require Import WebServer.
From Verif.Proof Require Import ReqProof RespProof RouterProof ServerProof HttpSystemProof HttpsSystemProof PrivacyProof StrangerProof.
From Verif.Spec Require Import StringSpec.
From Verif.Props Require Import MessageProps RouterProps StaticProps WebServerProps ServerProps HttpSystemProps ClientProps ClientServerProps
  WebsiteProps ClientServerTlsProps.
From Verif.Model Require Import ClientServerTls.
Import WebsiteProps.

(** ** Statements (see WebsiteProps.v for [visit], [site], [shows] and [site_fails]) *)

(** Visits; the server's write to a visitor takes [M] bytes; strangers [X] do what they
    like, and the receive time-out ends only the waiting for them. *)
Definition tls_visitor (X : nat -> Prop) (M : nat) (f : fs) (cfg : web_config) (l : ylab) : Prop :=
  match l with
  | YConnect i => ~ X i
  | YCall _ hit rit q => valid_order hit /\ valid_order rit /\ visit M f cfg q
  | YServer (XServe i _ wr) | YServer (XResume i wr) => X i \/ big M wr
  | YServer (XTimeout i _) | YOther (XOpen i) | YOther (XHello i _) | YOther (XSend i _) | YOther (XFin i) => X i
  | YServer (XShake _) => True
  | YServer _ | YOther _ => False
  | _ => True
  end.
Definition tls_carries_on (X : nat -> Prop) (M : nat) (f : fs) (cfg : web_config) (l : ylab) : Prop :=
  tls_visitor X M f cfg l /\ match l with YConnect _ | YClose _ | YCall _ _ _ _ | YOther _ => False | _ => True end.

(** ** Proofs *)

Section visits.
Context {U : Type} (M : nat) (f : fs) (cfg : web_config) (ro : router U).
Context (HM : (N.of_nat M < 2 ^ 31)%N).
Context (Ha : ascii_config cfg) (Ho : in_order (routes_of cfg)) (Hro : web_routes f cfg = Ok (Some ro)).

Lemma tls_visitor_fair X l : tls_visitor X M f cfg l -> yfair_with X M (at_rest f) ro l.
Proof. destruct l; cbn; try done. intros (H1 & H2 & H3). do 2 (split; [done|]). by apply (visit_good M f cfg ro). Qed.

Lemma tls_calls_from X hit e ls : forall (s s' : ysys U),
  (forall i c q, ys_clients s !! i = Some c -> q ∈ cl_calls c -> visit M f cfg q) ->
  Forall (tls_visitor X M f cfg) ls -> y_run hit ro e s ls = Some s' ->
  forall i c q, ys_clients s' !! i = Some c -> q ∈ cl_calls c -> visit M f cfg q.
Proof.
  induction ls as [|l ls IH]; intros s s' Hs Hf H; cbn [y_run] in H; [by injection H as <-|].
  apply Forall_cons in Hf as [Hfl Hf]. destruct (y_step hit ro e s l) as [s1|] eqn:E; [|done]. cbn [mbind option_bind] in H.
  apply (IH s1 s'); [|done..]. clear IH H s' Hf ls.
  assert (Hup : forall (h : xsys U) i0 c0, (forall q, q ∈ cl_calls c0 -> visit M f cfg q) ->
    forall i c q, ys_clients (YSys h (<[i0 := c0]> (ys_clients s))) !! i = Some c -> q ∈ cl_calls c -> visit M f cfg q).
  { intros h i0 c0 H0 i c q Hi Hq. cbn [ys_clients] in Hi. apply lookup_insert_Some in Hi as [[-> <-]|[_ Hi]]; [by apply H0|]. by eapply Hs. }
  destruct l as [i|i|i|i chit crit q|i n|l|i n|l]; cbn [y_step] in E.
  - destruct (xstep _ _ _ _ _); [|done]. injection E as <-. apply Hup. intros q Hq. by apply elem_of_nil in Hq.
  - destruct (ys_clients s !! i) as [c|] eqn:Hc; [|done]. cbn [mbind option_bind] in E.
    destruct (xstep _ _ _ _ _); [|done]. injection E as <-. exact Hs.
  - destruct (ys_clients s !! i) as [c|] eqn:Hc; [|done]. cbn [mbind option_bind] in E. destruct (decide _); [|done].
    destruct (xstep _ _ _ _ _); [|done]. injection E as <-. exact Hs.
  - destruct (ys_clients s !! i) as [c|] eqn:Hc; [|done]. cbn [mbind option_bind] in E.
    destruct (xs_conns (ys_sys s) !! i) as [k|]; [|done]. cbn [mbind option_bind] in E. destruct (decide _); [|done].
    assert (Hq : forall q', q' ∈ cl_calls c ++ [q] -> visit M f cfg q').
    { intros q' Hq. apply elem_of_app in Hq as [Hq|Hq]; [by eapply Hs|]. apply elem_of_list_singleton in Hq as ->. apply Hfl. }
    destruct (req_build chit crit q []) as [[rc q'] msg]. destruct (rc =? kSuccess)%Z; injection E as <-; by apply Hup.
  - destruct (ys_clients s !! i) as [c|] eqn:Hc; [|done]. cbn [mbind option_bind] in E. destruct (decide _); [|done].
    destruct (xstep _ _ _ _ _); [|done]. injection E as <-. apply Hup. intros q Hq. by eapply Hs.
  - destruct l; try done; (destruct (xstep _ _ _ _ _); [|done]); injection E as <-; exact Hs.
  - destruct (ys_clients s !! i) as [c|] eqn:Hc; [|done]. cbn [mbind option_bind] in E.
    destruct (cl_now c) as [[[chit crit] q]|]; [|done]. cbn [mbind option_bind] in E.
    destruct (xs_conns (ys_sys s) !! i); [|done]. cbn [mbind option_bind] in E. cbv zeta in E. destruct (decide _); [|done].
    destruct (client_send_tls _ _ _ _ _ _) as [[]| | | | |]; try done; injection E as <-; apply Hup; intros q' Hq; by eapply Hs.
  - destruct l; try done; cbn [mbind option_bind] in E; (destruct (ys_clients s !! _); [done|]); (destruct (xstep _ _ _ _ _); [|done]); injection E as <-; exact Hs.
Qed.
End visits.

(** ** Theorems *)

(** C194: over HTTPS too, whatever strangers send, every visitor sees what the
    configuration says. *)
Theorem https_website : forall U X M f cfg (ro : router U) hit e (w : world U) ls s,
  (N.of_nat M < 2 ^ 31)%N -> ascii_config cfg -> in_order (routes_of cfg) -> web_routes f cfg = Ok (Some ro) ->
  w_fs w = f -> w_custom w = ∅ -> valid_order hit ->
  Forall (tls_visitor X M f cfg) ls -> y_run hit ro e (y_new w) ls = Some s ->
  forall i c j q o a, ys_clients s !! i = Some c -> cl_calls c !! j = Some q -> cl_done c !! j = Some o ->
    site f cfg (path_of_req q) (host_of_req q) a ->
    exists y, o = Ok y /\ st_rc y = kSuccess /\ shows a (st_resp y).
Proof.
  intros U X M f cfg ro hit e w ls s HM Ha Ho Hro Hfs Hcu Hit Hv Hrun i c j q o a Hc Hq Hd Hsite.
  assert (Hw : at_rest f w) by done.
  assert (Hfair : Forall (yfair_with X M (at_rest f) ro) ls).
  { eapply Forall_impl; [exact Hv|]. intros l. by apply (tls_visitor_fair M f cfg). }
  destruct (https_calls_are_serial U X M (at_rest f) ro hit e w ls [] s s Hit Hw (fun _ => site_keeps f cfg ro Hro) Hfair (Forall_nil_2 _) Hrun eq_refl)
    as (log & log2 & _ & (Hser & Hcl & Hex) & _).
  pose proof (tls_calls_from M f cfg ro X hit e ls (y_new w) s) as Hfrom.
  assert (Hcalls : forall i c q, ys_clients s !! i = Some c -> q ∈ cl_calls c -> visit M f cfg q).
  { apply Hfrom; [|done..]. intros i0 c0 q0 H0. cbn in H0. by rewrite lookup_empty in H0. }
  clear Hfrom.
  destruct (serial_at_rest f cfg ro Hro w _ _ Hser Hw) as [_ Hall].
  destruct (Hex _ _ Hc) as (_ & _ & HF1 & HF2).
  destruct (Forall2_lookup_l _ _ _ _ _ HF2 Hd) as (x & Hx & y & -> & Hrc & Hsame).
  exists y. do 2 (split; [done|]).
  apply lookup_take_Some in Hx as [Hx _].
  destruct (Forall2_lookup_r _ _ _ _ _ HF1 Hx) as (q' & Hq' & Hsq). apply lookup_take_Some in Hq' as [Hq' _].
  rewrite Hq in Hq'. injection Hq' as <-.
  assert (Hx' : x ∈ log ++ log2). { apply elem_of_list_lookup_2 in Hx. by apply elem_of_list_filter in Hx as [_ Hx]. }
  destruct (Hall x Hx') as (w1 & w2 & c' & Hw1 & Hdi & Hre).
  assert (Hvq : visit M f cfg q). { eapply Hcalls; [exact Hc|]. by eapply elem_of_list_lookup_2. }
  destruct (visit_dispatch M f cfg ro Ha Ho Hro q x.1.2 a w1 Hvq Hsq Hw1 Hsite) as (c2 & w3 & H1 & _ & H3).
  rewrite Hdi in H1. injection H1 as <- _. rewrite <- Hre in H3. by eapply shows_answer.
Qed.

(** C195: no visitor waits for ever among strangers that go silent, as long as the
    server runs, and the connections of those who have left are closed. *)
Theorem https_website_returns : forall U X M f cfg (ro : router U) hit e (w : world U) ls s,
  (N.of_nat M < 2 ^ 31)%N -> ascii_config cfg -> in_order (routes_of cfg) -> web_routes f cfg = Ok (Some ro) ->
  w_fs w = f -> w_custom w = ∅ -> valid_order hit ->
  Forall (tls_visitor X M f cfg) ls -> y_run hit ro e (y_new w) ls = Some s ->
  (exists n, forall ls' s', Forall (tls_carries_on X M f cfg) ls' -> y_run hit ro e s ls' = Some s' -> length ls' <= n) /\
  ((forall l, tls_carries_on X M f cfg l -> y_step hit ro e s l = None) -> xs_thr (ys_sys s) <> XDown ->
   (forall i c, ys_clients s !! i = Some c -> cl_now c = None /\ length (cl_done c) = length (cl_calls c)) /\
   forall i k, xs_conns (ys_sys s) !! i = Some k -> tn_fin k = true -> tn_open k = false).
Proof.
  intros U X M f cfg ro hit e w ls s HM Ha Ho Hro Hfs Hcu Hit Hv Hrun.
  assert (Hfair : Forall (yfair_with X M (at_rest f) ro) ls).
  { eapply Forall_impl; [exact Hv|]. intros l. by apply (tls_visitor_fair M f cfg). }
  destruct (https_every_call_returns U X M (at_rest f) ro hit e w ls s Hit (conj Hfs Hcu) (fun _ => site_keeps f cfg ro Hro) Hfair Hrun) as [(n & Hn) Hst].
  split.
  - exists n. intros ls' s' Hg Hr. apply (Hn ls' s'); [|done]. eapply Forall_impl; [exact Hg|].
    intros l [Hl1 Hl2]. split; [by apply (tls_visitor_fair M f cfg)|done].
  - intros Hs Hd.
    assert (Hn' : forall l, ygoes_on_with X M (at_rest f) ro l -> y_step hit ro e s l = None).
    { intros l [Hl1 Hl2]. apply Hs. split; [|done]. by destruct l. }
    destruct (Hst Hn' Hd) as [Hst1 Hst2]. split; [|done]. intros i c Hc. by destruct (Hst1 i c Hc) as (H1 & H2 & _).
Qed.

(** C196: only strangers stop the web server, in the ways of C187. *)
Theorem what_stops_the_https_website : forall U X M f cfg (ro : router U) hit e (w : world U) ls s,
  (N.of_nat M < 2 ^ 31)%N -> ascii_config cfg -> in_order (routes_of cfg) -> web_routes f cfg = Ok (Some ro) ->
  Forall (fun it => short (si_path it)) (wc_statics cfg) ->
  w_fs w = f -> w_custom w = ∅ -> valid_order hit ->
  Forall (tls_visitor X M f cfg) ls -> y_run hit ro e (y_new w) ls = Some s -> xs_thr (ys_sys s) = XDown ->
  exists ls1 l ls2 s1 i k wr, ls = ls1 ++ l :: ls2 /\ y_run hit ro e (y_new w) ls1 = Some s1 /\
    X i /\ xs_conns (ys_sys s1) !! i = Some k /\
    (l = YServer (XServe i false wr) \/ l = YServer (XResume i wr) \/ l = YServer (XTimeout i wr)) /\
    (~ short (pending k) \/ LF ∈ take 3 (pending k) \/ wr = WSig \/
     exists pre r, pre `prefix_of` pending k /\ req_parse req_new pre = Ok (kSuccess, r) /\ site_fails f cfg r).
Proof.
  intros U X M f cfg ro hit e w ls s HM Ha Ho Hro Hsh Hfs Hcu Hit Hv Hrun Hd.
  assert (Hfair : Forall (yfair_with X M (at_rest f) ro) ls).
  { eapply Forall_impl; [exact Hv|]. intros l. by apply (tls_visitor_fair M f cfg). }
  destruct (only_strangers_stop_the_https_server U X M (at_rest f) ro hit e w ls s Hit (conj Hfs Hcu) (fun _ => site_keeps f cfg ro Hro) Hfair Hrun Hd)
    as (ls1 & l & ls2 & s1 & i & k & wr & E & R1 & HX & Hk & Hl & Hwhy).
  exists ls1, l, ls2, s1, i, k, wr. do 5 (split; [done|]).
  destruct (decide (short (pending k))) as [Hsk|]; [|by left].
  destruct Hwhy as [?|[?|[?|(pre & r & body & Hpre & Hparse & Hfail)]]]; [by left|by right; left|by right; right; left|].
  right; right; right. exists pre, r. do 2 (split; [done|]).
  assert (Hw1 : at_rest f (xs_world (ys_sys s1))).
  { rewrite E in Hfair. apply Forall_app in Hfair as [Hf1 _].
    destruct (https_calls_are_serial U X M (at_rest f) ro hit e w ls1 [] s1 s1 Hit (conj Hfs Hcu) (fun _ => site_keeps f cfg ro Hro) Hf1 (Forall_nil_2 _) R1 eq_refl)
      as (log & _ & (Hser & _) & _). by destruct (serial_at_rest f cfg ro Hro w _ _ Hser (conj Hfs Hcu)). }
  pose proof (req_parse_length _ _ _ Hparse) as Hlen. apply prefix_length in Hpre.
  apply (site_takes f cfg ro Ha Ho Hro _ _ Hsh Hw1) in Hfail; [done|].
  unfold short, path_of_req in *. cbn [rq_route]. lia.
Qed.

(** ** Examples *)

(** The small site of WebsiteProps.v.  7 does not shake hands; 8 asks for something that is
    not there; visitors 0 and 1 get the redirection and a page. *)
Definition tls_visits1 : list ylab :=
  [YOther (XOpen 7); YServer (XTimeout 7 (WTake 0)); YOther (XOpen 8); YOther (XHello 8 true); YServer (XShake 8);
   YConnect 0; YHello 0; YServer (XShake 0); YConnect 1; YHello 1; YServer (XShake 1);
   YOther (XSend 8 (other_text "/home/x")); YServer (XServe 8 false (WTake 5));
   YCall 0 map_to_list map_to_list (get_page "localhost" "/");
   YCall 1 map_to_list map_to_list (get_page "localhost" "/about"); YFlow 1 10; YServer (XServe 1 false (WTake 400)); YFlow 0 54; YOther (XFin 8)].
Definition front_answer : bytes := B "HTTP/1.1 302 Found" ++ CRLF ++ B "Content-Length: 44" ++ CRLF ++ B "Location: /home/index.html" ++ CRLF ++
  B "Content-Type: text/html" ++ CRLFCRLF.
Definition about_answer : bytes := B "HTTP/1.1 200 OK" ++ CRLF ++ B "Content-Length: 14" ++ CRLF ++ B "Connection: keep-alive" ++ CRLF ++
  B "Content-Type: text/html" ++ CRLFCRLF ++ B "<h1>index</h1>".
(** The answer to 1 comes in one record, that to 0 in three. *)
Definition tls_visits2 : list ylab :=
  [YFlow 1 49; YServer (XResume 1 (WTake 400)); YServer (XServe 0 false (WTake 400)); YServer (XServe 8 true (WTake 0));
   YReturn 1 [about_answer]; YReturn 0 [front_answer; take 9 front_text; drop 9 front_text]].

Lemma tls_visits_fair : Forall (tls_visitor peers 400 shipped_files small_site) tls_visits1 /\
  Forall (tls_carries_on peers 400 shipped_files small_site) tls_visits2.
Proof.
  assert (V1 : visit 400 shipped_files small_site (get_page "localhost" "/")) by page_at site_front.
  assert (V2 : visit 400 shipped_files small_site (get_page "localhost" "/about")) by page_at site_about.
  assert (Hbig : big 400 (WTake 400)) by (by exists 400).
  unfold tls_visits1, tls_visits2, tls_carries_on, peers. split; repeat (apply Forall_cons_2; [cbn [tls_visitor]|]); try apply Forall_nil_2;
    try (split; [|exact I]);
    first [exact I|lia|(left; lia)|(right; exact Hbig)|(split; [apply valid_order_sorted|]; split; [apply valid_order_sorted|]; first [exact V1|exact V2])].
Qed.
Definition tls_told {U} (s : ysys U) : list (nat * list (option (status_code * bytes))) :=
  map (fun x => (x.1, map (fun o => match o with Ok y => Some (rs_status (st_resp y), rs_body (st_resp y)) | _ => None end) (cl_done x.2)))
    (map_to_list (ys_clients s)).
Lemma tls_visits_run : exists s1 s2,
  y_run map_to_list (router_of shipped_files small_site) [] (y_new (quiet shipped_files)) tls_visits1 = Some s1 /\
  ywaiting s1 = [(0, true, 0); (1, true, 0)] /\ xs_thr (ys_sys s1) = XIn 1 /\
  y_run map_to_list (router_of shipped_files small_site) [] (y_new (quiet shipped_files)) (tls_visits1 ++ tls_visits2) = Some s2 /\
  tls_told s2 = [(0, [Some (sFOUND, front_text)]); (1, [Some (sOK, B "<h1>index</h1>")])] /\
  tn_open <$> xs_conns (ys_sys s2) !! 8 = Some false.
Proof.
  assert (H : match y_run map_to_list (router_of shipped_files small_site) [] (y_new (quiet shipped_files)) tls_visits1,
      y_run map_to_list (router_of shipped_files small_site) [] (y_new (quiet shipped_files)) (tls_visits1 ++ tls_visits2) with
    | Some s1, Some s2 => Some (ywaiting s1, xs_thr (ys_sys s1), tls_told s2, tn_open <$> xs_conns (ys_sys s2) !! 8)
    | _, _ => None
    end = Some ([(0, true, 0); (1, true, 0)], XIn 1, [(0, [Some (sFOUND, front_text)]); (1, [Some (sOK, B "<h1>index</h1>")])],
      Some false)) by (by vm_compute).
  destruct (y_run map_to_list (router_of shipped_files small_site) [] (y_new (quiet shipped_files)) tls_visits1) as [s1|]; [|discriminate].
  destruct (y_run map_to_list (router_of shipped_files small_site) [] (y_new (quiet shipped_files)) (tls_visits1 ++ tls_visits2)) as [s2|]; [|discriminate].
  exists s1, s2. apply Some_inj in H.
  assert (H1 := f_equal (fun x => x.1.1.1) H). assert (H2 := f_equal (fun x => x.1.1.2) H).
  assert (H3 := f_equal (fun x => x.1.2) H). assert (H4 := f_equal snd H). clear H.
  cbn [fst snd] in *. split; [reflexivity|]. split; [exact H1|]. split; [exact H2|]. split; [reflexivity|]. split; [exact H3|exact H4].
Qed.
Example https_website_ex : exists s,
  Forall (tls_visitor peers 400 shipped_files small_site) (tls_visits1 ++ tls_visits2) /\
  y_run map_to_list (router_of shipped_files small_site) [] (y_new (quiet shipped_files)) (tls_visits1 ++ tls_visits2) = Some s /\
  tls_told s = [(0, [Some (sFOUND, front_text)]); (1, [Some (sOK, B "<h1>index</h1>")])] /\
  forall i c j q o a, ys_clients s !! i = Some c -> cl_calls c !! j = Some q -> cl_done c !! j = Some o ->
    site shipped_files small_site (path_of_req q) (host_of_req q) a ->
    exists y, o = Ok y /\ st_rc y = kSuccess /\ shows a (st_resp y).
Proof.
  destruct tls_visits_run as (s1 & s & _ & _ & _ & E & Ht & _). exists s.
  assert (Hf : Forall (tls_visitor peers 400 shipped_files small_site) (tls_visits1 ++ tls_visits2)).
  { apply Forall_app. split; [exact (proj1 tls_visits_fair)|]. apply (Forall_impl _ _ _ (proj2 tls_visits_fair)). clear. by intros l [? _]. }
  split; [exact Hf|]. split; [exact E|]. split; [exact Ht|].
  destruct small_ascii as (A1 & A2 & A3).
  apply (https_website unit peers 400 shipped_files small_site (router_of shipped_files small_site) map_to_list [] (quiet shipped_files) (tls_visits1 ++ tls_visits2) s);
    [by vm_compute|exact A1|exact A2|exact A3|reflexivity|reflexivity|apply valid_order_sorted|exact Hf|exact E].
Qed.
Example https_website_returns_ex : exists s1 s2,
  y_run map_to_list (router_of shipped_files small_site) [] (y_new (quiet shipped_files)) tls_visits1 = Some s1 /\
  ywaiting s1 = [(0, true, 0); (1, true, 0)] /\ xs_thr (ys_sys s1) = XIn 1 /\
  (exists n, forall ls' s', Forall (tls_carries_on peers 400 shipped_files small_site) ls' ->
     y_run map_to_list (router_of shipped_files small_site) [] s1 ls' = Some s' -> length ls' <= n) /\
  Forall (tls_carries_on peers 400 shipped_files small_site) tls_visits2 /\
  y_run map_to_list (router_of shipped_files small_site) [] (y_new (quiet shipped_files)) (tls_visits1 ++ tls_visits2) = Some s2 /\
  tls_told s2 = [(0, [Some (sFOUND, front_text)]); (1, [Some (sOK, B "<h1>index</h1>")])] /\
  tn_open <$> xs_conns (ys_sys s2) !! 8 = Some false.
Proof.
  destruct tls_visits_run as (s1 & s2 & E1 & W1 & T1 & E2 & W2 & C2). exists s1, s2.
  split; [exact E1|]. split; [exact W1|]. split; [exact T1|].
  split; [|split; [exact (proj2 tls_visits_fair)|split; [exact E2|split; [exact W2|exact C2]]]]. destruct small_ascii as (A1 & A2 & A3).
  apply (https_website_returns unit peers 400 shipped_files small_site (router_of shipped_files small_site) map_to_list [] (quiet shipped_files) tls_visits1 s1);
    [by vm_compute|exact A1|exact A2|exact A3|reflexivity|reflexivity|apply valid_order_sorted|exact (proj1 tls_visits_fair)|exact E1].
Qed.

(** stat(2) fails about one file of the directory; a stranger asks for it over TLS, and the
    web server is gone. *)
Definition tls_visits3 : list ylab :=
  [YConnect 0; YHello 0; YServer (XShake 0); YOther (XOpen 7); YOther (XHello 7 true); YServer (XShake 7);
   YOther (XSend 7 (other_text "/home/x")); YServer (XServe 7 false (WTake 5))].
Example what_stops_the_https_website_ex : exists s ls1 l ls2 s1 i k wr,
  y_run map_to_list (router_of odd_files small_site) [] (y_new (quiet odd_files)) tls_visits3 = Some s /\ xs_thr (ys_sys s) = XDown /\
  tls_visits3 = ls1 ++ l :: ls2 /\ y_run map_to_list (router_of odd_files small_site) [] (y_new (quiet odd_files)) ls1 = Some s1 /\
  peers i /\ xs_conns (ys_sys s1) !! i = Some k /\
  (l = YServer (XServe i false wr) \/ l = YServer (XResume i wr) \/ l = YServer (XTimeout i wr)) /\
  (~ short (pending k) \/ LF ∈ take 3 (pending k) \/ wr = WSig \/
   exists pre r, pre `prefix_of` pending k /\ req_parse req_new pre = Ok (kSuccess, r) /\ site_fails odd_files small_site r).
Proof.
  assert (H : match y_run map_to_list (router_of odd_files small_site) [] (y_new (quiet odd_files)) tls_visits3 with
    | Some s => Some (xs_thr (ys_sys s)) | None => None end = Some XDown) by (by vm_compute).
  destruct (y_run map_to_list (router_of odd_files small_site) [] (y_new (quiet odd_files)) tls_visits3) as [s|] eqn:E; [|discriminate].
  apply Some_inj in H.
  destruct (what_stops_the_https_website unit peers 400 odd_files small_site (router_of odd_files small_site) map_to_list [] (quiet odd_files) tls_visits3 s)
    as (ls1 & l & ls2 & s1 & i & k & wr & Hx); [by vm_compute|apply small_ascii|apply small_ascii|apply router_of_ok; by vm_compute| |reflexivity|reflexivity|apply valid_order_sorted| |exact E|exact H|].
  - repeat (apply Forall_cons_2; [by vm_compute|]). constructor.
  - clear. unfold tls_visits3, peers. repeat (apply Forall_cons_2; [cbn [tls_visitor]; first [exact I|lia|left; lia]|]). constructor.
  - exists s, ls1, l, ls2, s1, i, k, wr. split; [reflexivity|]. split; [exact H|exact Hx].
Qed.

Print Assumptions https_website.
Print Assumptions https_website_returns.
Print Assumptions what_stops_the_https_website.
