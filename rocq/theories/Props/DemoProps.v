(** C168-C172: the demos (demo/use-lib-server/main.cpp, demo/use-lib-server-ssl/main.cpp,
    demo/simple-http-server/main.cpp, demo/mnist/main.cpp). *)
From Coq Require Import Floats.SpecFloat.
From Verif.Lib Require Import CxxStringFacts.
From Verif.Spec Require Import SocketSpec SslSpec.
From Verif.Model Require Import Demos HttpsSystem.
From Verif.Proof Require Import RouteProof ReqProof RespProof SocketProof RouterProof ServerProof SslProof FileProof
  HttpSystemProof HttpsSystemProof.
From Verif.Props Require Import SocketProps RouterProps ServerProps StaticProps HttpSystemProps HttpsSystemProps.

Definition page_404 : bytes := B "<html><body><h1>404 Not Found</h1></body></html>".

(** ** C168 *)

(** What the hello server has to say. *)
Definition hello_answer (r : req) (out : bytes) : Prop :=
  if decide (rt_path (rq_route r) = B "/") then response_text out sOK (B "<h1>Hello, World!</h1>")
  else response_text out sNOT_FOUND page_404.
Definition ascii_path (r : req) : Prop := ascii_only (rt_path (rq_route r)).

Lemma hello_dispatch {U} (ro : router U) p c w : use_lib_routes = Ok ro -> ascii_only p ->
  dispatch ro p c w = if decide (p = B "/") then hello_page_handler c w else Ok (c, w).
Proof.
  intros Hro Hp.
  destruct (group_accumulates_partial U (B "/") [Entry (Some hello_page_handler) true []] p c w)
    as (ro' & Hro' & H1 & H2); [by_compute|done|by repeat constructor|].
  assert (ro' = ro) as ->.
  { cbn [map register_all] in Hro'. unfold use_lib_routes, group_GET, group_method in Hro.
    destruct (register [] (B "/") _ router_new) as [[rc x]| | | | |]; try done. cbn in *. congruence. }
  destruct (decide (p = B "/")) as [->|Hne]; [|by apply H2].
  specialize (H1 eq_refl). apply (chain_det _ _ _ _ H1).
  unfold hello_page_handler. destruct (resp_success _ _ _ _) as [q cu] eqn:E.
  destruct (w_running w) eqn:Er.
  - eapply chain_called; [done|intros f Hf; by apply elem_of_nil in Hf| | |constructor].
    + cbn [fst snd]. unfold hello_page_handler. by rewrite E.
    + done.
  - eapply chain_stopped; [done|intros f Hf; by apply elem_of_nil in Hf| |].
    + cbn [fst snd]. unfold hello_page_handler. by rewrite E.
    + done.
Qed.

Lemma hello_result {U} r (w : world U) : exists w', hello_page_handler (ctx_new r resp_new) w =
  Ok (ctx_set_resp (ctx_new r resp_new) (Resp sOK v1_1 {[ B "Content-Type" := B "text/html" ]} (B "<h1>Hello, World!</h1>")), w').
Proof. by eexists. Qed.

Lemma hello_tame {U} (ro : router U) r : use_lib_routes = Ok ro -> ascii_path r -> tame ro r.
Proof.
  intros Hro Hr w. rewrite (hello_dispatch ro _ _ w Hro Hr). destruct (decide _).
  - destruct (hello_result r w) as [w' E]. rewrite E. do 2 eexists. split; [done|].
    cbn [cx_resp ctx_set_resp]. split; [|split; [done|by vm_compute]].
    intros k v Hk Hne. cbn [rs_header] in Hk. apply lookup_singleton_Some in Hk as [<- <-].
    split; [|done]. repeat split; [by_compute| | |done]; intros H; by apply find_idx_None_contains in H.
  - do 2 eexists. split; [done|]. split; [|split; [done|by vm_compute]]. intros k v Hk.
    change ((∅ : header) !! k = Some v) in Hk. by rewrite lookup_empty in Hk.
Qed.

Lemma hello_answers {U} (ro : router U) r out : use_lib_routes = Ok ro -> ascii_path r ->
  answers ro r out -> hello_answer r out.
Proof.
  intros Hro Hr (w & w' & c' & Hd & H1 & H2). rewrite (hello_dispatch ro _ _ w Hro Hr) in Hd.
  unfold hello_answer. destruct (decide _).
  - destruct (hello_result r w) as [w2 E]. rewrite E in Hd. injection Hd as <- _. by apply H1.
  - injection Hd as <- _. by apply H2.
Qed.

Lemma Forall2_answers {U} (ro : router U) rs outs : use_lib_routes = Ok ro -> Forall ascii_path rs ->
  Forall2 (answers ro) rs outs -> Forall2 hello_answer rs outs.
Proof.
  intros Hro Hrs H. revert Hrs. induction H as [|r out rs outs Hx H IH]; intros Hrs; [constructor|].
  apply Forall_cons in Hrs as [Hr Hrs]. constructor; [by eapply hello_answers|by apply IH].
Qed.

(** The hello server, with any number of connections: whoever sends whole requests
    gets, in order, the page for the path "/" and a 404 for the others. *)
Theorem hello_server_answers : forall U hit (ro : router U) e w ls s i c texts rs,
  use_lib_routes = Ok ro -> valid_order hit -> sys_run hit ro e (sys_new w) ls = Some s -> idle s ->
  sy_conns s !! i = Some c -> requests texts rs -> Forall ascii_path rs -> sent_by i ls = concat texts ->
  Forall writes_go_through ls -> Forall (stays i) ls ->
  Forall2 hello_answer rs (hn_out c) /\ hn_open c = true.
Proof.
  intros U hit ro e w ls s i c texts rs Hro Hit H Hid Hi Hreq Ha Hsent Hw Hst.
  destruct (all_answered_partial U hit ro e w ls s i c texts rs) as [H1 H2]; try done.
  - eapply Forall_impl; [exact Ha|]. intros r Hr. by apply hello_tame.
  - split; [|done]. by eapply Forall2_answers.
Qed.

(** The same with TLS, when no record holds the end of one request and the beginning
    of the next. *)
Theorem hello_tls_server_answers : forall U hit (ro : router U) e w ls s i c recss rs,
  use_lib_routes = Ok ro -> valid_order hit -> xrun hit ro e (xsys_new w) ls = Some s -> xidle s ->
  xs_conns s !! i = Some c -> requests (map (@concat ascii) recss) rs -> Forall ascii_path rs ->
  recs_by i ls = concat recss -> Forall filled recss ->
  Forall xwrites_go_through ls -> Forall (xstays i) ls ->
  Forall2 hello_answer rs (tn_out c) /\ tn_open c = true.
Proof.
  intros U hit ro e w ls s i c recss rs Hro Hit H Hid Hi Hreq Ha Hsent Hf Hw Hst.
  destruct (https_all_answered_partial U hit ro e w ls s i c recss rs) as [H1 H2]; try done.
  - eapply Forall_impl; [exact Ha|]. intros r Hr. by apply hello_tame.
  - split; [|done]. by eapply Forall2_answers.
Qed.
Print Assumptions hello_server_answers.
Print Assumptions hello_tls_server_answers.

Definition root_text : bytes := ex_head "/" "Content-Length" ++ B "hi".
Definition root_req : req := ex_r "/" "Content-Length" (B "hi").
Definition hello_ro : router nat := match use_lib_routes with Ok ro => ro | _ => router_new end.
Lemma hello_ro_ok : use_lib_routes = Ok hello_ro.
Proof. reflexivity. Qed.
Lemma root_and_other : requests [root_text; hi] [root_req; ex_req (B "hi")] /\ Forall ascii_path [root_req; ex_req (B "hi")].
Proof.
  split; [split; [|split]|].
  - constructor; [ex_text|]. constructor; [apply hi_req|constructor].
  - repeat constructor; by vm_compute.
  - repeat constructor; by_compute.
  - repeat constructor; by_compute.
Qed.
Definition hello_text (code type len body : string) : bytes :=
  B "HTTP/1.1 " ++ B code ++ CRLF ++ B "Content-Length: " ++ B len ++ CRLF ++ B "Content-Type: " ++ B type ++ CRLF ++ CRLF ++ B body.
Definition hello_outs : list bytes :=
  [hello_text "200 OK" "text/html" "22" "<h1>Hello, World!</h1>";
   hello_text "404 Not Found" "text/html" "48" "<html><body><h1>404 Not Found</h1></body></html>"].
Definition hello_run : list hlab :=
  [LOpen 0; LSend 0 (root_text ++ hi); LServe 0 false (WTake 999); LServe 0 false (WTake 999)].
Definition hello_end : hsys nat := HSys wn TFree (list_to_map [(0, HConn [] false true hello_outs (concat hello_outs))]).
Lemma hello_runs : sys_run map_to_list hello_ro [] (sys_new wn) hello_run = Some hello_end.
Proof. run. Qed.
(** A POST for "/" gets the page as well (C38). *)
Example hello_ex : Forall2 hello_answer [root_req; ex_req (B "hi")] hello_outs /\ rq_method root_req = mPOST.
Proof.
  split; [|done].
  refine (proj1 (hello_server_answers nat map_to_list hello_ro [] wn hello_run hello_end 0 _ [root_text; hi] _
    hello_ro_ok valid_order_sorted hello_runs _ ltac:(by vm_compute) (proj1 root_and_other) (proj2 root_and_other) ltac:(by vm_compute) _ _)).
  - split; [done|]. intros i c Hi _. unfold hello_end in Hi. cbn [sy_conns] in Hi.
    apply elem_of_list_to_map_2 in Hi. apply elem_of_cons in Hi as [Hi|Hi]; [by injection Hi as _ ->|]. by apply elem_of_nil in Hi.
  - repeat constructor; by eexists.
  - repeat constructor; done.
Qed.
Definition hello_xrun : list xlab :=
  [XOpen 0; XHello 0 true; XShake 0; XSend 0 root_text; XServe 0 false (WTake 999); XSend 0 hi; XServe 0 false (WTake 999)].
Definition hello_xend : xsys nat := XSys wn XFree (list_to_map [(0, est [] [] hello_outs)]).
Lemma hello_xruns : xrun map_to_list hello_ro [] (xsys_new wn) hello_xrun = Some hello_xend.
Proof. xrun. Qed.
Example hello_tls_ex : Forall2 hello_answer [root_req; ex_req (B "hi")] hello_outs.
Proof.
  refine (proj1 (hello_tls_server_answers nat map_to_list hello_ro [] wn hello_xrun hello_xend 0 _ [[root_text]; [hi]] _
    hello_ro_ok valid_order_sorted hello_xruns _ ltac:(by vm_compute) _ (proj2 root_and_other) ltac:(by vm_compute) _ _ _)).
  - apply xidle_list. by repeat constructor.
  - cbn [map concat]. rewrite !app_nil_r. exact (proj1 root_and_other).
  - repeat constructor; by vm_compute.
  - repeat constructor; by eexists.
  - repeat constructor; done.
Qed.

(** ** C169 *)

(** What the server says, as HandleRead sends it: a response whose status was never
    set is a 404. *)
Definition said (p : resp) : status_code * bytes :=
  if decide (rs_status p = sUNKNOWN) then (sNOT_FOUND, page_404) else (rs_status p, rs_body p).

(** The site: two pages, a start page, and the files of the blog. *)
Definition file_or_404 (f : fs) (name : bytes) : status_code * bytes :=
  match f name with Reg true _ _ d => (sOK, d) | _ => (sNOT_FOUND, page_404) end.
Inductive simple_site (f : fs) : http_method -> bytes -> status_code * bytes -> Prop :=
| site_hello m : simple_site f m (B "/hello") (sOK, B "hello world")
| site_world m : simple_site f m (B "/world") (sFOUND, B "<html><body><h1>302 Found</h1></body></html>")
| site_start : simple_site f mGET (B "/") (file_or_404 f (B "../asset/index.html"))
| site_blog q : q <> [] -> q <> B "hello" -> q <> B "world" -> ~ contains (B "..") q ->
    simple_site f mGET (B "/" ++ q) (file_or_404 f (cstr (B "../asset/blog-home//" ++ q)))
| site_up q : contains (B "..") q -> simple_site f mGET (B "/" ++ q) (sNOT_FOUND, page_404)
| site_outside m p : ~ B "/" `prefix_of` p -> simple_site f m p (sNOT_FOUND, page_404)
| site_other m p : m <> mGET -> p <> B "/hello" -> p <> B "/world" -> simple_site f m p (sNOT_FOUND, page_404).

(** A request is being handled and nothing was said yet. *)
Definition fresh {U} (c : ctx) (w : world U) : Prop := cx_resp c = resp_new /\ w_running w = true.
Definition simple_server_full : Prop := forall U (ro : router U) c w,
  simple_routes = Ok ro -> ascii_only (path_of c) -> short (path_of c) -> fresh c w ->
  exists c' w', dispatch ro (path_of c) c w = Ok (c', w') /\
    simple_site (w_fs w) (rq_method (cx_req c)) (path_of c) (said (cx_resp c')) /\
    (path_of c = B "/world" -> header_get (rs_header (cx_resp c')) (B "Location") = B "https://chenxuanweb.top").

Section simple.
Context {U : Type}.
Implicit Types (ro : router U) (w : world U) (c : ctx).

Definition simple_entries : list (registration U) :=
  [([], B "/hello", Entry (Some hello_text_handler) true []);
   ([], B "/world", Entry (Some world_handler) true []);
   ([], B "/", Entry (Some (owned (fun _ => true) (static_file_handler (B "../asset/index.html")))) true [method_filter mGET]);
   ([], B "/", Entry (Some (owned (fun _ => true) (static_dir_handler (B "/") (B "../asset/blog-home/")))) false [method_filter mGET])].

Lemma simple_placed : all_well_placed simple_entries.
Proof.
  intros before x after E. unfold simple_entries in E.
  destruct before as [|y1 before]; cbn [app] in E.
  { injection E as <- _. right. split; [|by intros H%elem_of_nil]. intros c [H%elem_of_nil _]. done. }
  injection E as <- E. destruct before as [|y2 before]; cbn [app] in E.
  { injection E as <- _. right. unfold leads_to, keys. cbn. split; [|by intros [=]%elem_of_list_singleton].
    intros c [->%elem_of_list_singleton [H _]]. by apply starts_with_prefix in H. }
  injection E as <- E. destruct before as [|y3 before]; cbn [app] in E.
  { injection E as <- _. right. unfold leads_to, keys. cbn. split.
    - intros c [Hc [_ H]].
      pose proof (H (B "/hello") ltac:(by left) ltac:(by apply starts_with_prefix)) as H1.
      pose proof (H (B "/world") ltac:(by right; left) ltac:(by apply starts_with_prefix)) as H2.
      apply starts_with_prefix in H1, H2. set_unfold in Hc. destruct Hc as [->|[->|[]]]; done.
    - intros H. set_unfold in H. naive_solver. }
  injection E as <- E. destruct before as [|y4 before]; cbn [app] in E.
  { injection E as <- _. left. unfold leads_to, keys. cbn. split; [set_solver|]. split; [done|].
    intros c' _ H. done. }
  injection E as _ E. by destruct before.
Qed.

Lemma simple_concerning h1 h2 h3 h4 f1 f2 f3 f4 p :
  let e1 := Entry h1 true f1 in let e2 := Entry h2 true f2 in
  let e3 := Entry h3 true f3 in let e4 := Entry h4 false f4 in
  concerning (U := U) (registered [([], B "/hello", e1); ([], B "/world", e2); ([], B "/", e3); ([], B "/", e4)]) p =
    (if decide (p = B "/") then [e3; e4] else if decide (B "/" `prefix_of` p) then [e4] else []) ++
    (if decide (p = B "/hello") then [e1] else if decide (p = B "/world") then [e2] else []).
Proof.
  intros e1 e2 e3 e4. set (T := registered _).
  assert (HT : forall k, T k = if decide (k = B "/hello") then [e1] else if decide (k = B "/world") then [e2]
                               else if decide (k = B "/") then [e3; e4] else []).
  { intros k. unfold T, registered, reg_key. cbn [omap list_omap fst snd app].
    destruct (decide (k = B "/hello")) as [->|N1]; [by vm_compute|]. rewrite (decide_False (P := B "/hello" = k)) by congruence.
    destruct (decide (k = B "/world")) as [->|N2]; [by vm_compute|]. rewrite (decide_False (P := B "/world" = k)) by congruence.
    destruct (decide (k = B "/")) as [->|N3]; [by vm_compute|]. rewrite !(decide_False (P := B "/" = k)) by (intros E; by apply N3). reflexivity. }
  destruct (decide (p = B "/hello")) as [->|N1]; [by vm_compute|].
  destruct (decide (p = B "/world")) as [->|N2]; [by vm_compute|].
  destruct (decide (p = B "/")) as [->|N3]; [by vm_compute|]. rewrite app_nil_r.
  unfold concerning. destruct p as [|a p]; [by vm_compute|].
  cbn [length seq flat_map take]. rewrite HT. rewrite !decide_False by done. cbn [List.filter app].
  assert (Hrest : flat_map (fun i => List.filter (fun e => negb (e_exact e) || (i =? S (length p)))
    (T (take i (a :: p)))) (seq 2 (length p)) = []).
  { assert (Hall : forall i, i ∈ seq 2 (length p) -> 2 <= i < 2 + length p) by (intros i Hi; by apply elem_of_seq in Hi).
    revert Hall. generalize (seq 2 (length p)) as l. induction l as [|i l IH]; intros Hall; [done|].
    cbn [flat_map]. rewrite IH by (intros j Hj; apply Hall; by right). rewrite app_nil_r.
    pose proof (Hall i ltac:(left)) as Hi. rewrite HT.
    assert (Hlen : length (take i (a :: p)) = i) by (rewrite take_length; cbn [length]; lia).
    assert (Hend : i = S (length p) -> take i (a :: p) = a :: p) by (intros ->; by rewrite take_ge by (cbn; lia)).
    destruct (decide (take i (a :: p) = B "/hello")) as [E|_].
    { cbn [List.filter e_exact e1 negb orb]. destruct (Nat.eqb_spec i (S (length p))); [|done]. rewrite Hend in E by done. done. }
    destruct (decide (take i (a :: p) = B "/world")) as [E|_].
    { cbn [List.filter e_exact e2 negb orb]. destruct (Nat.eqb_spec i (S (length p))); [|done]. rewrite Hend in E by done. done. }
    destruct (decide (take i (a :: p) = B "/")) as [E|_]; [|done]. rewrite E in Hlen. cbn in Hlen. lia. }
  destruct p as [|b p].
  { cbn [length seq flat_map take]. rewrite HT, !decide_False by congruence. cbn [List.filter app].
    rewrite decide_False; [done|]. intros [k Hk]. by injection Hk as -> <-. }
  cbn [length seq flat_map take] in Hrest |- *. cbn [Nat.eqb]. rewrite HT.
  rewrite (decide_False (P := [a] = B "/hello")), (decide_False (P := [a] = B "/world")) by done.
  destruct (decide ([a] = B "/")) as [Ea|Na].
  - injection Ea as ->. rewrite (decide_True (P := B "/" `prefix_of` _)) by (by exists (b :: p)).
    cbn [List.filter e3 e4 e_exact negb orb app Nat.eqb]. f_equal. exact Hrest.
  - rewrite (decide_False (P := B "/" `prefix_of` _)).
    + cbn [List.filter app]. exact Hrest.
    + intros [k Hk]. apply Na. by injection Hk as -> _.
Qed.

Lemma simple_dispatch ro p c w : simple_routes = Ok ro -> ascii_only p ->
  dispatch ro p c w = (r ← run_vector (concerning (registered simple_entries) p) true (c, w); Ok r.1).
Proof.
  intros Hro Hp.
  destruct (register_all_table simple_entries) as (ro' & T & Hro' & Hrep & HT).
  { unfold ascii_registrations. repeat constructor. }
  assert (ro' = ro) as ->.
  { unfold simple_entries in Hro'. cbn [register_all] in Hro'.
    unfold simple_routes, group_GET, group_StaticFile, group_StaticDir, group_method in Hro. cbn [app] in Hro.
    destruct (register [] (B "/hello") _ router_new) as [[rc1 x1]| | | | |]; try done. cbn [mbind outcome_bind snd] in *.
    destruct (register [] (B "/world") _ x1) as [[rc2 x2]| | | | |]; try done. cbn [mbind outcome_bind snd] in *.
    destruct (register [] (B "/") _ x2) as [[rc3 x3]| | | | |]; try done. cbn [mbind outcome_bind snd] in *.
    destruct (register [] (B "/") _ x3) as [[rc4 x4]| | | | |]; try done. cbn [mbind outcome_bind snd] in *. congruence. }
  rewrite (dispatch_table ro T p c w Hrep Hp). pose proof (table_registered _ T HT simple_placed) as Heq.
  replace (concerning T p) with (concerning (registered simple_entries) p); [done|].
  unfold concerning. rewrite !flat_map_concat_map. f_equal. apply map_ext. intros i. by rewrite Heq.
Qed.

(** Names can be looked up; a name that ends with a slash is not a file. *)
Definition orderly (f : fs) : Prop :=
  (forall x, f x <> StatFail) /\ (forall x r wr o d, f (x ++ B "/") <> Reg r wr o d).

Lemma blog_step c w q : path_of c = B "/" ++ q -> short (path_of c) -> orderly (w_fs w) ->
  exists c' w', static_dir_handler (B "/") (B "../asset/blog-home/") c w = Ok (c', w') /\
    cx_req c' = cx_req c /\ w_running w' = w_running w /\
    (contains (B "..") q -> cx_resp c' = resp_not_found (cx_resp c)) /\
    (~ contains (B "..") q -> match w_fs w (cstr (B "../asset/blog-home//" ++ q)) with
      | Reg true _ _ d => rs_status (cx_resp c') = sOK /\ rs_body (cx_resp c') = d
      | Reg false _ _ _ => rs_status (cx_resp c') = sNOT_FOUND /\ rs_body (cx_resp c') = page_404
      | _ => cx_resp c' = cx_resp c
      end).
Proof.
  intros Hp Hs [Hst _]. pose proof (short_fits _ Hs) as Hf. unfold path_of in *. unfold static_dir_handler.
  set (route := rt_path (rq_route (cx_req c))) in *.
  destruct (static_dir_aim (B "/") route Hf) as [[_ E]|(a & r & Hr & Ha & E & Es)].
  { exfalso. apply E. exists [], q. done. }
  assert (a = []) as ->.
  { destruct a as [|x a]; [done|]. exfalso. apply (Ha 0); [cbn; lia|]. rewrite drop_0, Hp. by exists q. }
  cbn [app] in Hr. rewrite Hp in Hr. apply app_inv_head in Hr as <-.
  rewrite E, Es. cbn [mbind outcome_bind].
  assert (Hfq : fits q). { rewrite Hp in Hf. by apply fits_app_r in Hf. }
  destruct (find_dotdot q Hfq) as [[E2 Hnd]|[E2 Hd]]; rewrite E2; cbn [negb].
  2: { do 2 eexists. split; [done|]. do 2 (split; [done|]). split; [done|]. by intros ?. }
  change (B "../asset/blog-home/" ++ B "/" ++ q) with (B "../asset/blog-home//" ++ q).
  set (name := B "../asset/blog-home//" ++ q).
  assert (Hfn : fits name).
  { unfold name, fits, short in *. rewrite Hp in Hs. rewrite app_length in Hs |- *. cbn in Hs |- *. lia. }
  specialize (Hst (cstr name)). unfold file_exist, file_read.
  destruct (w_fs w (cstr name)) as [b| |rd wr o d|o] eqn:Efs; [| |destruct rd|]; try done; cbn [mbind outcome_bind negb fst snd].
  - do 2 eexists. split; [done|]. do 3 (split; [done|]). done.
  - change (negb (kSuccess =? kSuccess)%Z) with false. cbn [negb].
    destruct (file_suffix_ok _ Hfn) as (co & x & _ & _ & Hsf). rewrite Hsf. cbn [mbind outcome_bind].
    unfold resp_success, header_set_content_type. destruct (convert_to_str _ _ _) as [ty cu].
    do 2 eexists. split; [done|]. do 2 (split; [done|]). split; [done|]. intros _. done.
  - do 2 eexists. split; [done|]. do 2 (split; [done|]). split; [done|]. intros _. done.
  - do 2 eexists. split; [done|]. do 3 (split; [done|]). done.
Qed.

Lemma start_step c w : orderly (w_fs w) ->
  exists c' w', static_file_handler (B "../asset/index.html") c w = Ok (c', w') /\
    cx_req c' = cx_req c /\ w_running w' = w_running w /\ w_fs w' = w_fs w /\
    (rs_status (cx_resp c'), rs_body (cx_resp c')) = file_or_404 (w_fs w) (B "../asset/index.html").
Proof.
  intros [Hst _]. specialize (Hst (B "../asset/index.html")). unfold static_file_handler, file_exist, file_read, file_or_404.
  assert (Hcs : cstr (B "../asset/index.html") = B "../asset/index.html") by done. rewrite Hcs.
  destruct (w_fs w (B "../asset/index.html")) as [b| |rd wr o d|o] eqn:Efs; [| |destruct rd|]; try done; cbn [mbind outcome_bind negb fst snd].
  - do 2 eexists. split; [done|]. done.
  - change (negb (kSuccess =? kSuccess)%Z) with false. cbn [negb].
    destruct (file_suffix (B "../asset/index.html")) as [sf| | | | |] eqn:Es; try done. cbn [mbind outcome_bind].
    destruct (convert_to_str _ _ _) as [ty cu]. do 2 eexists. split; [done|]. done.
  - do 2 eexists. split; [done|]. done.
  - do 2 eexists. split; [done|]. done.
Qed.

Lemma said_404 p : rs_status p = sNOT_FOUND -> rs_body p = page_404 -> said p = (sNOT_FOUND, page_404).
Proof. intros H1 H2. unfold said. by rewrite H1, H2. Qed.

Lemma run_one (h : handler U) ex fs l c w : forallb (fun f => f (cx_req c)) fs = true ->
  run_vector (Entry (Some h) ex fs :: l) true (c, w) =
    (st' ← h c w; if w_running st'.2 then run_vector l true st' else Ok (st', false)).
Proof. intros H. cbn [run_vector negb andb]. unfold accepts. cbn [e_filters fst snd e_callback]. by rewrite H. Qed.
Lemma run_owned (h : handler U) ex fs l c w : forallb (fun f => f (cx_req c)) fs = true ->
  run_vector (Entry (Some (owned (fun _ => true) h)) ex fs :: l) true (c, w) =
    (st' ← h c w; if w_running st'.2 then run_vector l true st' else Ok (st', false)).
Proof. intros H. by rewrite run_one. Qed.
Lemma run_none (h : handler U) ex fs l c w : forallb (fun f => f (cx_req c)) fs = false ->
  run_vector (Entry (Some h) ex fs :: l) true (c, w) = run_vector l true (c, w).
Proof. intros H. cbn [run_vector negb andb]. unfold accepts. cbn [e_filters fst snd e_callback]. by rewrite H. Qed.

(** Missing: names that cannot be looked up. *)
Theorem simple_server_partial ro c w :
  simple_routes = Ok ro -> ascii_only (path_of c) -> short (path_of c) -> fresh c w -> orderly (w_fs w) ->
  exists c' w', dispatch ro (path_of c) c w = Ok (c', w') /\
    simple_site (w_fs w) (rq_method (cx_req c)) (path_of c) (said (cx_resp c')) /\
    (path_of c = B "/world" -> header_get (rs_header (cx_resp c')) (B "Location") = B "https://chenxuanweb.top").
Proof.
  intros Hro Ha Hs [Hc Hw] Hfs. rewrite (simple_dispatch ro _ c w Hro Ha). unfold simple_entries.
  rewrite simple_concerning. set (p := path_of c) in *.
  destruct (decide (rq_method (cx_req c) = mGET)) as [Hm|Hm].
  - assert (Hf : forall c1, cx_req c1 = cx_req c -> forallb (fun f => f (cx_req c1)) [method_filter mGET] = true).
    { intros c1 ->. cbn. unfold method_filter. by rewrite bool_decide_true. }
    destruct (decide (p = B "/")) as [Ep|Np].
    { rewrite (decide_False (P := p = B "/hello")), (decide_False (P := p = B "/world")) by (by rewrite Ep).
      cbn [app]. rewrite run_owned by (by apply Hf).
      destruct (start_step c w Hfs) as (c1 & w1 & E1 & Hq1 & Hr1 & Hf1 & Ha1). rewrite E1. cbn [mbind outcome_bind snd].
      rewrite Hr1, Hw. rewrite run_owned by (by apply Hf).
      destruct (blog_step c1 w1 []) as (c2 & w2 & E2 & Hq2 & Hr2 & _ & Ha2).
      { unfold path_of. rewrite Hq1. exact Ep. }
      { unfold path_of. by rewrite Hq1. }
      { by rewrite Hf1. }
      rewrite E2. cbn [mbind outcome_bind snd]. rewrite Hr2, Hr1, Hw. cbn [run_vector mbind outcome_bind].
      exists c2, w2. split; [done|]. split; [|by rewrite Ep].
      assert (Hd2 : cx_resp c2 = cx_resp c1).
      { assert (Hx : ~ contains (B "..") []) by (intros Hx; by apply find_idx_None_contains in Hx).
        specialize (Ha2 Hx). destruct Hfs as [Hst Hsl]. rewrite Hf1 in Ha2.
        change (cstr (B "../asset/blog-home//" ++ [])) with (B "../asset/blog-home/" ++ B "/") in Ha2.
        pose proof (Hsl (B "../asset/blog-home/")) as Hz. destruct (w_fs w _) as [| |rd wr o d|]; try done.
        all: by exfalso; eapply Hz. }
      rewrite Hd2, Hm, Ep. replace (said (cx_resp c1)) with (file_or_404 (w_fs w) (B "../asset/index.html")); [constructor|].
      unfold said. rewrite <- Ha1. destruct (decide _) as [Hu|]; [|done].
      unfold file_or_404 in Ha1. rewrite Hu in Ha1. destruct (w_fs w _) as [| |[] ? ? ?|]; done. }
    destruct (decide (B "/" `prefix_of` p)) as [[q Hq]|Nq].
    2: { rewrite (decide_False (P := p = B "/hello")), (decide_False (P := p = B "/world"))
           by (intros E; apply Nq; rewrite E; by apply starts_with_prefix).
         cbn [app run_vector mbind outcome_bind]. exists c, w. split; [done|]. split.
         - rewrite Hc. by apply site_outside.
         - intros E. exfalso. apply Nq. rewrite E. by apply starts_with_prefix. }
    destruct (blog_step c w q Hq Hs Hfs) as (c1 & w1 & E1 & Hq1 & Hr1 & Hu1 & Ha1).
    rewrite <- app_comm_cons. rewrite run_owned by (by apply Hf). rewrite E1. cbn [mbind outcome_bind snd app].
    rewrite Hr1, Hw.
    destruct (decide (p = B "/hello")) as [Eh|Nh].
    { rewrite run_one by done. cbn [hello_text_handler mbind outcome_bind snd]. rewrite Hr1, Hw. cbn [run_vector mbind outcome_bind].
      do 2 eexists. split; [done|]. rewrite Eh. split; [constructor|done]. }
    destruct (decide (p = B "/world")) as [Eh|Nw].
    { rewrite run_one by done. unfold world_handler, redirect_handler. cbn [mbind outcome_bind snd]. rewrite Hr1, Hw. cbn [run_vector mbind outcome_bind].
      do 2 eexists. split; [done|]. rewrite Eh. split; [constructor|]. intros _. cbn [fst cx_resp ctx_set_resp].
      unfold resp_redirect, header_get, header_add. cbn [rs_header]. by rewrite lookup_insert. }
    cbn [run_vector mbind outcome_bind]. exists c1, w1. split; [done|]. split; [|done]. rewrite Hm.
    destruct (find_idx (B "..") q) as [i|] eqn:Ei.
    { assert (Hx : contains (B "..") q) by (apply find_idx_contains; by rewrite Ei).
      rewrite (Hu1 Hx), Hq. by apply site_up. }
    assert (Hx : ~ contains (B "..") q) by (by apply find_idx_None_contains).
    specialize (Ha1 Hx). rewrite Hq.
    replace (said (cx_resp c1)) with (file_or_404 (w_fs w) (cstr (B "../asset/blog-home//" ++ q))).
    { apply site_blog; [| | |done].
      - intros ->. apply Np. exact Hq.
      - intros ->. apply Nh. exact Hq.
      - intros ->. apply Nw. exact Hq. }
    unfold file_or_404. destruct (w_fs w _) as [| |[] ? ? d|].
    + by rewrite Ha1, Hc.
    + by rewrite Ha1, Hc.
    + destruct Ha1 as [H1 <-]. unfold said. by rewrite H1.
    + destruct Ha1 as [H1 H2]. symmetry. by apply said_404.
    + by rewrite Ha1, Hc.
  - assert (Hf : forallb (fun f => f (cx_req c)) [method_filter mGET] = false).
    { cbn. unfold method_filter. by rewrite bool_decide_false. }
    assert (Hskip : forall l, run_vector ((if decide (p = B "/") then [Entry (Some (owned (fun _ => true) (static_file_handler (B "../asset/index.html")))) true [method_filter mGET];
        Entry (Some (owned (fun _ => true) (static_dir_handler (B "/") (B "../asset/blog-home/")))) false [method_filter mGET]]
      else if decide (B "/" `prefix_of` p) then [Entry (Some (owned (fun _ => true) (static_dir_handler (B "/") (B "../asset/blog-home/")))) false [method_filter mGET]] else []) ++ l) true (c, w)
      = run_vector l true (c, w)).
    { intros l. destruct (decide (p = B "/")); [|destruct (decide _)]; cbn [app]; [|..]; rewrite ?run_none by done; done. }
    rewrite Hskip.
    destruct (decide (p = B "/hello")) as [Eh|Nh].
    { rewrite run_one by done. cbn [hello_text_handler mbind outcome_bind snd]. rewrite Hw. cbn [run_vector mbind outcome_bind].
      do 2 eexists. split; [done|]. rewrite Eh. split; [constructor|done]. }
    destruct (decide (p = B "/world")) as [Eh|Nw].
    { rewrite run_one by done. unfold world_handler, redirect_handler. cbn [mbind outcome_bind snd]. rewrite Hw. cbn [run_vector mbind outcome_bind].
      do 2 eexists. split; [done|]. rewrite Eh. split; [constructor|]. intros _. cbn [fst cx_resp ctx_set_resp].
      unfold resp_redirect, header_get, header_add. cbn [rs_header]. by rewrite lookup_insert. }
    cbn [run_vector mbind outcome_bind]. exists c, w. split; [done|]. split; [|done]. rewrite Hc. by apply site_other.
Qed.
End simple.
Print Assumptions simple_server_partial.

Definition get_path (p : string) : ctx := ctx_new (Req mGET v1_1 ∅ (Route (B p) ∅) []) resp_new.
Definition demo_world (f : fs) : world unit := World true f [] ∅ tt.
Definition no_such (x : bytes) : fobj := Absent true.
Definition asset_fs : fs :=
  fs_set (fs_set (fs_set (fs_set no_such (B "../asset/index.html") (Reg true true true (B "start")))
    (B "../asset/blog-home//post.html") (Reg true true true (B "post"))) (B "../asset/blog-home//hello") (Reg true true true (B "no")))
    (B "../asset/blog-home//") (Dir true).
Definition simple_ro : router unit := match simple_routes with Ok ro => ro | _ => router_new end.
Lemma simple_ro_ok : simple_routes = Ok simple_ro.
Proof. reflexivity. Qed.
Lemma asset_orderly : orderly asset_fs.
Proof.
  split; intros x; unfold asset_fs, fs_set; repeat (destruct (decide _) as [E|_]; [try done|]); try done.
  all: intros r wr o d; apply (f_equal last) in E; change (B "/") with ["/"%char] in E; rewrite last_snoc in E; by vm_compute in E.
Qed.
Definition simple_says (p : string) : option (status_code * bytes) :=
  match dispatch simple_ro (B p) (get_path p) (demo_world asset_fs) with Ok (c, _) => Some (said (cx_resp c)) | _ => None end.
Example simple_server_ex :
  simple_says "/" = Some (sOK, B "start") /\ simple_says "/hello" = Some (sOK, B "hello world") /\
  simple_says "/post.html" = Some (sOK, B "post") /\ simple_says "/x/../post.html" = Some (sNOT_FOUND, page_404) /\
  simple_says "/none" = Some (sNOT_FOUND, page_404) /\
  exists c' w', dispatch simple_ro (B "/hello") (get_path "/hello") (demo_world asset_fs) = Ok (c', w') /\
    simple_site asset_fs mGET (B "/hello") (said (cx_resp c')).
Proof.
  do 5 (split; [by vm_compute|]).
  destruct (simple_server_partial simple_ro (get_path "/hello") (demo_world asset_fs) simple_ro_ok
    ltac:(by_compute) ltac:(by vm_compute) ltac:(done) asset_orderly) as (c' & w' & H & Hs & _). by exists c', w'.
Qed.

(** The name of a blog file may be too long for the file system: the handler throws. *)
Theorem simple_server_refuted : ~ simple_server_full.
Proof.
  intros H. destruct (H unit simple_ro (get_path "/long") (demo_world (fun _ => StatFail)) simple_ro_ok
    ltac:(by_compute) ltac:(by vm_compute) ltac:(done)) as (c' & w' & Hd & _). by vm_compute in Hd.
Qed.
Print Assumptions simple_server_refuted.

(** ** C170 *)

(** The start page of the digit demo is served for "/", and "/mnist" is for the
    handler alone. *)
Definition mnist_pages_full : Prop := forall U (h : handler U) (ro : router U) c w d o r,
  mnist_routes h = Ok ro -> rq_method (cx_req c) = mGET -> fresh c w -> path_of c = B "/" ->
  w_fs w (B "./index.html") = Reg true o r d ->
  exists c' w', dispatch ro (B "/") c w = Ok (c', w') /\ said (cx_resp c') = (sOK, d).

(** "/" is registered after "/mnist" and confused with it (C37): nothing is served
    for "/", and the page is an addition to "/mnist". *)
Theorem mnist_pages_partial : forall U (h : handler U) (ro : router U) p c w,
  mnist_routes h = Ok ro -> ascii_only p ->
  dispatch ro p c w =
    if decide (p = B "/mnist") then
      st ← h c w;
      if w_running st.2 && bool_decide (rq_method (cx_req st.1) = mGET)
      then static_file_handler (B "./index.html") st.1 st.2 else Ok st
    else Ok (c, w).
Proof.
  intros U h ro p c w Hro Hp.
  set (e1 := Entry (Some h) true []).
  set (e2 := Entry (U := U) (Some (owned (fun _ => true) (static_file_handler (B "./index.html")))) true [method_filter mGET]).
  destruct (group_accumulates_partial U (B "/mnist") [e1; e2] p c w)
    as (ro' & Hro' & H1 & H2); [by_compute|done|by repeat constructor|].
  assert (ro' = ro) as ->.
  { assert (Hsame : register_all (map (fun e => ([], B "/mnist", e)) [e1; e2]) router_new = mnist_routes h) by reflexivity.
    rewrite Hsame, Hro in Hro'. by injection Hro'. }
  destruct (decide (p = B "/mnist")) as [->|Hne]; [|by apply H2].
  specialize (H1 eq_refl). apply (chain_det _ _ _ _ H1).
  destruct (h c w) as [[c1 w1]| | | | |] eqn:E.
  2-6: (eapply chain_failed; [done|by intros f Hf%elem_of_nil|exact E|by intros [? ?]]).
  cbn [mbind outcome_bind fst snd]. destruct (w_running w1) eqn:Er; cbn [andb].
  2: { eapply chain_stopped; [done|by intros f Hf%elem_of_nil|exact E|done]. }
  eapply chain_called; [done|by intros f Hf%elem_of_nil|exact E|done|].
  destruct (bool_decide _) eqn:Eb.
  - assert (Hf : forall f, f ∈ e_filters e2 -> f (cx_req (c1, w1).1) = true).
    { intros f Hf. apply elem_of_list_singleton in Hf as ->. exact Eb. }
    destruct (static_file_handler (B "./index.html") c1 w1) as [[c2 w2]| | | | |] eqn:E2.
    2-6: (eapply chain_failed; [done|exact Hf|exact E2|by intros [? ?]]).
    destruct (w_running w2) eqn:Er2.
    + eapply chain_called; [done|exact Hf|exact E2|done|constructor].
    + eapply chain_stopped; [done|exact Hf|exact E2|done].
  - eapply chain_rejected; [by left|exact Eb|constructor].
Qed.
Print Assumptions mnist_pages_partial.

Definition page_fs : fs := fs_set no_such (B "./index.html") (Reg true true true (B "page")).
Definition silent {U} : handler U := fun c w => Ok (c, w).
Definition digits_ro : router unit := match mnist_routes silent with Ok ro => ro | _ => router_new end.
Lemma digits_ro_ok : mnist_routes silent = Ok digits_ro.
Proof. reflexivity. Qed.
Definition digits_say (p : string) : option (status_code * bytes) :=
  match dispatch digits_ro (B p) (get_path p) (demo_world page_fs) with Ok (c, _) => Some (said (cx_resp c)) | _ => None end.
Example mnist_pages_ex : digits_say "/" = Some (sNOT_FOUND, page_404) /\ digits_say "/mnist" = Some (sOK, B "page").
Proof. by vm_compute. Qed.
Theorem mnist_pages_refuted : ~ mnist_pages_full.
Proof.
  intros H. destruct (H unit silent digits_ro (get_path "/") (demo_world page_fs) (B "page") true true digits_ro_ok eq_refl
    ltac:(done) eq_refl ltac:(by vm_compute)) as (c' & w' & Hd & Hs).
  rewrite (mnist_pages_partial _ _ _ (B "/") _ _ digits_ro_ok ltac:(by_compute)) in Hd.
  rewrite decide_False in Hd by done. injection Hd as <- <-. done.
Qed.
Print Assumptions mnist_pages_refuted.

(** ** C171 *)

(** An image: 28 rows of 28 numbers. *)
Definition is_image (data : list (list Z)) : Prop := length data = 28 /\ Forall (fun row => length row = 28) data.
(** Predict leaves (at least) ten scores. *)
Definition ten_scores (network : option (list Z -> option (list spec_float))) : Prop :=
  forall predict img scores, network = Some predict -> predict img = Some scores -> 10 <= length scores.

(** Whatever a client sends, the handler answers. *)
Definition mnist_safe_full : Prop := forall U parse dump network c (w : world U),
  ten_scores network -> is_ok (mnist_handler parse dump network c w).

Lemma vec_at_ok {A} (l : list A) i x : l !! i = Some x -> vec_at l i = Ok x.
Proof. intros H. unfold vec_at. by rewrite H. Qed.
Lemma push_all_at {A} (l : list A) : forall k n, n + k <= length l ->
  push_all (vec_at l) (seq n k) = Ok (take k (drop n l)).
Proof.
  induction k as [|k IH]; intros n H; [by rewrite take_0|]. cbn [seq push_all].
  destruct (lookup_lt_is_Some_2 l n) as [x Hx]; [lia|]. rewrite (vec_at_ok _ _ _ Hx). cbn [mbind outcome_bind].
  rewrite IH by lia. cbn [mbind outcome_bind]. rewrite (drop_S l x n Hx). done.
Qed.
Lemma push_all_rows (data : list (list Z)) : is_image data ->
  push_all (fun i => row ← vec_at data i; push_all (vec_at row) (seq 0 28)) (seq 0 28) = Ok data.
Proof.
  intros [Hl Hr].
  assert (Hgen : forall k n, n + k = 28 ->
    push_all (fun i => row ← vec_at data i; push_all (vec_at row) (seq 0 28)) (seq n k) = Ok (drop n data)).
  { induction k as [|k IH]; intros n H.
    - cbn. by rewrite drop_ge by lia.
    - change (seq n (S k)) with (n :: seq (S n) k). cbn [push_all]. destruct (lookup_lt_is_Some_2 data n) as [row Hx]; [lia|]. rewrite (vec_at_ok _ _ _ Hx).
      cbn [mbind outcome_bind].
      assert (Hlr : length row = 28). { apply (proj1 (Forall_forall _ _) Hr). by eapply elem_of_list_lookup_2. }
      rewrite push_all_at by lia. cbn [mbind outcome_bind]. rewrite drop_0, take_ge by lia.
      rewrite IH by lia. cbn [mbind outcome_bind]. by rewrite (drop_S data row n Hx). }
  rewrite (Hgen 28 0) by lia. by rewrite drop_0.
Qed.
Lemma rows_fit_spec (data : list (list Z)) : length data = 28 ->
  rows_fit 28 0 data = Ok (bool_decide (Forall (fun row => length row = 28) data)).
Proof.
  intros Hl.
  assert (Hgen : forall k n, n + k = 28 -> rows_fit k n data = Ok (bool_decide (Forall (fun row => length row = 28) (drop n data)))).
  { induction k as [|k IH]; intros n H.
    - cbn. rewrite drop_ge by lia. by rewrite bool_decide_true by constructor.
    - cbn [rows_fit]. destruct (lookup_lt_is_Some_2 data n) as [row Hx]; [lia|]. rewrite (vec_at_ok _ _ _ Hx).
      cbn [mbind outcome_bind]. rewrite (drop_S data row n Hx), IH by lia.
      destruct (Nat.eqb_spec (length row) 28) as [E|E].
      + f_equal. apply bool_decide_ext. rewrite Forall_cons. tauto.
      + f_equal. symmetry. apply bool_decide_false. rewrite Forall_cons. tauto. }
  rewrite (Hgen 28 0) by lia. by rewrite drop_0.
Qed.
Lemma best_score_ok scores : forall n i r m, i + n <= length scores ->
  exists k, best_score n i scores r m = Ok k /\ (k = r \/ i <= k < i + n).
Proof.
  induction n as [|n IH]; intros i r m H; [exists r; by split; [|left]|]. cbn [best_score].
  destruct (lookup_lt_is_Some_2 scores i) as [x Hx]; [lia|]. rewrite (vec_at_ok _ _ _ Hx). cbn [mbind outcome_bind].
  destruct (SFltb m x).
  - destruct (IH (S i) i x) as (k & E & Hk); [lia|]. exists k. split; [done|]. right. lia.
  - destruct (IH (S i) r m) as (k & E & Hk); [lia|]. exists k. split; [done|]. destruct Hk; [by left|right; lia].
Qed.

Lemma mnist_result_ok network data : ten_scores network -> is_image data ->
  exists k, mnist_result network data = Ok k /\ (k = (-1) \/ 0 <= k <= 9)%Z.
Proof.
  intros Hten Him. unfold mnist_result. destruct network as [predict|]; [|exists (-1)%Z; split; [done|by left]].
  rewrite push_all_rows by done. cbn [mbind outcome_bind].
  destruct (predict (concat data)) as [scores|] eqn:Ep; [|exists (-1)%Z; split; [done|by left]].
  specialize (Hten predict (concat data) scores eq_refl Ep).
  destruct (lookup_lt_is_Some_2 scores 0) as [m Hm]; [lia|]. rewrite (vec_at_ok _ _ _ Hm). cbn [mbind outcome_bind].
  destruct (best_score_ok scores 10 0 0 m) as (k & E & Hk); [lia|]. rewrite E. cbn [mbind outcome_bind].
  exists (Z.of_nat k). split; [done|]. right. lia.
Qed.

(** An image gets an answer with a digit (or -1); nothing is read outside of the
    vectors.  Missing: anything else a client may send is answered with a number that
    was never set. *)
Theorem mnist_safe_partial : forall U parse dump network c (w : world U) rc data,
  ten_scores network -> parse (rq_body (cx_req c)) = (rc, data) ->
  (rc = 0%Z /\ is_image data ->
     exists k c', mnist_handler parse dump network c w = Ok (c', w) /\ (k = (-1) \/ 0 <= k <= 9)%Z /\
       mnist_result network data = Ok k /\
       said (cx_resp c') = (sOK, dump 200%Z (B "ok") k)) /\
  (~ (rc = 0%Z /\ is_image data) -> mnist_handler parse dump network c w = UB).
Proof.
  intros U parse dump network c w rc data Hten Hp. unfold mnist_handler. rewrite Hp. split.
  - intros [-> Him]. change (negb (0 =? 0)%Z) with false. cbn iota.
    destruct Him as [Hl Hr]. rewrite Hl. change (negb (28 =? 28)) with false. cbn iota.
    rewrite rows_fit_spec by done. rewrite bool_decide_true by done. cbn [mbind outcome_bind negb].
    rewrite push_all_rows by done. cbn [mbind outcome_bind].
    destruct (mnist_result_ok network data Hten (conj Hl Hr)) as (k & E & Hk). rewrite E. cbn [mbind outcome_bind mnist_dump mr_code mr_result mr_msg].
    exists k. eexists. split; [done|]. done.
  - intros Hn. destruct (Z.eqb_spec rc 0) as [->|Hrc]; cbn [negb]; [|done].
    destruct (Nat.eqb_spec (length data) 28) as [Hl|Hl]; cbn [negb]; [|done].
    rewrite rows_fit_spec by done. destruct (bool_decide _) eqn:Eb; cbn [mbind outcome_bind negb]; [|done].
    apply bool_decide_eq_true in Eb. exfalso. apply Hn. done.
Qed.
Print Assumptions mnist_safe_partial.

Definition blank_image : list (list Z) := repeat (repeat 0%Z 28) 28.
(** A "network" that likes the digit given by the first pixel. *)
Definition sf (n : positive) : spec_float := S754_finite false n 0.
Definition demo_net : option (list Z -> option (list spec_float)) :=
  Some (fun img => Some (map (fun d => if decide (head img = Some (Z.of_nat d)) then sf 2 else sf 1) (seq 0 10))).
Lemma demo_net_ten : ten_scores demo_net.
Proof. intros p img scores Hp Hs. injection Hp as <-. injection Hs as <-. cbn. lia. Qed.
Definition demo_parse (s : bytes) : Z * list (list Z) :=
  match s with [] => (1%Z, []) | _ => (0%Z, (7%Z :: repeat 0%Z 27) :: repeat (repeat 0%Z 28) 27) end.
Definition demo_dump (code : Z) (msg : bytes) (result : Z) : bytes := int_to_string code ++ msg ++ int_to_string result.
Definition post_body (s : string) : ctx := ctx_new (Req mPOST v1_1 ∅ (Route (B "/mnist") ∅) (B s)) resp_new.
Example mnist_safe_ex :
  exists c', mnist_handler demo_parse demo_dump demo_net (post_body "[...]") (demo_world no_such) = Ok (c', demo_world no_such) /\
    said (cx_resp c') = (sOK, B "200ok7").
Proof.
  destruct (mnist_safe_partial unit demo_parse demo_dump demo_net (post_body "[...]") (demo_world no_such) 0
    ((7%Z :: repeat 0%Z 27) :: repeat (repeat 0%Z 28) 27) demo_net_ten eq_refl) as [H _].
  destruct H as (k & c' & H & _ & Hk & Hs); [split; [done|split; [done|by repeat constructor]]|].
  exists c'. split; [done|]. rewrite Hs. vm_compute in Hk. by injection Hk as <-.
Qed.
Theorem mnist_safe_refuted : ~ mnist_safe_full.
Proof.
  intros H. destruct (H unit demo_parse demo_dump demo_net (post_body "") (demo_world no_such) demo_net_ten) as [x Hx].
  by vm_compute in Hx.
Qed.
Print Assumptions mnist_safe_refuted.

(** ** C172 *)

Definition is_number (x : spec_float) : Prop := x <> S754_nan.
(** [k] is the digit with the best score: a number that no score exceeds, and the
    first such. *)
Definition wins (scores : list spec_float) (k : nat) : Prop :=
  exists x, scores !! k = Some x /\ is_number x /\ k < 10 /\
    (forall j y, j < 10 -> scores !! j = Some y -> SFltb x y = false) /\
    (forall j y, j < k -> scores !! j = Some y -> is_number y -> SFltb y x = true).
Definition best_digit_full : Prop := forall predict data scores k,
  is_image data -> predict (concat data) = Some scores -> 10 <= length scores ->
  (exists j y, j < 10 /\ scores !! j = Some y /\ is_number y) ->
  mnist_result (Some predict) data = Ok (Z.of_nat k) -> wins scores k.

Ltac sf_cases :=
  repeat match goal with
  | H : context[Pos.compare_cont Eq ?a ?b] |- _ => change (Pos.compare_cont Eq a b) with (a ?= b)%positive in H
  | |- context[Pos.compare_cont Eq ?a ?b] => change (Pos.compare_cont Eq a b) with (a ?= b)%positive
  end;
  repeat match goal with
  | H : context[(?a ?= ?b)%Z] |- _ => destruct (Z.compare_spec a b); subst; try done; try lia
  | |- context[(?a ?= ?b)%Z] => destruct (Z.compare_spec a b); subst; try done; try lia
  | H : context[(?a ?= ?b)%positive] |- _ => destruct (Pos.compare_spec a b); subst; try done; try lia
  | |- context[(?a ?= ?b)%positive] => destruct (Pos.compare_spec a b); subst; try done; try lia
  end.
Lemma sf_trans x y z : SFltb x y = true -> SFltb y z = true -> SFltb x z = true.
Proof.
  unfold SFltb. destruct x as [sx|sx| |sx mx ex], y as [sy|sy| |sy my ey], z as [sz|sz| |sz mz ez]; cbn;
    try destruct sx; try destruct sy; try destruct sz; try done.
  all: intros H1 H2; sf_cases.
Qed.
Lemma sf_le_lt x y z : is_number x -> is_number y -> SFltb y x = false -> SFltb y z = true -> SFltb x z = true.
Proof.
  unfold is_number, SFltb. destruct x as [sx|sx| |sx mx ex], y as [sy|sy| |sy my ey], z as [sz|sz| |sz mz ez]; cbn;
    try destruct sx; try destruct sy; try destruct sz; try done.
  all: intros _ _ H1 H2; sf_cases.
Qed.
Lemma sf_lt_number x y : SFltb x y = true -> is_number x /\ is_number y.
Proof. by destruct x, y. Qed.
Lemma sf_nan_r x : SFltb x S754_nan = false.
Proof. by destruct x as [[]|[]| |[] ? ?]. Qed.
Lemma sf_irrefl x : SFltb x x = false.
Proof. unfold SFltb. destruct x as [[]|[]| |[] m e]; cbn; try done; sf_cases. Qed.

Lemma best_score_wins scores : forall n i r m k, i + n <= length scores ->
  scores !! r = Some m -> is_number m -> r <= i ->
  (forall j y, j < i -> scores !! j = Some y -> SFltb m y = false) ->
  (forall j y, j < r -> scores !! j = Some y -> is_number y -> SFltb y m = true) ->
  best_score n i scores r m = Ok k ->
  exists x, scores !! k = Some x /\ is_number x /\
    (forall j y, j < i + n -> scores !! j = Some y -> SFltb x y = false) /\
    (forall j y, j < k -> scores !! j = Some y -> is_number y -> SFltb y x = true).
Proof.
  induction n as [|n IH]; intros i r m k Hl Hr Hm Hri H1 H2 H.
  - injection H as <-. exists m. split; [done|]. split; [done|]. split; [|done]. intros j y Hj. apply H1. lia.
  - cbn [best_score] in H. destruct (lookup_lt_is_Some_2 scores i) as [x Hx]; [lia|]. rewrite (vec_at_ok _ _ _ Hx) in H.
    cbn [mbind outcome_bind] in H. destruct (SFltb m x) eqn:E.
    + destruct (IH (S i) i x k) as (z & Hz); [lia|done|by apply (sf_lt_number m x)|lia| | |done|].
      * intros j y Hj Hy. destruct (decide (j = i)) as [->|Hne].
        { rewrite Hx in Hy. injection Hy as <-. apply sf_irrefl. }
        destruct (SFltb x y) eqn:E2; [|done]. pose proof (sf_trans _ _ _ E E2) as E3.
        rewrite (H1 j y) in E3; [done|lia|done].
      * intros j y Hj Hy Hn. apply (sf_le_lt y m x); [done|done| |done]. apply (H1 j); [lia|done].
      * exists z. by replace (i + S n) with (S i + n) by lia.
    + destruct (IH (S i) r m k) as (z & Hz); [lia|done|done|lia| |done|done|].
      * intros j y Hj Hy. destruct (decide (j = i)) as [->|Hne]; [|apply (H1 j); [lia|done]].
        rewrite Hx in Hy. by injection Hy as <-.
      * exists z. by replace (i + S n) with (S i + n) by lia.
Qed.

(** Missing: a first score that is not a number. *)
Theorem best_digit_partial : forall predict data scores k m,
  is_image data -> predict (concat data) = Some scores -> 10 <= length scores ->
  scores !! 0 = Some m -> is_number m ->
  mnist_result (Some predict) data = Ok (Z.of_nat k) -> wins scores k.
Proof.
  intros predict data scores k m Him Hp Hl Hm Hn H. unfold mnist_result in H. rewrite push_all_rows in H by done.
  cbn [mbind outcome_bind] in H. rewrite Hp, (vec_at_ok _ _ _ Hm) in H. cbn [mbind outcome_bind] in H.
  destruct (best_score_ok scores 10 0 0 m) as (k' & E & Hk); [lia|]. rewrite E in H. cbn [mbind outcome_bind] in H.
  injection H as H. assert (k' = k) as -> by lia.
  destruct (best_score_wins scores 10 0 0 m k) as (x & Hx & Hnx & H1 & H2); [lia|done|done|lia|intros; lia|intros; lia|done|].
  exists x. split; [done|]. split; [done|]. split; [lia|]. done.
Qed.
Print Assumptions best_digit_partial.
Example best_digit_ex : exists k x, mnist_result (Some (fun _ => Some (map sf [3; 9; 4; 9; 1; 1; 1; 1; 1; 2]%positive))) blank_image = Ok (Z.of_nat k) /\
  map sf [3; 9; 4; 9; 1; 1; 1; 1; 1; 2]%positive !! 0 = Some x /\ is_number x /\ k = 1.
Proof. exists 1, (sf 3). by vm_compute. Qed.
Theorem best_digit_refuted : ~ best_digit_full.
Proof.
  intros H. set (scores := S754_nan :: map sf [9; 4; 9; 1; 1; 1; 1; 1; 2]%positive).
  destruct (H (fun _ => Some scores) blank_image scores 0) as (x & Hx & Hn & _).
  - split; [done|by repeat constructor].
  - done.
  - cbn. lia.
  - exists 1, (sf 9). split; [lia|]. done.
  - by vm_compute.
  - injection Hx as <-. by apply Hn.
Qed.
Print Assumptions best_digit_refuted.
