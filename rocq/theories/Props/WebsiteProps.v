(** C178, C179, C185-C187: the configurable web server (demo/web-server/main.cpp) and its
    visitors, from Send to Send. *)
From Verif.Lib Require Import CxxStringFacts.
From Verif.Model Require Import ClientServer WebServer.
From Verif.Proof Require Import ReqProof RespProof RouterProof FileProof ServerProof HttpSystemProof PrivacyProof StrangerProof.
From Verif.Spec Require Import StringSpec.
From Verif.Props Require Import MessageProps RouterProps StaticProps WebServerProps ServerProps HttpSystemProps ClientProps ClientServerProps.

(** ** Specification *)

(** The answers of a site: a page, a redirection, "not found". *)
Inductive site_answer : Type := APage (d : bytes) | ARedirect (url : bytes) | ANone.

(** [it] is the only item of the configuration that covers path [p] at [h]. *)
Definition only_item (f : fs) (cfg : web_config) (p h : bytes) (it : static_item) : Prop :=
  exists s1 s2, wc_statics cfg = s1 ++ it :: s2 /\ hits_static f p h it /\
    (forall it', it' ∈ wc_redirects cfg -> ~ hits_redirect p h it') /\
    (forall it', it' ∈ s1 ++ s2 -> ~ hits_static f p h it').
Definition file_in (it : static_item) (rest : bytes) : bytes := si_path it ++ B "/" ++ rest.

Inductive site (f : fs) (cfg : web_config) (p h : bytes) : site_answer -> Prop :=
| site_redirect r1 it r2 :
    wc_redirects cfg = r1 ++ it :: r2 -> hits_redirect p h it ->
    (forall it', it' ∈ r1 ++ r2 -> ~ hits_redirect p h it') ->
    (forall it', it' ∈ wc_statics cfg -> ~ hits_static f p h it') ->
    site f cfg p h (ARedirect (rd_redirect it))
| site_file it rd wr o d :
    only_item f cfg p h it -> f (cstr (si_path it)) = Reg rd wr o d -> fits (si_path it) ->
    site f cfg p h (if rd then APage d else ANone)
| site_dir it rest rd wr o d :
    only_item f cfg p h it -> is_dir f it -> p = si_route it ++ rest -> ~ contains (B "..") rest ->
    f (cstr (file_in it rest)) = Reg rd wr o d -> fits (file_in it rest) ->
    site f cfg p h (if rd then APage d else ANone)
| site_missing it rest :
    only_item f cfg p h it -> is_dir f it -> p = si_route it ++ rest ->
    contains (B "..") rest \/ (exists b, f (cstr (file_in it rest)) = Absent b \/ f (cstr (file_in it rest)) = Dir b) ->
    site f cfg p h ANone
| site_nothing :
    (forall it', it' ∈ wc_redirects cfg -> ~ hits_redirect p h it') ->
    (forall it', it' ∈ wc_statics cfg -> ~ hits_static f p h it') ->
    site f cfg p h ANone.

(** What a visitor gets to see. *)
Definition shows (a : site_answer) (r : resp) : Prop :=
  match a with
  | APage d => rs_status r = sOK /\ rs_body r = d
  | ARedirect url => rs_status r = sFOUND /\ rs_header r !! B "Location" = Some url
  | ANone => rs_status r = sNOT_FOUND
  end.

(** A visit: GET of a path that can be sent, with a Host; the answer has at most [M]
    bytes and no NUL bytes. *)
Definition path_of_req (q : req) : bytes := rt_path (rq_route q).
Definition host_of_req (q : req) : bytes := header_get_host (rq_header q).
Definition small_answer (M : nat) (a : site_answer) : Prop :=
  match a with
  | APage d => NUL ∉ d /\ length d + 300 <= M
  | ARedirect url => carried (B "Location", url) /\ url <> [] /\ length url + 300 <= M
  | ANone => 300 <= M
  end.
Record visit (M : nat) (f : fs) (cfg : web_config) (q : req) : Prop := {
  vi_method : rq_method q = mGET; vi_version : rq_version q <> vUNKNOWN;
  vi_short : forall hit rit, valid_order hit -> valid_order rit -> short (snd (req_build hit rit q []));
  vi_header : ReqProof.sendable (rq_header q);
  vi_host : host_of_req q <> [];
  vi_path : plain_except (B "?") (path_of_req q);
  vi_target : path_of_req q <> [] \/ rt_params (rq_route q) <> ∅;
  vi_params : forall k v, rt_params (rq_route q) !! k = Some v -> plain_except (B "=&") k /\ "&"%char ∉ v;
  vi_body : NUL ∉ rq_body q;
  vi_answer : exists a, site f cfg (path_of_req q) (host_of_req q) a /\ small_answer M a }.

(** Visits only; send(2) of the server takes [M] bytes; no time-outs. *)
Definition visitor (M : nat) (f : fs) (cfg : web_config) (l : nlab) : Prop :=
  match l with
  | NCall _ hit rit q => valid_order hit /\ valid_order rit /\ visit M f cfg q
  | NServer (LServe _ _ wr) | NServer (LResume _ wr) => big M wr
  | NServer _ | NOther _ => False
  | _ => True
  end.
(** The same with strangers [X], who send what they like. *)
Definition visitor_with (X : nat -> Prop) (M : nat) (f : fs) (cfg : web_config) (l : nlab) : Prop :=
  match l with
  | NConnect i => ~ X i
  | NCall _ hit rit q => valid_order hit /\ valid_order rit /\ visit M f cfg q
  | NServer (LServe i _ wr) | NServer (LResume i wr) => X i \/ big M wr
  | NServer (LTimeout i _) | NOther (LOpen i) | NOther (LSend i _) | NOther (LFin i) => X i
  | NServer _ | NOther _ => False
  | _ => True
  end.

(** The requests that the site cannot take: bytes that are not ASCII in the path
    (undefined behaviour in the search tree), or GET of something in a directory of the
    configuration about which stat(2) fails (an exception of std::filesystem). *)
Definition site_fails (f : fs) (cfg : web_config) (r : req) : Prop :=
  ~ ascii_only (path_of_req r) \/
  rq_method r = mGET /\ exists it rest, it ∈ wc_statics cfg /\ is_dir f it /\ for_host (host_of_req r) (si_host it) /\
    path_of_req r = si_route it ++ rest /\ ~ contains (B "..") rest /\ f (cstr (file_in it rest)) = StatFail.

(** ** Proofs *)

Definition page_types : list bytes :=
  [B "text/plain"; B "text/html"; B "text/css"; B "text/javascript"; B "application/json"; B "application/octet-stream";
   B "image/png"; B "image/jpeg"; B "image/gif"; B "image/webp"].
Definition page_of (t d : bytes) : resp :=
  Resp sOK (rs_version resp_new) (<[B "Content-Type" := t]> (<[B "Connection" := B "keep-alive"]> ∅)) d.
Definition answer_is (a : site_answer) (p : resp) : Prop :=
  match a with
  | APage d => exists t, t ∈ page_types /\ p = page_of t d
  | ARedirect u => p = resp_redirect resp_new u false
  | ANone => p = resp_not_found resp_new
  end.
Definition at_rest {U} (f : fs) (w : world U) : Prop := w_fs w = f /\ w_custom w = ∅.

Lemma page_type x ft : exists t, t ∈ page_types /\ convert_to_str ∅ (convert_file_type ∅ ft) x = (t, ∅).
Proof.
  unfold convert_file_type. rewrite lookup_empty.
  repeat match goal with |- context [if ?b then _ else _] => destruct b end; eexists; (split; [|reflexivity]); by_compute.
Qed.

Lemma file_page {U} f file q (w : world U) rd wr o d : at_rest f w -> fits file -> f (cstr file) = Reg rd wr o d ->
  exists c' w', static_file_handler file (ctx_new q resp_new) w = Ok (c', w') /\ at_rest f w' /\
    answer_is (if rd then APage d else ANone) (reply (cx_resp c')).
Proof.
  intros [<- Hc] Hf Hfs. unfold static_file_handler, file_exist, file_read. rewrite Hfs. cbn [mbind outcome_bind negb fst snd].
  destruct rd; cbn [mbind outcome_bind fst snd].
  2: { change (negb (kLogicErr =? kSuccess)%Z) with true. cbv iota. do 2 eexists. split; [reflexivity|]. by split. }
  change (negb (kSuccess =? kSuccess)%Z) with false. cbv iota.
  destruct (file_suffix_ok _ Hf) as (co & x & _ & _ & Hs). rewrite Hs. cbn [mbind outcome_bind].
  cbn [opened w_custom]. rewrite Hc. destruct (page_type x x) as (t & Ht & ->).
  do 2 eexists. split; [reflexivity|]. split; [done|]. exists t. split; [done|]. done.
Qed.

Lemma dir_page {U} f m rest dir q (w : world U) rd wr o d : at_rest f w -> fits (path_of_req q) -> fits (dir ++ B "/" ++ rest) ->
  path_of_req q = m ++ rest -> ~ contains (B "..") rest -> f (cstr (dir ++ B "/" ++ rest)) = Reg rd wr o d ->
  exists c' w', static_dir_handler m dir (ctx_new q resp_new) w = Ok (c', w') /\ at_rest f w' /\
    answer_is (if rd then APage d else ANone) (reply (cx_resp c')).
Proof.
  intros [<- Hc] Hf Hff Hp Hnd Hfs.
  destruct (static_dir_found [] m rest (ctx_new q resp_new) Hf Hp) as (E1 & E2 & E3); [intros j Hj; cbn in Hj; lia|done|].
  unfold path_of in *. unfold static_dir_handler. rewrite E1, E2. cbn [mbind outcome_bind].
  rewrite E3. cbn [negb]. unfold file_exist, file_read. rewrite Hfs. cbn [mbind outcome_bind negb fst snd].
  destruct rd; cbn [mbind outcome_bind fst snd].
  2: { change (negb (kLogicErr =? kSuccess)%Z) with true. cbv iota. do 2 eexists. split; [reflexivity|]. by split. }
  change (negb (kSuccess =? kSuccess)%Z) with false. cbv iota.
  destruct (file_suffix_ok _ Hff) as (co & x & _ & _ & Hs).
  cbn [app] in Hs |- *. rewrite Hs. cbn [mbind outcome_bind].
  unfold resp_success, header_set_content_type. cbn [opened w_custom]. rewrite Hc.
  destruct (page_type [] x) as (t & Ht & ->).
  do 2 eexists. split; [reflexivity|]. split; [done|]. exists t. split; [done|]. done.
Qed.

Lemma dir_missing {U} f m rest dir q (w : world U) : at_rest f w -> fits (path_of_req q) ->
  path_of_req q = m ++ rest ->
  contains (B "..") rest \/ (exists b, f (cstr (dir ++ B "/" ++ rest)) = Absent b \/ f (cstr (dir ++ B "/" ++ rest)) = Dir b) ->
  exists c' w', static_dir_handler m dir (ctx_new q resp_new) w = Ok (c', w') /\ at_rest f w' /\
    answer_is ANone (reply (cx_resp c')).
Proof.
  intros [<- Hc] Hf Hp Hm. unfold static_dir_handler. cbn [ctx_new cx_req cx_resp]. fold (path_of_req q).
  destruct (static_dir_aim m (path_of_req q) Hf) as [[E _]|(a & r & Hr & Ha & E & Es)].
  { rewrite E, N.eqb_refl. do 2 eexists. split; [reflexivity|]. by split. }
  rewrite E, Es. cbn [mbind outcome_bind].
  assert (a = []) as ->.
  { destruct a as [|x a]; [done|]. exfalso. apply (Ha 0); [cbn; lia|]. rewrite Hp. by exists rest. }
  cbn [app] in Hr. rewrite Hr in Hp. apply app_inv_head in Hp as ->.
  assert (Hfr : fits rest). { rewrite Hr in Hf. by apply fits_app_r in Hf. }
  destruct (find_dotdot rest Hfr) as [[E2 Hnd]|[E2 _]]; rewrite E2; cbn [negb].
  2: { do 2 eexists. split; [reflexivity|]. by split. }
  destruct Hm as [Hm|(b & Hm)]; [done|]. unfold file_exist.
  destruct Hm as [-> | ->]; cbn [mbind outcome_bind negb]; do 2 eexists; (split; [reflexivity|]); by split.
Qed.

Lemma path_fits q : (forall hit rit, valid_order hit -> valid_order rit -> short (snd (req_build hit rit q []))) ->
  rq_method q <> mUNKNOWN -> rq_version q <> vUNKNOWN -> plain_except (B "?") (path_of_req q) -> fits (path_of_req q).
Proof.
  intros Hs Hm Hv Hp. specialize (Hs map_to_list map_to_list (fun _ => reflexivity _) (fun _ => reflexivity _)).
  rewrite req_build_ok in Hs by done. cbn [snd] in Hs. apply short_fits in Hs. apply fits_app_l in Hs.
  unfold built_line in Hs. apply fits_app_r, fits_cons_r, fits_app_l in Hs.
  pose proof (plain_except_encode _ _ Hp) as He. fold (path_of_req q) in *. unfold path_of_req in *.
  unfold route_to_string in Hs. case_decide as Hd; [by rewrite He in Hs|].
  unfold pop_back in Hs. rewrite removelast_app in Hs by done. rewrite url_encode_app, He in Hs. by apply fits_app_l in Hs.
Qed.

Lemma thin_nothing {U} f cfg c : (forall it', it' ∈ wc_redirects cfg -> ~ hits_redirect (path_of c) (host_of c) it') ->
  (forall it', it' ∈ wc_statics cfg -> ~ hits_static f (path_of c) (host_of c) it') ->
  thin (U := U) (fun e => accepts e (cx_req c)) (path_of c) (regs_of f cfg) [].
Proof.
  intros Hr Hs. apply thin_none. intros x Hx HA HC. apply elem_of_app in Hx as [Hx|Hx]; apply elem_of_list_fmap in Hx as (it' & -> & Hx).
  - apply (Hr it' Hx). split; [exact HC|]. unfold accepts in HA. cbn in HA. rewrite host_accepts in HA. by apply bool_decide_eq_true in HA.
  - apply (Hs it' Hx). unfold concerns, reg_key in HC. cbn in HC. unfold accepts in HA. cbn in HA. unfold hits_static, is_dir.
    destruct (f (cstr (si_path it'))) eqn:Ef; cbn in HA, HC; rewrite forallb_app, host_accepts in HA; apply andb_true_iff in HA as [HA _];
      apply bool_decide_eq_true in HA; (split; [|done]); try (by left); right; (split; [by eexists|done]).
Qed.

Section site.
Context {U : Type} (f : fs) (cfg : web_config) (ro : router U).
Context (Ha : ascii_config cfg) (Ho : in_order (routes_of cfg)) (Hro : web_routes f cfg = Ok (Some ro)).

Lemma site_dispatch q a (w : world U) : at_rest f w -> ascii_only (path_of_req q) -> fits (path_of_req q) -> rq_method q = mGET ->
  site f cfg (path_of_req q) (host_of_req q) a ->
  exists c' w', dispatch ro (path_of_req q) (ctx_new q resp_new) w = Ok (c', w') /\ at_rest f w' /\
    answer_is a (reply (cx_resp c')).
Proof.
  intros Hw Hp Hf Hm Hsite. destruct Hsite as [r1 it r2 E Hit Hr Hs|it rd wr o d (s1 & s2 & E & Hit & Hr & Hs) Hfs Hff
    |it rest rd wr o d (s1 & s2 & E & Hit & Hr & Hs) Hd Hpr Hnd Hfs Hff|it rest (s1 & s2 & E & Hit & Hr & Hs) Hd Hpr Hmi|Hr Hs].
  - assert (HF : Forall (there f) (wc_statics cfg)).
    { unfold web_routes in Hro. destruct (add_redirects _ _) as [r| | | | |]; try done. by eapply add_statics_there. }
    destruct (dispatch_accepted (U := U) f cfg Ha Ho HF) as (r0 & E0 & D0). rewrite Hro in E0. injection E0 as <-.
    rewrite D0 by done. 
    rewrite (filter_concerning _ _ _ _ (thin_redirect f cfg r1 it r2 (ctx_new q resp_new) E Hr Hs) : 
      List.filter _ (concerning _ (path_of_req q)) = _).
    assert (HA : accepts (U := U) (redirect_reg it).2 q = true).
    { unfold accepts. cbn. rewrite host_accepts. apply bool_decide_eq_true. apply Hit. }
    rewrite concerning_one; [|by apply Hit|done]. cbn [run_vector negb andb fst cx_req ctx_new]. rewrite HA.
    cbn [redirect_reg snd e_callback]. unfold redirect_handler. cbn [mbind outcome_bind snd fst].
    destruct (w_running w); cbn [mbind outcome_bind fst]; do 2 eexists; (split; [reflexivity|]); by split.
  - rewrite (only_static f cfg ro s1 it s2 (ctx_new q resp_new) w Ha Hro Ho Hp E Hit Hm Hr Hs
      : dispatch ro (path_of_req q) (ctx_new q resp_new) w = _). rewrite Hfs. by eapply file_page.
  - rewrite (only_static f cfg ro s1 it s2 (ctx_new q resp_new) w Ha Hro Ho Hp E Hit Hm Hr Hs
      : dispatch ro (path_of_req q) (ctx_new q resp_new) w = _). destruct Hd as [o' ->]. by eapply dir_page.
  - rewrite (only_static f cfg ro s1 it s2 (ctx_new q resp_new) w Ha Hro Ho Hp E Hit Hm Hr Hs
      : dispatch ro (path_of_req q) (ctx_new q resp_new) w = _). destruct Hd as [o' ->]. by eapply dir_missing.
  - assert (HF : Forall (there f) (wc_statics cfg)).
    { unfold web_routes in Hro. destruct (add_redirects _ _) as [r| | | | |]; try done. by eapply add_statics_there. }
    destruct (dispatch_accepted (U := U) f cfg Ha Ho HF) as (r0 & E0 & D0). rewrite Hro in E0. injection E0 as <-.
    rewrite D0 by done.
    rewrite (filter_concerning _ _ _ _ (thin_nothing f cfg (ctx_new q resp_new) Hr Hs) :
      List.filter _ (concerning _ (path_of_req q)) = _).
    assert (En : forall A p, List.filter A (concerning (registered (U := U) []) p) = []).
    { intros A p. unfold concerning. induction (seq 0 (S (length p))) as [|i l IH]; [done|]. cbn [flat_map]. rewrite List.filter_app, IH. done. }
    rewrite En. cbn [run_vector mbind outcome_bind fst]. do 2 eexists. split; [reflexivity|]. by split.
Qed.

End site.

(** The answers can be sent. *)
Lemma digits_len (n : nat) : (N.of_nat n < 2 ^ 31)%N -> length (int_to_string (to_int32 (Z.of_N (N.of_nat n)))) <= 32.
Proof.
  intros H. rewrite to_int32_nat by done. apply pid_len. unfold int_max. lia.
Qed.
Lemma small_text hit p kvs : valid_order hit -> rs_status p <> sUNKNOWN -> (N.of_nat (length (rs_body p)) < 2 ^ 31)%N ->
  rs_header p = list_to_map kvs -> NoDup (map fst kvs) -> B "Content-Length" ∉ map fst kvs ->
  length (snd (resp_build hit p [])) <=
    length (resp_built_line p) + 54 + length (crlf_lines (field_lines kvs)) + length (rs_body p).
Proof.
  intros Hit Hst Hb Hh Hnd Hcl. rewrite resp_build_ok by done. cbn [snd]. rewrite !app_length.
  assert (Hperm : hit (resp_built_header p) ≡ₚ (B "Content-Length", int_to_string (to_int32 (Z.of_N (size (rs_body p))))) :: kvs).
  { rewrite (Hit _). unfold resp_built_header. rewrite Hh, map_to_list_insert.
    - by rewrite map_to_list_to_map.
    - by apply not_elem_of_list_to_map_1. }
  rewrite (lines_length _ _ Hperm).
  change (crlf_lines (field_lines ((B "Content-Length", int_to_string (to_int32 (Z.of_N (size (rs_body p))))) :: kvs)))
    with (((B "Content-Length" ++ B ": " ++ int_to_string (to_int32 (Z.of_N (size (rs_body p))))) ++ CRLF) ++ crlf_lines (field_lines kvs)).
  rewrite !app_length. pose proof (digits_len (length (rs_body p)) Hb) as Hd. unfold size.
  change (length (B "Content-Length")) with 14. change (length (B ": ")) with 2. change (length CRLF) with 2. lia.
Qed.

Definition field_ok (kv : bytes * bytes) : Prop := carried kv /\ kv.2 <> [].
Lemma answer_sent M p kvs : (N.of_nat M < 2 ^ 31)%N -> rs_status p <> sUNKNOWN -> rs_version p <> vUNKNOWN ->
  rs_header p = list_to_map kvs -> NoDup (map fst kvs) -> B "Content-Length" ∉ map fst kvs -> Forall field_ok kvs ->
  NUL ∉ rs_body p ->
  length (resp_built_line p) + 54 + length (crlf_lines (field_lines kvs)) + length (rs_body p) <= M ->
  resp_sendable (rs_header p) /\ rs_version p <> vUNKNOWN /\ NUL ∉ rs_body p /\
  forall hit, valid_order hit -> short (snd (resp_build hit p [])) /\ length (snd (resp_build hit p [])) <= M.
Proof.
  intros HM Hst Hv Hh Hnd Hcl Hok Hn Hl. split.
  { intros k v Hk _. rewrite Hh in Hk. apply elem_of_list_to_map_2 in Hk. apply (proj1 (Forall_forall _ _) Hok _ Hk). }
  do 2 (split; [done|]). intros hit V.
  assert (Hb : (N.of_nat (length (rs_body p)) < 2 ^ 31)%N) by lia.
  pose proof (small_text hit p kvs V Hst Hb Hh Hnd Hcl) as Ht. unfold short. split; lia.
Qed.

Ltac field_is_ok := split; [repeat split; [by_compute| | |done]; intros HH; by apply find_idx_None_contains in HH|done].
Lemma answer_good M a p : (N.of_nat M < 2 ^ 31)%N -> small_answer M a -> answer_is a p ->
  resp_sendable (rs_header p) /\ rs_version p <> vUNKNOWN /\ NUL ∉ rs_body p /\
  forall hit, valid_order hit -> short (snd (resp_build hit p [])) /\ length (snd (resp_build hit p [])) <= M.
Proof.
  intros HM Hs Ha. destruct a as [d|u|]; cbn [small_answer answer_is] in *.
  - destruct Ha as (t & Ht & ->), Hs as [Hn Hl].
    assert (field_ok (B "Content-Type", t) /\ length t <= 24) as [Hf Hlt].
    { unfold page_types in Ht. repeat (apply elem_of_cons in Ht as [-> |Ht]; [split; [field_is_ok|apply Nat.leb_le; by vm_compute]|]). by apply elem_of_nil in Ht. }
    apply (answer_sent M _ [(B "Content-Type", t); (B "Connection", B "keep-alive")]); try done.
    + by_compute.
    + by_compute.
    + constructor; [done|]. constructor; [|constructor]. field_is_ok.
    + change (crlf_lines (field_lines [(B "Content-Type", t); (B "Connection", B "keep-alive")])) with
        (((B "Content-Type" ++ B ": " ++ t) ++ CRLF) ++ ((B "Connection" ++ B ": " ++ B "keep-alive") ++ CRLF) ++ []).
      rewrite !app_length. unfold resp_built_line. cbn [page_of rs_body rs_status rs_version].
      change (length (version_str (rs_version resp_new) ++ SP :: int_to_string (status_num sOK) ++ SP :: status_str sOK)) with 15.
      change (length (B "Content-Type")) with 12. change (length (B "Connection")) with 10. change (length (B "keep-alive")) with 10.
      change (length (B ": ")) with 2. change (length CRLF) with 2. cbn [length]. lia.
  - destruct Hs as (Hc & Hne & Hl). subst p.
    apply (answer_sent M _ [(B "Location", u); (B "Content-Type", B "text/html")]); try done.
    + by_compute.
    + by_compute.
    + constructor; [done|]. constructor; [|constructor]. field_is_ok.
    + by_compute.
    + change (crlf_lines (field_lines [(B "Location", u); (B "Content-Type", B "text/html")])) with
        (((B "Location" ++ B ": " ++ u) ++ CRLF) ++ ((B "Content-Type" ++ B ": " ++ B "text/html") ++ CRLF) ++ []).
      rewrite !app_length.
      change (length (resp_built_line (resp_redirect resp_new u false))) with 18.
      change (length (rs_body (resp_redirect resp_new u false))) with 44.
      change (length (B "Location")) with 8. change (length (B "Content-Type")) with 12. change (length (B "text/html")) with 9.
      change (length (B ": ")) with 2. change (length CRLF) with 2. cbn [length]. lia.
  - subst p. apply (answer_sent M _ [(B "Content-Type", B "text/html")]); try done.
    + by_compute.
    + by_compute.
    + constructor; [|constructor]. field_is_ok.
    + by_compute.
    + etransitivity; [|exact Hs]. apply Nat.leb_le. by vm_compute.
Qed.

Lemma plain_ascii p : plain_except (B "?") p -> ascii_only p.
Proof.
  intros H. eapply Forall_impl; [exact H|]. intros c [Hc _]. destruct c as [[] [] [] [] [] [] [] []]; by vm_compute in Hc |- *.
Qed.

Section visits.
Context {U : Type} (M : nat) (f : fs) (cfg : web_config) (ro : router U).
Context (HM : (N.of_nat M < 2 ^ 31)%N).
Context (Ha : ascii_config cfg) (Ho : in_order (routes_of cfg)) (Hro : web_routes f cfg = Ok (Some ro)).

Lemma same_host q r : same_request q r -> host_of_req q <> [] -> host_of_req r = host_of_req q.
Proof.
  intros (_ & _ & _ & _ & _ & H) Hne. unfold host_of_req, header_get_host in *.
  destruct (rq_header q !! B "Host") as [[|c v]|] eqn:E; [done| |done]. by rewrite (H _ _ eq_refl).
Qed.
Lemma same_path q r : same_request q r -> path_of_req r = path_of_req q.
Proof. intros (_ & _ & H & _). unfold path_of_req. by rewrite H. Qed.

Lemma visit_dispatch q r a w : visit M f cfg q -> same_request q r -> at_rest f w ->
  site f cfg (path_of_req q) (host_of_req q) a ->
  exists c' w', dispatch ro (path_of_req r) (ctx_new r resp_new) w = Ok (c', w') /\ at_rest f w' /\
    answer_is a (reply (cx_resp c')).
Proof.
  intros Hv Hs Hw Hsite. pose proof (same_host _ _ Hs (vi_host _ _ _ _ Hv)) as Hh. pose proof (same_path _ _ Hs) as Hp.
  apply (site_dispatch f cfg ro Ha Ho Hro r a w Hw).
  - rewrite Hp. apply plain_ascii, Hv.
  - rewrite Hp. apply path_fits; try apply Hv. by rewrite (vi_method _ _ _ _ Hv).
  - destruct Hs as [-> _]. apply Hv.
  - by rewrite Hh, Hp.
Qed.

Lemma visit_good q : visit M f cfg q -> good_call M (at_rest f) ro q.
Proof.
  intros Hv. pose proof Hv as [V1 V2 V3 V4 V5 V6 V7 V8 V9 (a & V10 & V11)]. split; try done; [by rewrite V1|].
  intros r w Hw Hs. destruct (visit_dispatch q r a w Hv Hs Hw V10) as (c' & w' & H1 & H2 & H3).
  exists c', w'. do 2 (split; [done|]). cbv zeta. by apply (answer_good M a).
Qed.
Lemma visitor_fair X l : visitor_with X M f cfg l -> fair_with X M (at_rest f) ro l.
Proof. destruct l; cbn; try done. intros (H1 & H2 & H3). do 2 (split; [done|]). by apply visit_good. Qed.
Lemma visitor_nobody l : visitor M f cfg l -> visitor_with nobody M f cfg l.
Proof. destruct l as [| | | |[]| |]; cbn; try done; [by intros _ []|by right..]. Qed.

(** No request disturbs the world at rest. *)
Lemma substr_from_comes_back b i : substr_from b i <> Blocked.
Proof. unfold substr_from, substr. by repeat case_match. Qed.
Lemma suffix_comes_back p : file_suffix p <> Blocked.
Proof.
  unfold file_suffix. pose proof (substr_from_comes_back p (if (find_last_of p "/"%char =? npos)%N then 0 else find_last_of p "/"%char)%N) as H.
  destruct (substr_from p _); cbn [mbind outcome_bind]; try done. case_match; [done|]. apply substr_from_comes_back.
Qed.
Lemma dir_at_rest m dir c (w : world U) : at_rest f w -> kept (at_rest f) (static_dir_handler m dir c w).
Proof.
  intros [Hf Hc]. unfold static_dir_handler, kept. destruct (_ =? npos)%N; [done|].
  match goal with |- context [substr_from ?x ?y] => pose proof (substr_from_comes_back x y) as Hb; destruct (substr_from x y) as [z| | | | |] end;
    cbn [mbind outcome_bind]; try done. destruct (negb _); [done|].
  unfold file_exist, file_read. destruct (w_fs w _) as [| |[] ? ? d|] eqn:E; cbn [mbind outcome_bind negb fst snd]; try done.
  - change (negb (kSuccess =? kSuccess)%Z) with false. cbv iota.
    match goal with |- context [file_suffix ?x] => destruct (file_suffix x) as [x'| | | | |] eqn:Es end; cbn [mbind outcome_bind]; try done.
    + unfold resp_success, header_set_content_type. cbn [opened w_custom]. rewrite Hc.
      destruct (page_type [] x') as (t & _ & ->). done.
    + by apply suffix_comes_back in Es.
Qed.
Lemma file_at_rest file c (w : world U) : at_rest f w -> kept (at_rest f) (static_file_handler file c w).
Proof.
  intros [Hf Hc]. unfold static_file_handler, kept.
  unfold file_exist, file_read. destruct (w_fs w _) as [| |[] ? ? d|] eqn:E; cbn [mbind outcome_bind negb fst snd]; try done.
  - change (negb (kSuccess =? kSuccess)%Z) with false. cbv iota.
    match goal with |- context [file_suffix ?x] => destruct (file_suffix x) as [x'| | | | |] eqn:Es end; cbn [mbind outcome_bind]; try done.
    + cbn [opened w_custom]. rewrite Hc. destruct (page_type x' x') as (t & _ & ->). done.
    + by apply suffix_comes_back in Es.
Qed.
Lemma site_keeps : keeps (at_rest f) ro.
Proof.
  intros r w Hw. apply (dispatch_keeps (at_rest f) ro); [|done]. clear r w Hw Ha Ho HM M.
  assert (Hred : forall l (r0 r1 : router U), add_redirects l r0 = Ok r1 ->
    Forall (Forall (entry_keeps (at_rest f))) (ro_heap r0) -> Forall (Forall (entry_keeps (at_rest f))) (ro_heap r1)).
  { induction l as [|it l IH]; intros r0 r1 H H0; cbn [add_redirects] in H; [by injection H as <-|].
    unfold group_GET, group_method in H. destruct (register _ _ _ _) as [r2| | | | |] eqn:E; try done. cbn [mbind outcome_bind] in H.
    apply (IH _ _ H). apply (register_all_of _ _ _ _ _ _ E); [|done]. intros h Hh. injection Hh as <-. done. }
  assert (Hsta : forall l (r0 r1 : router U), add_statics f l r0 = Ok (Some r1) ->
    Forall (Forall (entry_keeps (at_rest f))) (ro_heap r0) -> Forall (Forall (entry_keeps (at_rest f))) (ro_heap r1)).
  { induction l as [|it l IH]; intros r0 r1 H H0; cbn [add_statics] in H; [by injection H as <-|].
    destruct (file_is_dir _ _) as [[]| | | | |]; try done; cbn [mbind outcome_bind] in H.
    - unfold group_StaticDir in H. destruct (register _ _ _ _) as [r2| | | | |] eqn:E; try done. cbn [mbind outcome_bind] in H.
      apply (IH _ _ H). apply (register_all_of _ _ _ _ _ _ E); [|done]. intros h Hh. injection Hh as <-. intros c w Hw. by apply dir_at_rest.
    - destruct (file_exist _ _) as [[]| | | | |]; try done; cbn [mbind outcome_bind] in H.
      unfold group_StaticFile in H. destruct (register _ _ _ _) as [r2| | | | |] eqn:E; try done. cbn [mbind outcome_bind] in H.
      apply (IH _ _ H). apply (register_all_of _ _ _ _ _ _ E); [|done]. intros h Hh. injection Hh as <-. intros c w Hw. by apply file_at_rest. }
  unfold web_routes in Hro. destruct (add_redirects _ _) as [r1| | | | |] eqn:E; try done. cbn [mbind outcome_bind] in Hro.
  apply (Hsta _ _ _ Hro), (Hred _ _ _ E). constructor.
Qed.

(** What the site cannot take. *)
Lemma dir_takes it c (w : world U) : at_rest f w -> short (si_path it) -> short (path_of_req (cx_req c)) ->
  si_route it `prefix_of` path_of_req (cx_req c) ->
  (exists c' w', static_dir_handler (si_route it) (si_path it) c w = Ok (c', w')) \/
  exists rest, path_of_req (cx_req c) = si_route it ++ rest /\ ~ contains (B "..") rest /\ f (cstr (file_in it rest)) = StatFail.
Proof.
  clear HM Ha Ho Hro M. intros [Hf Hc] Hs Hp [rest Hr]. unfold static_dir_handler. fold (path_of_req (cx_req c)).
  destruct (static_dir_aim (si_route it) (path_of_req (cx_req c)) (short_fits _ Hp)) as [[E _]|(a & r & Hr' & Hfirst & E & Es)].
  { rewrite E, N.eqb_refl. left. by do 2 eexists. }
  rewrite E, Es. cbn [mbind outcome_bind].
  assert (a = []) as ->.
  { destruct a as [|x a]; [done|]. exfalso. apply (Hfirst 0); [cbn; lia|]. rewrite Hr. by exists rest. }
  cbn [app] in Hr'. rewrite Hr in Hr'. apply app_inv_head in Hr' as <-.
  assert (Hfr : fits rest). { apply short_fits in Hp. rewrite Hr in Hp. by apply fits_app_r in Hp. }
  destruct (find_dotdot rest Hfr) as [[E2 Hnd]|[E2 _]]; rewrite E2; cbn [negb]; [|left; by do 2 eexists].
  fold (file_in it rest). unfold file_exist, file_read. rewrite Hf.
  destruct (f (cstr (file_in it rest))) as [| |[] ? ? d|] eqn:E3; cbn [mbind outcome_bind negb fst snd];
    try (left; by do 2 eexists); [right; by exists rest|].
  left. change (negb (kSuccess =? kSuccess)%Z) with false. cbv iota.
  assert (Hfit : fits (file_in it rest)).
  { unfold file_in, fits, short in *. rewrite Hr, app_length in Hp. rewrite !app_length. change (length (B "/")) with 1. lia. }
  destruct (file_suffix_ok _ Hfit) as (co & x & _ & _ & ->). cbn [mbind outcome_bind].
  unfold resp_success, header_set_content_type. cbn [opened w_custom]. rewrite Hc.
  destruct (page_type [] x) as (t & _ & ->). by do 2 eexists.
Qed.
Lemma file_takes file c (w : world U) : at_rest f w -> short file -> (exists r ww o d, f (cstr file) = Reg r ww o d) ->
  exists c' w', static_file_handler file c w = Ok (c', w').
Proof.
  clear HM Ha Ho Hro M. intros [Hf Hc] Hs (r & ww & o & d & E). unfold static_file_handler, file_exist, file_read. rewrite Hf, E. cbn [mbind outcome_bind negb fst snd].
  destruct r; cbn [mbind outcome_bind fst snd].
  2: { change (negb (kLogicErr =? kSuccess)%Z) with true. cbv iota. by do 2 eexists. }
  change (negb (kSuccess =? kSuccess)%Z) with false. cbv iota.
  destruct (file_suffix_ok _ (short_fits _ Hs)) as (co & x & _ & _ & ->). cbn [mbind outcome_bind opened w_custom]. rewrite Hc.
  destruct (page_type x x) as (t & _ & ->). by do 2 eexists.
Qed.
Lemma site_takes r (w : world U) : Forall (fun it => short (si_path it)) (wc_statics cfg) -> at_rest f w -> short (path_of_req r) ->
  fails_on ro w r -> site_fails f cfg r.
Proof.
  clear HM M. intros Hsh Hw Hp Hfail. destruct (decide (ascii_only (path_of_req r))) as [Hasc|]; [|by left].
  assert (HF : Forall (there f) (wc_statics cfg)).
  { unfold web_routes in Hro. destruct (add_redirects _ _) as [r0| | | | |]; try done. by eapply add_statics_there. }
  destruct (dispatch_accepted (U := U) f cfg Ha Ho HF) as (r0 & E0 & D0). rewrite Hro in E0. injection E0 as <-.
  unfold fails_on in Hfail. fold (path_of_req r) in Hfail. rewrite D0 in Hfail by done. cbn [ctx_new cx_req] in Hfail.
  assert (Hall : forall x, x ∈ List.filter (fun e => accepts e r) (concerning (registered (regs_of (U := U) f cfg)) (path_of_req r)) ->
    exists y, y ∈ regs_of f cfg /\ y.2 = x /\ concerns (path_of_req r) y /\ accepts x r = true).
  { intros x Hx. apply elem_of_list_In, filter_In in Hx as [Hx Hacc]. apply elem_of_list_In, elem_of_concerning in Hx as (i & Hi & Hx & He).
    apply elem_of_list_omap in Hx as (y & Hy & Hx). destruct (decide _) as [Hk|]; [|done]. injection Hx as <-.
    exists y. do 2 (split; [done|]). split; [|done]. unfold concerns. destruct (e_exact y.2).
    - rewrite Hk, (He eq_refl). by rewrite take_ge.
    - rewrite Hk. exists (drop i (path_of_req r)). by rewrite take_drop. }
  revert Hfail Hall. generalize (List.filter (fun e => accepts e r) (concerning (registered (regs_of (U := U) f cfg)) (path_of_req r))) as v.
  assert (Hreq : cx_req (ctx_new r resp_new) = r) by done. revert Hreq. generalize (ctx_new r resp_new) as c.
  intros c Hreq v. revert c w Hreq Hw. induction v as [|x v IH]; intros c w Hreq Hw [Hb Hok] Hall.
  { exfalso. apply Hok. cbn. by eexists. }
  destruct (Hall x) as (y & Hy & <- & Hcon & Hacc); [by left|].
  assert (Hgo : forall h, e_callback y.2 = Some h -> (exists c' w', h c w = Ok (c', w')) -> kept (at_rest f) (h c w) -> site_fails f cfg r).
  { intros h Hh (c' & w' & E) Hk. rewrite E in Hk. cbn in Hk. apply (IH c' w').
    - rewrite <- Hreq. eapply regs_keep_req; [exact Hy|exact Hh|exact E].
    - exact Hk.
    - cbn [run_vector negb andb fst snd] in Hb, Hok. rewrite Hreq, Hacc, Hh, E in Hb, Hok. cbn [mbind outcome_bind fst snd] in Hb, Hok.
      destruct (w_running w'); [done|]. exfalso. apply Hok. by eexists.
    - intros x Hx. apply Hall. by right. }
  apply elem_of_app in Hy as [Hy|Hy]; apply elem_of_list_fmap in Hy as (it & -> & Hit).
  { apply (Hgo _ eq_refl); [by do 2 eexists|done]. }
  pose proof (proj1 (Forall_forall _ _) Hsh it Hit) as Hs. cbv beta in Hs.
  pose proof (proj1 (Forall_forall _ _) HF it Hit) as Hth. unfold there in Hth.
  unfold static_reg in Hgo, Hcon, Hacc. cbn [snd] in Hgo, Hcon, Hacc. unfold concerns, reg_key, accepts in Hcon, Hacc. cbn [fst snd app] in Hcon, Hacc.
  destruct (f (cstr (si_path it))) as [| |rd wr o d|o] eqn:Ef; try done.
  { apply (Hgo _ eq_refl); unfold owned; [|by apply file_at_rest]. apply file_takes; [done|done|by exists rd, wr, o, d]. }
  cbn [e_exact e_filters] in Hcon, Hacc. rewrite <- Hreq in Hp, Hcon.
  destruct (dir_takes it c w Hw Hs Hp Hcon) as [Hx|(rest & Hr & Hnd & Hst)].
  { apply (Hgo _ eq_refl); unfold owned; [done|by apply dir_at_rest]. }
  right. rewrite forallb_app, host_accepts in Hacc. apply andb_true_iff in Hacc as [Hh Hm].
  cbn [forallb] in Hm. rewrite andb_true_r in Hm. unfold method_filter in Hm. apply bool_decide_eq_true in Hm, Hh.
  split; [done|]. exists it, rest. rewrite Hreq in Hr. split; [done|]. split; [by exists o|]. done.
Qed.

Lemma calls_from X hit e ls : forall (s s' : nsys U),
  (forall i c q, ns_clients s !! i = Some c -> q ∈ cl_calls c -> visit M f cfg q) ->
  Forall (visitor_with X M f cfg) ls -> n_run hit ro e s ls = Some s' ->
  forall i c q, ns_clients s' !! i = Some c -> q ∈ cl_calls c -> visit M f cfg q.
Proof.
  induction ls as [|l ls IH]; intros s s' Hs Hf H; cbn [n_run] in H; [by injection H as <-|].
  apply Forall_cons in Hf as [Hfl Hf]. destruct (n_step hit ro e s l) as [s1|] eqn:E; [|done]. cbn [mbind option_bind] in H.
  apply (IH s1 s'); [|done..]. clear IH H s' Hf ls. 
  assert (Hup : forall (h : hsys U) i0 c0, (forall q, q ∈ cl_calls c0 -> visit M f cfg q) ->
    forall i c q, ns_clients (NSys h (<[i0 := c0]> (ns_clients s))) !! i = Some c -> q ∈ cl_calls c -> visit M f cfg q).
  { intros h i0 c0 H0 i c q Hi Hq. cbn [ns_clients] in Hi. apply lookup_insert_Some in Hi as [[-> <-]|[_ Hi]]; [by apply H0|]. by eapply Hs. }
  destruct l as [i|i|i chit crit q|i n|l|i n|l]; cbn [n_step] in E.
  - destruct (sys_step _ _ _ _ _); [|done]. injection E as <-. apply Hup. intros q Hq. by apply elem_of_nil in Hq.
  - destruct (ns_clients s !! i) as [c|] eqn:Hc; [|done]. cbn [mbind option_bind] in E. destruct (decide _); [|done].
    destruct (sys_step _ _ _ _ _); [|done]. injection E as <-. exact Hs.
  - destruct (ns_clients s !! i) as [c|] eqn:Hc; [|done]. cbn [mbind option_bind] in E.
    destruct (sy_conns (ns_sys s) !! i) as [k|]; [|done]. cbn [mbind option_bind] in E. destruct (cl_now c); [done|]. destruct (hn_fin k); [done|].
    assert (Hq : forall q', q' ∈ cl_calls c ++ [q] -> visit M f cfg q').
    { intros q' Hq. apply elem_of_app in Hq as [Hq|Hq]; [by eapply Hs|]. apply elem_of_list_singleton in Hq as ->. apply Hfl. }
    destruct (req_build chit crit q []) as [[rc q'] msg]. destruct (rc =? kSuccess)%Z; injection E as <-; by apply Hup.
  - destruct (ns_clients s !! i) as [c|] eqn:Hc; [|done]. cbn [mbind option_bind] in E. case_decide; [|done].
    destruct (sys_step _ _ _ _ _); [|done]. injection E as <-. apply Hup. intros q Hq. by eapply Hs.
  - destruct l; try done; (destruct (sys_step _ _ _ _ _); [|done]); injection E as <-; exact Hs.
  - destruct (ns_clients s !! i) as [c|] eqn:Hc; [|done]. cbn [mbind option_bind] in E.
    destruct (cl_now c) as [[[chit crit] q]|]; [|done]. cbn [mbind option_bind] in E.
    destruct (sy_conns (ns_sys s) !! i); [|done]. cbn [mbind option_bind] in E.
    destruct (client_send _ _ _ _ _ _ _); try done; injection E as <-; apply Hup; intros q' Hq; by eapply Hs.
  - destruct l; try done; cbn [mbind option_bind] in E; (destruct (ns_clients s !! _); [done|]); (destruct (sys_step _ _ _ _ _); [|done]); injection E as <-; exact Hs.
Qed.

(** Every request that was answered was answered in a world at rest. *)
Lemma serial_at_rest w0 log w : serial ro w0 log w -> at_rest f w0 ->
  at_rest f w /\ forall x, x ∈ log -> exists w1 w2 c', at_rest f w1 /\
    dispatch ro (path_of_req x.1.2) (ctx_new x.1.2 resp_new) w1 = Ok (c', w2) /\ x.2 = reply (cx_resp c').
Proof.
  induction 1 as [|log w i r c' w' Hs IH Hd]; intros Hw0.
  { split; [done|]. intros x Hx. by apply elem_of_nil in Hx. }
  destruct (IH Hw0) as [Hw IH']. split.
  - pose proof (site_keeps r w Hw) as Hk. by rewrite Hd in Hk.
  - intros x Hx. apply elem_of_app in Hx as [Hx|Hx]; [by apply IH'|]. apply elem_of_list_singleton in Hx as ->.
    by exists w, w', c'.
Qed.

Lemma shows_answer a p y : answer_is a p -> same_response p y -> shows a y.
Proof.
  intros Hap (H1 & _ & H2 & _ & H3). destruct a as [d|u|]; cbn [answer_is shows] in *.
  - destruct Hap as (t & _ & ->). by rewrite H1, H2.
  - subst p. rewrite H1, H3 by done. split; [done|]. cbn. by rewrite lookup_insert.
  - by rewrite H1, Hap.
Qed.
End visits.

(** ** Theorems *)

(** C185: whatever strangers send, every visitor sees what the configuration says. *)
Theorem website_among_strangers : forall U X M f cfg (ro : router U) hit e (w : world U) ls s,
  (N.of_nat M < 2 ^ 31)%N -> ascii_config cfg -> in_order (routes_of cfg) -> web_routes f cfg = Ok (Some ro) ->
  w_fs w = f -> w_custom w = ∅ -> valid_order hit ->
  Forall (visitor_with X M f cfg) ls -> n_run hit ro e (n_new w) ls = Some s ->
  forall i c j q o a, ns_clients s !! i = Some c -> cl_calls c !! j = Some q -> cl_done c !! j = Some o ->
    site f cfg (path_of_req q) (host_of_req q) a ->
    exists y, o = Ok y /\ st_rc y = kSuccess /\ shows a (st_resp y).
Proof.
  intros U X M f cfg ro hit e w ls s HM Ha Ho Hro Hfs Hcu Hit Hv Hrun i c j q o a Hc Hq Hd Hsite.
  assert (Hw : at_rest f w) by done.
  assert (Hfair : Forall (fair_with X M (at_rest f) ro) ls).
  { eapply Forall_impl; [exact Hv|]. intros l. by apply visitor_fair. }
  destruct (strangers_calls_are_serial U X M (at_rest f) ro hit e w ls [] s s Hit Hw (site_keeps f cfg ro Hro) Hfair (Forall_nil_2 _) Hrun eq_refl)
    as (log & log2 & _ & (Hser & Hcl & Hex) & _).
  pose proof (calls_from M f cfg ro X hit e ls (n_new w) s) as Hfrom.
  assert (Hcalls : forall i c q, ns_clients s !! i = Some c -> q ∈ cl_calls c -> visit M f cfg q).
  { apply Hfrom; [|done..]. intros i0 c0 q0 H0. cbn in H0. by rewrite lookup_empty in H0. }
  clear Hfrom.
  destruct (serial_at_rest f cfg ro Hro w _ _ Hser Hw) as [_ Hall].
  destruct (Hex _ _ Hc) as (_ & _ & HF1 & HF2).
  destruct (Forall2_lookup_l _ _ _ _ _ HF2 Hd) as (x & Hx & y & -> & Hrc & Hsame).
  exists y. do 2 (split; [done|]).
  apply lookup_take_Some in Hx as [Hx _].
  destruct (Forall2_lookup_r _ _ _ _ _ HF1 Hx) as (q' & Hq' & Hsq). apply lookup_take_Some in Hq' as [Hq' _].
  rewrite Hq in Hq'. injection Hq' as <-.
  assert (Hx' : x ∈ log ++ log2). { apply elem_of_list_lookup_2 in Hx. by apply elem_of_list_filter in Hx as [_ Hx]. }
  destruct (Hall x Hx') as (w1 & w2 & c' & Hw1 & Hdi & Hre).
  assert (Hvq : visit M f cfg q). { eapply Hcalls; [exact Hc|]. by eapply elem_of_list_lookup_2. }
  destruct (visit_dispatch M f cfg ro Ha Ho Hro q x.1.2 a w1 Hvq Hsq Hw1 Hsite) as (c2 & w3 & H1 & _ & H3).
  rewrite Hdi in H1. injection H1 as <- _. rewrite <- Hre in H3. by eapply shows_answer.
Qed.

(** C178: every visitor sees what the configuration says. *)
Theorem website : forall U M f cfg (ro : router U) hit e (w : world U) ls s,
  (N.of_nat M < 2 ^ 31)%N -> ascii_config cfg -> in_order (routes_of cfg) -> web_routes f cfg = Ok (Some ro) ->
  w_fs w = f -> w_custom w = ∅ -> valid_order hit ->
  Forall (visitor M f cfg) ls -> n_run hit ro e (n_new w) ls = Some s ->
  forall i c j q o a, ns_clients s !! i = Some c -> cl_calls c !! j = Some q -> cl_done c !! j = Some o ->
    site f cfg (path_of_req q) (host_of_req q) a ->
    exists y, o = Ok y /\ st_rc y = kSuccess /\ shows a (st_resp y).
Proof.
  intros U M f cfg ro hit e w ls s HM Ha Ho Hro Hfs Hcu Hit Hv. apply (website_among_strangers U nobody M f cfg); try done.
  apply (Forall_impl _ _ _ Hv). apply visitor_nobody.
Qed.

(** C186: no visitor waits for ever among strangers that go silent, as long as the
    server runs, and the connections of those who have left are closed. *)
Definition carries_on_with (X : nat -> Prop) (M : nat) (f : fs) (cfg : web_config) (l : nlab) : Prop :=
  visitor_with X M f cfg l /\ match l with NConnect _ | NClose _ | NCall _ _ _ _ | NOther _ => False | _ => True end.
Theorem website_returns_among_strangers : forall U X M f cfg (ro : router U) hit e (w : world U) ls s,
  (N.of_nat M < 2 ^ 31)%N -> ascii_config cfg -> in_order (routes_of cfg) -> web_routes f cfg = Ok (Some ro) ->
  w_fs w = f -> w_custom w = ∅ -> valid_order hit ->
  Forall (visitor_with X M f cfg) ls -> n_run hit ro e (n_new w) ls = Some s ->
  (exists n, forall ls' s', Forall (carries_on_with X M f cfg) ls' -> n_run hit ro e s ls' = Some s' -> length ls' <= n) /\
  ((forall l, carries_on_with X M f cfg l -> n_step hit ro e s l = None) -> sy_thr (ns_sys s) <> TDown ->
   (forall i c, ns_clients s !! i = Some c -> cl_now c = None /\ length (cl_done c) = length (cl_calls c)) /\
   forall i k, sy_conns (ns_sys s) !! i = Some k -> hn_fin k = true -> hn_open k = false).
Proof.
  intros U X M f cfg ro hit e w ls s HM Ha Ho Hro Hfs Hcu Hit Hv Hrun.
  assert (Hfair : Forall (fair_with X M (at_rest f) ro) ls).
  { eapply Forall_impl; [exact Hv|]. intros l. by apply visitor_fair. }
  destruct (strangers_every_call_returns U X M (at_rest f) ro hit e w ls s Hit (conj Hfs Hcu) (site_keeps f cfg ro Hro) Hfair Hrun) as [(n & Hn) Hst].
  split.
  - exists n. intros ls' s' Hg Hr. apply (Hn ls' s'); [|done]. eapply Forall_impl; [exact Hg|].
    intros l [Hl1 Hl2]. split; [by apply (visitor_fair M f cfg)|done].
  - intros Hs Hd.
    assert (Hn' : forall l, goes_on_with X M (at_rest f) ro l -> n_step hit ro e s l = None).
    { intros l [Hl1 Hl2]. apply Hs. split; [|done]. by destruct l. }
    destruct (Hst Hn' Hd) as [Hst1 Hst2]. split; [|done]. intros i c Hc. by destruct (Hst1 i c Hc) as (H1 & H2 & _).
Qed.

(** C179: no visitor waits for ever, and the connections of those who have left are
    closed. *)
Definition carries_on (M : nat) (f : fs) (cfg : web_config) (l : nlab) : Prop :=
  visitor M f cfg l /\ match l with NConnect _ | NClose _ | NCall _ _ _ _ => False | _ => True end.
Theorem website_returns : forall U M f cfg (ro : router U) hit e (w : world U) ls s,
  (N.of_nat M < 2 ^ 31)%N -> ascii_config cfg -> in_order (routes_of cfg) -> web_routes f cfg = Ok (Some ro) ->
  w_fs w = f -> w_custom w = ∅ -> valid_order hit ->
  Forall (visitor M f cfg) ls -> n_run hit ro e (n_new w) ls = Some s ->
  (exists n, forall ls' s', Forall (carries_on M f cfg) ls' -> n_run hit ro e s ls' = Some s' -> length ls' <= n) /\
  ((forall l, carries_on M f cfg l -> n_step hit ro e s l = None) ->
   (forall i c, ns_clients s !! i = Some c -> cl_now c = None /\ length (cl_done c) = length (cl_calls c)) /\
   forall i k, sy_conns (ns_sys s) !! i = Some k -> hn_fin k = true -> hn_open k = false).
Proof.
  intros U M f cfg ro hit e w ls s HM Ha Ho Hro Hfs Hcu Hit Hv Hrun.
  assert (Hfair : Forall (fair_label M (at_rest f) ro) ls).
  { eapply Forall_impl; [exact Hv|]. intros l Hl. apply fair_nobody, (visitor_fair M f cfg); try done. by apply visitor_nobody. }
  destruct (every_call_returns U M (at_rest f) ro hit e w ls s Hit (conj Hfs Hcu) Hfair Hrun) as [(n & Hn) [Hst Hcl]].
  split.
  - exists n. intros ls' s' Hg Hr. apply (Hn ls' s'); [|done]. eapply Forall_impl; [exact Hg|].
    intros l [Hl1 Hl2]. split; [|done]. apply fair_nobody, (visitor_fair M f cfg); try done. by apply visitor_nobody.
  - intros Hs.
    assert (Hn' : forall l, goes_on M (at_rest f) ro l -> n_step hit ro e s l = None).
    { intros l [Hl1 Hl2]. apply Hs. split; [|done]. by destruct l. }
    split; [|by apply Hcl]. intros i c Hc. by destruct (Hst Hn' i c Hc) as (H1 & H2 & _).
Qed.

(** C187: only strangers stop the web server: with a line feed among the first three
    bytes that it reads, by closing before the answer is written (SIGPIPE), with 2 GiB of
    input, or with a request that the site cannot take. *)
Theorem what_stops_the_website : forall U X M f cfg (ro : router U) hit e (w : world U) ls s,
  (N.of_nat M < 2 ^ 31)%N -> ascii_config cfg -> in_order (routes_of cfg) -> web_routes f cfg = Ok (Some ro) ->
  Forall (fun it => short (si_path it)) (wc_statics cfg) ->
  w_fs w = f -> w_custom w = ∅ -> valid_order hit ->
  Forall (visitor_with X M f cfg) ls -> n_run hit ro e (n_new w) ls = Some s -> sy_thr (ns_sys s) = TDown ->
  exists ls1 l ls2 s1 i k wr, ls = ls1 ++ l :: ls2 /\ n_run hit ro e (n_new w) ls1 = Some s1 /\
    X i /\ sy_conns (ns_sys s1) !! i = Some k /\
    (l = NServer (LServe i false wr) \/ l = NServer (LResume i wr) \/ l = NServer (LTimeout i wr)) /\
    (~ short (hn_in k) \/ LF ∈ take 3 (hn_in k) \/ wr = WSig \/
     exists pre r, pre `prefix_of` hn_in k /\ req_parse req_new pre = Ok (kSuccess, r) /\ site_fails f cfg r).
Proof.
  intros U X M f cfg ro hit e w ls s HM Ha Ho Hro Hsh Hfs Hcu Hit Hv Hrun Hd.
  assert (Hfair : Forall (fair_with X M (at_rest f) ro) ls).
  { eapply Forall_impl; [exact Hv|]. intros l. by apply visitor_fair. }
  destruct (only_strangers_stop_the_server U X M (at_rest f) ro hit e w ls s Hit (conj Hfs Hcu) (site_keeps f cfg ro Hro) Hfair Hrun Hd)
    as (ls1 & l & ls2 & s1 & i & k & wr & E & R1 & HX & Hk & Hl & Hwhy).
  exists ls1, l, ls2, s1, i, k, wr. do 5 (split; [done|]).
  destruct (decide (short (hn_in k))) as [Hsk|]; [|by left].
  destruct Hwhy as [?|[?|[?|(pre & r & body & Hpre & Hparse & Hfail)]]]; [by left|by right; left|by right; right; left|].
  right; right; right. exists pre, r. do 2 (split; [done|]).
  assert (Hw1 : at_rest f (sy_world (ns_sys s1))).
  { rewrite E in Hfair. apply Forall_app in Hfair as [Hf1 _].
    destruct (strangers_calls_are_serial U X M (at_rest f) ro hit e w ls1 [] s1 s1 Hit (conj Hfs Hcu) (site_keeps f cfg ro Hro) Hf1 (Forall_nil_2 _) R1 eq_refl)
      as (log & _ & (Hser & _) & _). by destruct (serial_at_rest f cfg ro Hro w _ _ Hser (conj Hfs Hcu)). }
  pose proof (req_parse_length _ _ _ Hparse) as Hlen. apply prefix_length in Hpre.
  apply (site_takes f cfg ro Ha Ho Hro _ _ Hsh Hw1) in Hfail; [done|].
  unfold short, path_of_req in *. cbn [rq_route]. lia.
Qed.

(** ** Examples *)

(** The front page redirects; one page; a directory, only for *.org. *)
Definition small_site : web_config := WebConfig 8080 false [RedirectItem (B "/") (B "/home/index.html") []]
  [StaticItem (B "/about") (B "../asset/index.html") []; StaticItem (B "/home/") (B "../asset/blog-home") (B "*.org")].
Definition get_page (h p : string) : req := Req mGET v1_1 {[ B "Host" := B h ]} (Route (B p) ∅) [].
Definition visits1 : list nlab :=
  [NConnect 0; NConnect 1; NCall 0 map_to_list map_to_list (get_page "localhost" "/");
   NCall 1 map_to_list map_to_list (get_page "localhost" "/about"); NFlow 1 10; NServer (LServe 1 false (WTake 400)); NFlow 0 54].
Definition visits2 : list nlab :=
  [NFlow 1 49; NServer (LResume 1 (WTake 400)); NServer (LServe 0 false (WTake 400));
   NReturn 0 400; NReturn 1 400; NCall 0 map_to_list map_to_list (get_page "x.org" "/home/index.html");
   NCall 1 map_to_list map_to_list (get_page "localhost" "/home/index.html"); NFlow 1 69; NFlow 0 65;
   NServer (LServe 0 false (WTake 400)); NReturn 0 400; NServer (LServe 1 false (WTake 400)); NReturn 1 400].
Definition told {U} (s : nsys U) : list (nat * list (option (status_code * bytes))) :=
  map (fun x => (x.1, map (fun o => match o with Ok y => Some (rs_status (st_resp y), rs_body (st_resp y)) | _ => None end) (cl_done x.2)))
    (map_to_list (ns_clients s)).

Lemma small_ascii : ascii_config small_site /\ in_order (routes_of small_site) /\
  web_routes shipped_files small_site = Ok (Some (router_of shipped_files small_site)).
Proof. split; [split; by_compute|]. split; [check_order|]. apply router_of_ok. by vm_compute. Qed.

Ltac not_hit H1 H2 := first [by vm_compute in H1|match type of H2 with ?P => assert (X : bool_decide P = false) by (by vm_compute); by apply bool_decide_eq_false in X end].
Ltac no_redirects := intros it' Hin [H1 H2]; cbn in Hin;
  repeat (apply elem_of_cons in Hin as [->|Hin]; [not_hit H1 H2|]); by apply elem_of_nil in Hin.
Ltac no_statics := intros it' Hin [H1 H2]; cbn in Hin;
  repeat (apply elem_of_cons in Hin as [->|Hin]; [first [not_hit H1 H2|destruct H1 as [H1|[[oo Hd] [z H1]]]; first [by vm_compute in H1|by vm_compute in Hd]]|]); by apply elem_of_nil in Hin.

Lemma site_front : site shipped_files small_site (B "/") (B "localhost") (ARedirect (B "/home/index.html")).
Proof.
  apply (site_redirect _ _ _ _ [] (RedirectItem (B "/") (B "/home/index.html") []) []); [done| |intros it' Hin; by apply elem_of_nil in Hin|no_statics].
  split; [done|]. by left.
Qed.
Lemma site_about : site shipped_files small_site (B "/about") (B "localhost") (APage (B "<h1>index</h1>")).
Proof.
  apply (site_file _ _ _ _ (StaticItem (B "/about") (B "../asset/index.html") []) true true true); [|by vm_compute|by_compute].
  exists [], [StaticItem (B "/home/") (B "../asset/blog-home") (B "*.org")].
  split; [done|]. split; [split; [by left|by left]|]. split; [no_redirects|no_statics].
Qed.
Lemma site_blog : site shipped_files small_site (B "/home/index.html") (B "x.org") (APage (B "<h1>blog</h1>")).
Proof.
  apply (site_dir _ _ _ _ (StaticItem (B "/home/") (B "../asset/blog-home") (B "*.org")) (B "index.html") true true true);
    [|eexists; by vm_compute|done|apply find_idx_None_contains; by vm_compute|by vm_compute|by_compute].
  exists [StaticItem (B "/about") (B "../asset/index.html") []], [].
  split; [done|]. split; [|split; [no_redirects|no_statics]].
  split; [right; split; [eexists; by vm_compute|by exists (B "index.html")]|].
  match goal with |- ?P => apply (bool_decide_unpack P); by vm_compute end.
Qed.
Lemma site_none : site shipped_files small_site (B "/home/index.html") (B "localhost") ANone.
Proof. apply site_nothing; [no_redirects|no_statics]. Qed.

Lemma page_visit h p a : (forall hit rit, valid_order hit -> valid_order rit -> short (snd (req_build hit rit (get_page h p) []))) ->
  B h <> [] -> carried (B "Host", B h) -> B p <> [] -> plain_except (B "?") (B p) ->
  site shipped_files small_site (B p) (B h) a -> small_answer 400 a ->
  visit 400 shipped_files small_site (get_page h p).
Proof.
  intros H1 H2 H3 H4 H5 H7 H8. split; try done.
  - intros k v Hk _. cbn [rq_header get_page] in Hk. apply lookup_singleton_Some in Hk as [<- <-]. split; [done|by left].
  - by left.
  - apply not_elem_of_nil.
  - by exists a.
Qed.
Ltac short_page := let h1 := fresh in let h2 := fresh in let V1 := fresh in let V2 := fresh in intros h1 h2 V1 V2; rewrite req_build_ok by done; cbn [snd]; unfold short; rewrite !app_length;
  rewrite (lines_length _ _ (V1 _)); unfold built_line, route_to_string; cbn [rq_route get_page rt_params rt_path];
  rewrite (no_params _ V2); by vm_compute.
Ltac is_carried := repeat split; [by_compute| | |done]; intros HH; by apply find_idx_None_contains in HH.
Ltac page_at site_lemma := eapply page_visit; [short_page|done|is_carried|done|unfold plain_except; by_compute|exact site_lemma|
  cbn [small_answer]; first [split; [by_compute|apply Nat.leb_le; by vm_compute]
    |split; [is_carried|]; split; [done|apply Nat.leb_le; by vm_compute]|apply Nat.leb_le; by vm_compute]].
Lemma visits_fair : Forall (visitor 400 shipped_files small_site) visits1 /\ Forall (visitor 400 shipped_files small_site) visits2.
Proof.
  assert (V1 : visit 400 shipped_files small_site (get_page "localhost" "/")) by page_at site_front.
  assert (V2 : visit 400 shipped_files small_site (get_page "localhost" "/about")) by page_at site_about.
  assert (V3 : visit 400 shipped_files small_site (get_page "x.org" "/home/index.html")) by page_at site_blog.
  assert (V4 : visit 400 shipped_files small_site (get_page "localhost" "/home/index.html")) by page_at site_none.
  assert (Hbig : big 400 (WTake 400)) by (by exists 400).
  unfold visits1, visits2. split; repeat (apply Forall_cons_2; [cbn [visitor]; first [exact I|exact Hbig|split_and!; [apply valid_order_sorted..|assumption]]|]); constructor.
Qed.

Definition front_text : bytes := B "<html><body><h1>302 Found</h1></body></html>".
Definition none_text : bytes := B "<html><body><h1>404 Not Found</h1></body></html>".
Lemma visits_run : exists s1 s2,
  n_run map_to_list (router_of shipped_files small_site) [] (n_new (quiet shipped_files)) visits1 = Some s1 /\
  waiting s1 = [(0, true, 0); (1, true, 0)] /\ 
  n_run map_to_list (router_of shipped_files small_site) [] (n_new (quiet shipped_files)) (visits1 ++ visits2) = Some s2 /\
  waiting s2 = [(0, false, 2); (1, false, 2)] /\
  told s2 = [(0, [Some (sFOUND, front_text); Some (sOK, B "<h1>blog</h1>")]); (1, [Some (sOK, B "<h1>index</h1>"); Some (sNOT_FOUND, none_text)])] /\
  is_Some (n_step map_to_list (router_of shipped_files small_site) [] s1 (NFlow 1 49)).
Proof.
  assert (H : match n_run map_to_list (router_of shipped_files small_site) [] (n_new (quiet shipped_files)) visits1,
      n_run map_to_list (router_of shipped_files small_site) [] (n_new (quiet shipped_files)) (visits1 ++ visits2) with
    | Some s1, Some s2 => Some (waiting s1, waiting s2, told s2,
        (fun o : option (nsys unit) => match o with Some _ => true | None => false end)
          (n_step map_to_list (router_of shipped_files small_site) [] s1 (NFlow 1 49)))
    | _, _ => None
    end = Some ([(0, true, 0); (1, true, 0)], [(0, false, 2); (1, false, 2)],
      [(0, [Some (sFOUND, front_text); Some (sOK, B "<h1>blog</h1>")]); (1, [Some (sOK, B "<h1>index</h1>"); Some (sNOT_FOUND, none_text)])],
      true)) by (by vm_compute).
  destruct (n_run map_to_list (router_of shipped_files small_site) [] (n_new (quiet shipped_files)) visits1) as [s1|]; [|discriminate].
  destruct (n_run map_to_list (router_of shipped_files small_site) [] (n_new (quiet shipped_files)) (visits1 ++ visits2)) as [s2|]; [|discriminate].
  exists s1, s2. apply Some_inj in H.
  assert (H1 := f_equal (fun x => x.1.1.1) H). assert (H2 := f_equal (fun x => x.1.1.2) H).
  assert (H3 := f_equal (fun x => x.1.2) H). assert (H4 := f_equal snd H). clear H.
  cbn [fst snd] in *. split; [reflexivity|]. split; [exact H1|]. split; [reflexivity|]. split; [exact H2|]. split; [exact H3|].
  destruct (n_step _ _ _ s1 _); [by eexists|discriminate].
Qed.

(** Two visitors, two pages each: the redirection and a page of the directory; a page
    and "not found", because the directory is for another host. *)
Example website_ex : exists s,
  Forall (visitor 400 shipped_files small_site) (visits1 ++ visits2) /\
  n_run map_to_list (router_of shipped_files small_site) [] (n_new (quiet shipped_files)) (visits1 ++ visits2) = Some s /\
  told s = [(0, [Some (sFOUND, front_text); Some (sOK, B "<h1>blog</h1>")]); (1, [Some (sOK, B "<h1>index</h1>"); Some (sNOT_FOUND, none_text)])] /\
  forall i c j q o a, ns_clients s !! i = Some c -> cl_calls c !! j = Some q -> cl_done c !! j = Some o ->
    site shipped_files small_site (path_of_req q) (host_of_req q) a ->
    exists y, o = Ok y /\ st_rc y = kSuccess /\ shows a (st_resp y).
Proof.
  destruct visits_run as (s1 & s & _ & _ & E & _ & Ht & _). exists s.
  assert (Hf : Forall (visitor 400 shipped_files small_site) (visits1 ++ visits2)).
  { apply Forall_app. exact visits_fair. }
  split; [exact Hf|]. split; [exact E|]. split; [exact Ht|].
  destruct small_ascii as (A1 & A2 & A3).
  apply (website unit 400 shipped_files small_site (router_of shipped_files small_site) map_to_list [] (quiet shipped_files) (visits1 ++ visits2) s);
    [by vm_compute|exact A1|exact A2|exact A3|reflexivity|reflexivity|apply valid_order_sorted|exact Hf|exact E].
Qed.

(** Half-way both visitors wait and there is something left to do; at the end nobody
    waits. *)
Example website_returns_ex : exists s1 s2,
  n_run map_to_list (router_of shipped_files small_site) [] (n_new (quiet shipped_files)) visits1 = Some s1 /\
  waiting s1 = [(0, true, 0); (1, true, 0)] /\
  (exists l, carries_on 400 shipped_files small_site l /\
     is_Some (n_step map_to_list (router_of shipped_files small_site) [] s1 l)) /\
  (exists n, forall ls' s', Forall (carries_on 400 shipped_files small_site) ls' ->
     n_run map_to_list (router_of shipped_files small_site) [] s1 ls' = Some s' -> length ls' <= n) /\
  n_run map_to_list (router_of shipped_files small_site) [] (n_new (quiet shipped_files)) (visits1 ++ visits2) = Some s2 /\
  waiting s2 = [(0, false, 2); (1, false, 2)].
Proof.
  destruct visits_run as (s1 & s2 & E1 & W1 & E2 & W2 & _ & Hs). exists s1, s2.
  split; [exact E1|]. split; [exact W1|]. split; [exists (NFlow 1 49); split; [split; exact I|exact Hs]|].
  split; [|split; [exact E2|exact W2]]. destruct small_ascii as (A1 & A2 & A3).
  apply (website_returns unit 400 shipped_files small_site (router_of shipped_files small_site) map_to_list [] (quiet shipped_files) visits1 s1);
    [by vm_compute|exact A1|exact A2|exact A3|reflexivity|reflexivity|apply valid_order_sorted|exact (proj1 visits_fair)|exact E1].
Qed.

(** The same two visitors, and a stranger who asks for something else and leaves. *)
Definition peers (i : nat) : Prop := 7 <= i.
Definition other_text (p : string) : bytes := B "GET " ++ B p ++ B " HTTP/1.1" ++ CRLF ++ B "Host: x.org" ++ CRLF ++ CRLF.
Definition visits3 : list nlab :=
  [NOther (LOpen 7); NOther (LSend 7 (other_text "/home/x")); NServer (LServe 7 false (WTake 5))] ++ visits1 ++ [NOther (LFin 7)].
Definition visits4 : list nlab := visits2 ++ [NServer (LServe 7 true (WTake 0))].
Lemma visits_among_fair : Forall (visitor_with peers 400 shipped_files small_site) visits3 /\
  Forall (visitor_with peers 400 shipped_files small_site) (visits3 ++ visits4).
Proof.
  assert (Hv : forall ls, Forall (visitor 400 shipped_files small_site) ls ->
    Forall (fun l => match l with NConnect i => i < 7 | _ => True end) ls -> Forall (visitor_with peers 400 shipped_files small_site) ls).
  { induction 1 as [|l ls Hl _ IH]; intros H; [constructor|]. apply Forall_cons in H as [H1 H2]. constructor; [|by apply IH].
    destruct l as [| | | |[]| |]; cbn [visitor visitor_with] in *; try done; try (by right). unfold peers. lia. }
  assert (H1 : Forall (visitor_with peers 400 shipped_files small_site) visits1).
  { apply Hv; [apply visits_fair|]. unfold visits1. repeat (apply Forall_cons_2; [first [exact I|lia]|]); constructor. }
  assert (H2 : Forall (visitor_with peers 400 shipped_files small_site) visits2).
  { apply Hv; [apply visits_fair|]. unfold visits2. repeat (apply Forall_cons_2; [first [exact I|lia]|]); constructor. }
  assert (H3 : Forall (visitor_with peers 400 shipped_files small_site) visits3).
  { unfold visits3. apply Forall_app; split; [|apply Forall_app; split; [exact H1|]];
      (repeat (apply Forall_cons_2; [cbn [visitor_with]; unfold peers; first [lia|left; lia]|])); constructor. }
  split; [exact H3|]. apply Forall_app. split; [exact H3|]. unfold visits4. apply Forall_app. split; [exact H2|].
  apply Forall_cons_2; [left; unfold peers; lia|constructor].
Qed.
Lemma visits_among_run : exists s1 s2,
  n_run map_to_list (router_of shipped_files small_site) [] (n_new (quiet shipped_files)) visits3 = Some s1 /\
  waiting s1 = [(0, true, 0); (1, true, 0)] /\ sy_thr (ns_sys s1) = TIn 1 /\
  n_run map_to_list (router_of shipped_files small_site) [] (n_new (quiet shipped_files)) (visits3 ++ visits4) = Some s2 /\
  waiting s2 = [(0, false, 2); (1, false, 2)] /\ sy_thr (ns_sys s2) = TFree /\
  told s2 = [(0, [Some (sFOUND, front_text); Some (sOK, B "<h1>blog</h1>")]); (1, [Some (sOK, B "<h1>index</h1>"); Some (sNOT_FOUND, none_text)])] /\
  hn_open <$> sy_conns (ns_sys s2) !! 7 = Some false.
Proof.
  assert (H : match n_run map_to_list (router_of shipped_files small_site) [] (n_new (quiet shipped_files)) visits3,
      n_run map_to_list (router_of shipped_files small_site) [] (n_new (quiet shipped_files)) (visits3 ++ visits4) with
    | Some s1, Some s2 => Some (waiting s1, sy_thr (ns_sys s1), waiting s2, sy_thr (ns_sys s2), told s2, hn_open <$> sy_conns (ns_sys s2) !! 7)
    | _, _ => None
    end = Some ([(0, true, 0); (1, true, 0)], TIn 1, [(0, false, 2); (1, false, 2)], TFree,
      [(0, [Some (sFOUND, front_text); Some (sOK, B "<h1>blog</h1>")]); (1, [Some (sOK, B "<h1>index</h1>"); Some (sNOT_FOUND, none_text)])],
      Some false)) by (by vm_compute).
  destruct (n_run map_to_list (router_of shipped_files small_site) [] (n_new (quiet shipped_files)) visits3) as [s1|]; [|discriminate].
  destruct (n_run map_to_list (router_of shipped_files small_site) [] (n_new (quiet shipped_files)) (visits3 ++ visits4)) as [s2|]; [|discriminate].
  exists s1, s2. apply Some_inj in H.
  assert (H1 := f_equal (fun x => x.1.1.1.1.1) H). assert (H2 := f_equal (fun x => x.1.1.1.1.2) H).
  assert (H3 := f_equal (fun x => x.1.1.1.2) H). assert (H4 := f_equal (fun x => x.1.1.2) H).
  assert (H5 := f_equal (fun x => x.1.2) H). assert (H6 := f_equal snd H). clear H.
  cbn [fst snd] in *. split; [reflexivity|]. split; [exact H1|]. split; [exact H2|]. split; [reflexivity|]. split; [exact H3|].
  split; [exact H4|]. split; [exact H5|exact H6].
Qed.
Example website_among_strangers_ex : exists s,
  Forall (visitor_with peers 400 shipped_files small_site) (visits3 ++ visits4) /\
  n_run map_to_list (router_of shipped_files small_site) [] (n_new (quiet shipped_files)) (visits3 ++ visits4) = Some s /\
  told s = [(0, [Some (sFOUND, front_text); Some (sOK, B "<h1>blog</h1>")]); (1, [Some (sOK, B "<h1>index</h1>"); Some (sNOT_FOUND, none_text)])] /\
  forall i c j q o a, ns_clients s !! i = Some c -> cl_calls c !! j = Some q -> cl_done c !! j = Some o ->
    site shipped_files small_site (path_of_req q) (host_of_req q) a ->
    exists y, o = Ok y /\ st_rc y = kSuccess /\ shows a (st_resp y).
Proof.
  destruct visits_among_run as (s1 & s & _ & _ & _ & E & _ & _ & Ht & _). exists s.
  split; [exact (proj2 visits_among_fair)|]. split; [exact E|]. split; [exact Ht|].
  destruct small_ascii as (A1 & A2 & A3).
  apply (website_among_strangers unit peers 400 shipped_files small_site (router_of shipped_files small_site) map_to_list [] (quiet shipped_files) (visits3 ++ visits4) s);
    [by vm_compute|exact A1|exact A2|exact A3|reflexivity|reflexivity|apply valid_order_sorted|exact (proj2 visits_among_fair)|exact E].
Qed.
Example website_returns_among_strangers_ex : exists s1 s2,
  n_run map_to_list (router_of shipped_files small_site) [] (n_new (quiet shipped_files)) visits3 = Some s1 /\
  waiting s1 = [(0, true, 0); (1, true, 0)] /\ sy_thr (ns_sys s1) <> TDown /\
  (exists n, forall ls' s', Forall (carries_on_with peers 400 shipped_files small_site) ls' ->
     n_run map_to_list (router_of shipped_files small_site) [] s1 ls' = Some s' -> length ls' <= n) /\
  n_run map_to_list (router_of shipped_files small_site) [] (n_new (quiet shipped_files)) (visits3 ++ visits4) = Some s2 /\
  waiting s2 = [(0, false, 2); (1, false, 2)] /\ hn_open <$> sy_conns (ns_sys s2) !! 7 = Some false.
Proof.
  destruct visits_among_run as (s1 & s2 & E1 & W1 & T1 & E2 & W2 & _ & _ & C2). exists s1, s2.
  split; [exact E1|]. split; [exact W1|]. split; [intros T2; rewrite T1 in T2; discriminate T2|].
  split; [|split; [exact E2|split; [exact W2|exact C2]]]. destruct small_ascii as (A1 & A2 & A3).
  apply (website_returns_among_strangers unit peers 400 shipped_files small_site (router_of shipped_files small_site) map_to_list [] (quiet shipped_files) visits3 s1);
    [by vm_compute|exact A1|exact A2|exact A3|reflexivity|reflexivity|apply valid_order_sorted|exact (proj1 visits_among_fair)|exact E1].
Qed.

(** stat(2) fails about one file of the directory; a stranger asks for it, and the web
    server is gone. *)
Definition odd_files : fs := fun p => if decide (p = B "../asset/blog-home/x") then StatFail else shipped_files p.
Definition visits5 : list nlab := [NConnect 0; NOther (LOpen 7); NOther (LSend 7 (other_text "/home/x")); NServer (LServe 7 false (WTake 5))].
Example what_stops_the_website_ex : exists s ls1 l ls2 s1 i k wr,
  n_run map_to_list (router_of odd_files small_site) [] (n_new (quiet odd_files)) visits5 = Some s /\ sy_thr (ns_sys s) = TDown /\
  visits5 = ls1 ++ l :: ls2 /\ n_run map_to_list (router_of odd_files small_site) [] (n_new (quiet odd_files)) ls1 = Some s1 /\
  peers i /\ sy_conns (ns_sys s1) !! i = Some k /\
  (l = NServer (LServe i false wr) \/ l = NServer (LResume i wr) \/ l = NServer (LTimeout i wr)) /\
  (~ short (hn_in k) \/ LF ∈ take 3 (hn_in k) \/ wr = WSig \/
   exists pre r, pre `prefix_of` hn_in k /\ req_parse req_new pre = Ok (kSuccess, r) /\ site_fails odd_files small_site r).
Proof.
  assert (H : match n_run map_to_list (router_of odd_files small_site) [] (n_new (quiet odd_files)) visits5 with
    | Some s => Some (sy_thr (ns_sys s)) | None => None end = Some TDown) by (by vm_compute).
  destruct (n_run map_to_list (router_of odd_files small_site) [] (n_new (quiet odd_files)) visits5) as [s|] eqn:E; [|discriminate].
  apply Some_inj in H.
  destruct (what_stops_the_website unit peers 400 odd_files small_site (router_of odd_files small_site) map_to_list [] (quiet odd_files) visits5 s)
    as (ls1 & l & ls2 & s1 & i & k & wr & Hx); [by vm_compute|apply small_ascii|apply small_ascii|apply router_of_ok; by vm_compute| |reflexivity|reflexivity|apply valid_order_sorted| |exact E|exact H|].
  - repeat (apply Forall_cons_2; [by vm_compute|]). constructor.
  - unfold visits5, peers. repeat (apply Forall_cons_2; [cbn [visitor_with]; first [lia|left; lia]|]). constructor.
  - exists s, ls1, l, ls2, s1, i, k, wr. split; [reflexivity|]. split; [exact H|exact Hx].
Qed.

Print Assumptions website.
Print Assumptions website_returns.
Print Assumptions website_among_strangers.
Print Assumptions website_returns_among_strangers.
Print Assumptions what_stops_the_website.
