(** C140-C145: the configurable web server (demo/web-server/main.cpp). *)
From Verif.Model Require Import WebServer.
From Verif.Proof Require Import RouterProof FileProof.
From Verif.Spec Require Import StringSpec.
From Verif.Props Require Import RouterProps StaticProps StringProps.
From Verif.Lib Require Import DecFacts.

(** ** The routes of a configuration *)

(** The item with the host pattern [pat] is meant for requests to [host]. *)
Definition for_host (host pat : bytes) : Prop := pat = [] ∨ glob pat host.
Global Instance for_host_dec host pat : Decision (for_host host pat).
Proof.
  unfold for_host. destruct (decide (pat = [])); [by left; left|].
  destruct (wildcard_match pat host) eqn:E.
  - left. right. by apply wildcard_match_is_glob.
  - right. intros [?|H]; [done|]. apply wildcard_match_is_glob in H. congruence.
Defined.
Definition host_of (c : ctx) : bytes := header_get_host (rq_header (cx_req c)).

(** Every static path is there. *)
Definition there (f : fs) (it : static_item) : Prop :=
  match f (cstr (si_path it)) with Dir _ | Reg _ _ _ _ => True | _ => False end.
Definition is_dir (f : fs) (it : static_item) : Prop := ∃ o, f (cstr (si_path it)) = Dir o.
Definition ascii_config (cfg : web_config) : Prop :=
  Forall (λ it, ascii_only (rd_route it)) (wc_redirects cfg) ∧ Forall (λ it, ascii_only (si_route it)) (wc_statics cfg).
(** The routes in the order of registration. *)
Definition routes_of (cfg : web_config) : list bytes := map rd_route (wc_redirects cfg) ++ map si_route (wc_statics cfg).
(** No route appears for the first time after one that extends it. *)
Definition in_order (l : list bytes) : Prop := ∀ before r after, l = before ++ r :: after →
  r = [] ∨ r ∈ before ∨ ∀ k, k ∈ before → ¬ r `prefix_of` k.

Section web.
Context {U : Type}.
Implicit Types (ro : router U) (w : world U) (c : ctx).

Definition redirect_reg (it : redirect_item) : registration U :=
  ([], rd_route it, Entry (Some (redirect_handler (rd_redirect it))) true (host_filters (rd_host it))).
Definition static_reg (f : fs) (it : static_item) : registration U :=
  ([], si_route it,
   match f (cstr (si_path it)) with
   | Dir _ => Entry (Some (owned (fun _ => true) (static_dir_handler (si_route it) (si_path it)))) false
                    (host_filters (si_host it) ++ [method_filter mGET])
   | _ => Entry (Some (owned (fun _ => true) (static_file_handler (si_path it)))) true
                (host_filters (si_host it) ++ [method_filter mGET])
   end).
Definition regs_of (f : fs) (cfg : web_config) : list (registration U) :=
  map redirect_reg (wc_redirects cfg) ++ map (static_reg f) (wc_statics cfg).

Lemma add_redirects_all l ro : add_redirects l ro = register_all (map redirect_reg l) ro.
Proof.
  revert ro. induction l as [|it l IH]; intros ro; [done|]. cbn [add_redirects map register_all redirect_reg].
  unfold group_GET, group_method. destruct (register _ _ _ _) as [r| | | | |]; try done. cbn. apply IH.
Qed.
Lemma add_statics_all f l ro : Forall (there f) l → add_statics f l ro = (r ← register_all (map (static_reg f) l) ro; Ok (Some r)).
Proof.
  intros H. revert ro. induction H as [|it l Hit H IH]; intros ro; [done|].
  cbn [add_statics map register_all static_reg]. unfold there in Hit. unfold file_is_dir, file_exist.
  destruct (f (cstr (si_path it))); try done; cbn [mbind outcome_bind].
  - unfold group_StaticFile. destruct (register _ _ _ _) as [r'| | | | |]; try done. cbn. apply IH.
  - unfold group_StaticDir. destruct (register _ _ _ _) as [r'| | | | |]; try done. cbn. apply IH.
Qed.
Lemma add_statics_there f l ro ro' : add_statics f l ro = Ok (Some ro') → Forall (there f) l.
Proof.
  revert ro. induction l as [|it l IH]; intros ro H; [done|]. cbn [add_statics] in H. unfold file_is_dir, file_exist in H.
  destruct (f (cstr (si_path it))) eqn:E; cbn [mbind outcome_bind] in H; try done.
  - destruct (group_StaticFile _ _ _ _ _ _); try done. constructor; [unfold there; by rewrite E|by eapply IH].
  - destruct (group_StaticDir _ _ _ _ _ _); try done. constructor; [unfold there; by rewrite E|by eapply IH].
Qed.

Lemma regs_ascii f cfg : ascii_config cfg → ascii_registrations (regs_of f cfg).
Proof.
  intros [H1 H2]. unfold ascii_registrations, regs_of. rewrite Forall_app, !Forall_map. split.
  - eapply Forall_impl; [exact H1|]. intros it H. split; [constructor|done].
  - eapply Forall_impl; [exact H2|]. intros it H. split; [constructor|done].
Qed.
Lemma regs_routes f cfg : map reg_key (regs_of f cfg) = routes_of cfg.
Proof. unfold regs_of, routes_of. rewrite map_app, !map_map. done. Qed.
Lemma regs_group f cfg x : x ∈ regs_of f cfg → x.1.1 = [].
Proof. intros H. apply elem_of_app in H as [H|H]; apply elem_of_list_fmap in H as (it & -> & _); done. Qed.
Lemma regs_placed f cfg : in_order (routes_of cfg) → all_well_placed (regs_of f cfg).
Proof.
  intros H. apply root_server_well_placed. intros before g path e after E.
  assert (Hg : g = []). { apply (regs_group f cfg (g, path, e)). rewrite E. apply elem_of_app. right. by left. }
  split; [done|]. subst g. pose proof (regs_routes f cfg) as HR. rewrite E, map_app in HR. cbn in HR.
  destruct (H _ _ _ (eq_sym HR)) as [?|[?|Hp]]; [by left|by right; left|]. right. right. intros k Hk. by apply Hp.
Qed.

Lemma web_routes_all f cfg : Forall (there f) (wc_statics cfg) →
  web_routes f cfg = (r ← register_all (regs_of f cfg) router_new; Ok (Some r)).
Proof.
  intros H. unfold web_routes. rewrite add_redirects_all.
  assert (E : register_all (regs_of f cfg) router_new =
    (r ← register_all (map redirect_reg (wc_redirects cfg)) router_new; register_all (map (static_reg f) (wc_statics cfg)) r))
    by apply register_all_app. rewrite E.
  destruct (register_all (map redirect_reg (wc_redirects cfg)) router_new) as [r| | | | |]; try done. cbn.
  by apply add_statics_all.
Qed.

(** ** Only the items that concern a request matter *)
Definition concerns (p : bytes) (x : registration U) : Prop :=
  if e_exact x.2 then reg_key x = p else reg_key x `prefix_of` p.
Lemma run_accepted l : ∀ c w, (∀ e h c w c' w', e ∈ l → e_callback e = Some h → h c w = Ok (c', w') → cx_req c' = cx_req c) →
  run_vector (List.filter (fun e => accepts e (cx_req c)) l) true (c, w) = run_vector l true (c, w).
Proof.
  induction l as [|e l IH]; intros c w HK; [done|]. cbn [List.filter].
  assert (HK' : ∀ e h c w c' w', e ∈ l → e_callback e = Some h → h c w = Ok (c', w') → cx_req c' = cx_req c).
  { intros. eapply HK; [by right|done|done]. }
  destruct (accepts e (cx_req c)) eqn:E.
  - cbn [run_vector negb andb fst]. rewrite E. destruct (e_callback e) as [h|] eqn:Eh; [|by apply IH].
    cbn [fst snd]. destruct (h c w) as [[c' w']| | | | |] eqn:Er; try done. cbn [mbind outcome_bind fst snd].
    destruct (w_running w'); [|done]. rewrite <- (HK e h c w c' w'); [by apply IH|by left|done|done].
  - cbn [run_vector negb andb fst]. rewrite E. by apply IH.
Qed.

(** Leaving out registrations that do not concern [p] or do not accept the request. *)
Inductive thin (A : entry U → bool) (p : bytes) : list (registration U) → list (registration U) → Prop :=
| thin_nil : thin A p [] []
| thin_keep x l l' : thin A p l l' → thin A p (x :: l) (x :: l')
| thin_drop x l l' : (A x.2 = true → ¬ concerns p x) → thin A p l l' → thin A p (x :: l) l'.
Lemma thin_app A p l1 l1' l2 l2' : thin A p l1 l1' → thin A p l2 l2' → thin A p (l1 ++ l2) (l1' ++ l2').
Proof. intros H1 H2. induction H1; [done|by constructor..]. Qed.
Lemma thin_none A p l : (∀ x, x ∈ l → A x.2 = true → ¬ concerns p x) → thin A p l [].
Proof.
  induction l as [|x l IH]; intros H; [constructor|]. apply thin_drop.
  - apply H. by left.
  - apply IH. intros y Hy. apply H. by right.
Qed.
Lemma filter_concerning (A : entry U → bool) regs regs' p : thin A p regs regs' →
  List.filter A (concerning (registered regs) p) = List.filter A (concerning (registered regs') p).
Proof.
  intros HT. unfold concerning. rewrite !flat_map_concat_map, <- !concat_filter_map, !map_map. f_equal.
  apply map_ext_in. intros i Hi. apply in_seq in Hi.
  assert (E : ∀ x regs, registered (x :: regs) (take i p) = (if decide (reg_key x = take i p) then [x.2] else []) ++ registered (U := U) regs (take i p)).
  { clear. intros x regs. unfold registered. cbn. by destruct (decide _). }
  induction HT as [|x l l' HT IH|x l l' HQ HT IH]; [done|..].
  - rewrite !E, !List.filter_app, IH. done.
  - rewrite E, !List.filter_app, <- IH. destruct (decide _) as [Hk|]; [|done]. cbn [List.filter].
    destruct (negb (e_exact x.2) || (i =? length p)%nat) eqn:Ee; [|done]. cbn [List.filter].
    destruct (A x.2) eqn:Ea; [|done]. exfalso. apply (HQ eq_refl). unfold concerns.
    destruct (e_exact x.2).
    + cbn in Ee. apply Nat.eqb_eq in Ee as ->. by rewrite take_ge in Hk by lia.
    + rewrite Hk. exists (drop i p). by rewrite take_drop.
Qed.
Lemma concerning_one (A : entry U → bool) (x : registration U) p : concerns p x → A x.2 = true →
  List.filter A (concerning (registered [x]) p) = [x.2].
Proof.
  intros Hc HA.
  assert (Hp : reg_key x `prefix_of` p). { unfold concerns in Hc. destruct (e_exact x.2); [by rewrite Hc|done]. }
  assert (Hlen := prefix_length _ _ Hp).
  assert (E : concerning (registered [x]) p = [x.2]).
  { unfold concerning. replace (S (length p)) with (length (reg_key x) + S (length p - length (reg_key x))) by lia.
    rewrite seq_app, flat_map_app. cbn [seq flat_map]. 
    assert (Z : ∀ l, (∀ i, i ∈ l → i ≤ length p ∧ i ≠ length (reg_key x)) →
      flat_map (fun i => List.filter (fun e => negb (e_exact e) || (i =? length p)%nat) (registered [x] (take i p))) l = []).
    { clear -Hlen. induction l as [|i l IH]; intros H; [done|]. cbn [flat_map]. rewrite IH by (intros j Hj; apply H; by right).
      rewrite app_nil_r. destruct (H i) as [H1 H2]; [by left|]. unfold registered. cbn. rewrite decide_False; [done|].
      intros E. apply H2. rewrite E, take_length. lia. }
    rewrite !Z; [|intros i Hi; apply elem_of_seq in Hi; lia ..]. rewrite app_nil_r. cbn [app].
    assert (Ht : take (length (reg_key x)) p = reg_key x). { destruct Hp as [z ->]. by rewrite take_app. }
    unfold registered. cbn [omap list_omap]. rewrite Nat.add_0_l, Ht, decide_True by done. cbn [List.filter].
    unfold concerns in Hc. destruct (e_exact x.2); cbn; [|done]. rewrite Hc. by rewrite Nat.eqb_refl. }
  rewrite E. cbn. by rewrite HA.
Qed.

Lemma static_file_req file c w c' w' : static_file_handler (U := U) file c w = Ok (c', w') → cx_req c' = cx_req c.
Proof.
  unfold static_file_handler. intros H. destruct (file_exist _ _) as [[]| | | | |]; try done; cbn in H.
  - destruct (file_read _ _ _) as [[rc d]| | | | |]; try done. cbn in H. destruct (negb _); [by injection H as <- <-|].
    destruct (file_suffix file); try done. cbn in H. destruct (convert_to_str _ _ _). by injection H as <- <-.
  - by injection H as <- <-.
Qed.
Lemma static_dir_req m dir c w c' w' : static_dir_handler (U := U) m dir c w = Ok (c', w') → cx_req c' = cx_req c.
Proof.
  unfold static_dir_handler. intros H. destruct (str_find _ _ _ =? npos)%N; [by injection H as <- <-|].
  destruct (substr_from _ _) as [aim| | | | |]; try done. cbn [mbind outcome_bind] in H.
  destruct (negb _); [by injection H as <- <-|].
  destruct (file_exist _ _) as [[]| | | | |]; try done; cbn [mbind outcome_bind negb] in H.
  - destruct (file_read _ _ _) as [[rc d]| | | | |]; try done. cbn [mbind outcome_bind fst snd] in H. destruct (negb _); [by injection H as <- <-|].
    destruct (file_suffix _); try done. cbn [mbind outcome_bind] in H. destruct (resp_success _ _ _ _). by injection H as <- <-.
  - by injection H as <- <-.
Qed.
Lemma regs_keep_req f cfg x h c w c' w' : x ∈ regs_of f cfg → e_callback x.2 = Some h → h c w = Ok (c', w') → cx_req c' = cx_req c.
Proof.
  intros Hx Hh H. apply elem_of_app in Hx as [Hx|Hx]; apply elem_of_list_fmap in Hx as (it & -> & _).
  - injection Hh as <-. injection H as <- <-. done.
  - cbn in Hh. destruct (f (cstr (si_path it))); injection Hh as <-; unfold owned in H;
      try (by eapply static_file_req); by eapply static_dir_req.
Qed.

Lemma host_accepts r pat : forallb (fun f => f r) (host_filters pat) = bool_decide (for_host (header_get_host (rq_header r)) pat).
Proof.
  unfold host_filters, for_host. destruct (decide (pat = [])) as [->|Hp].
  - cbn. by rewrite bool_decide_true by by left.
  - cbn. unfold host_filter. cbn. rewrite andb_true_r. symmetry. destruct (wildcard_match pat _) eqn:E.
    + apply bool_decide_true. right. by apply wildcard_match_is_glob.
    + apply bool_decide_false. intros [?|H]; [done|]. apply wildcard_match_is_glob in H. congruence.
Qed.

Lemma dispatch_accepted f cfg : ascii_config cfg → in_order (routes_of cfg) → Forall (there f) (wc_statics cfg) →
  ∃ ro, web_routes f cfg = Ok (Some ro) ∧ ∀ p c w, ascii_only p →
    dispatch ro p c w = (r ← run_vector (List.filter (fun e => accepts e (cx_req c)) (concerning (registered (regs_of f cfg)) p)) true (c, w); Ok r.1).
Proof.
  intros Ha Ho Ht. rewrite web_routes_all by done.
  destruct (register_all_table (regs_of f cfg) (regs_ascii f cfg Ha)) as (ro & T & Hro & Hrep & HT).
  rewrite Hro. exists ro. split; [done|]. intros p c w Hp. rewrite (dispatch_table ro T p c w Hrep Hp).
  pose proof (table_registered _ T HT (regs_placed f cfg Ho)) as Heq.
  replace (concerning T p) with (concerning (registered (regs_of f cfg)) p).
  2: { unfold concerning. rewrite !flat_map_concat_map. f_equal. apply map_ext. intros i. by rewrite Heq. }
  rewrite run_accepted; [done|]. intros e h c1 w1 c' w' He Hh H.
  unfold concerning in He. apply elem_of_list_In, in_flat_map in He as (i & _ & He). apply filter_In in He as [He _].
  apply elem_of_list_In, elem_of_list_omap in He as (x & Hx & He). destruct (decide _); [|done]. injection He as <-.
  by eapply regs_keep_req.
Qed.
End web.

(** ** C140 *)

(** The items of a configuration that are meant for [host]. *)
Definition only_for (host : bytes) (cfg : web_config) : web_config :=
  WebConfig (wc_port cfg) (wc_background cfg)
    (filter (λ it, for_host host (rd_host it)) (wc_redirects cfg))
    (filter (λ it, for_host host (si_host it)) (wc_statics cfg)).

(** A request is answered as if the items for other hosts were not there. *)
Definition hosts_are_separate_full : Prop := ∀ U f cfg (ro ro' : router U) p c w,
  ascii_config cfg → ascii_only p →
  web_routes f cfg = Ok (Some ro) → web_routes f (only_for (host_of c) cfg) = Ok (Some ro') →
  dispatch ro p c w = dispatch ro' p c w.

Lemma thin_only {U} f cfg c p : thin (U := U) (fun e => accepts e (cx_req c)) p (regs_of f cfg) (regs_of f (only_for (host_of c) cfg)).
Proof.
  apply thin_app; cbn.
  - induction (wc_redirects cfg) as [|it l IH]; [constructor|]. rewrite filter_cons. cbn. destruct (decide _) as [|Hn].
    + by constructor.
    + constructor; [|done]. unfold accepts. cbn. rewrite host_accepts. intros H. by apply bool_decide_eq_true in H.
  - induction (wc_statics cfg) as [|it l IH]; [constructor|]. rewrite filter_cons. cbn. destruct (decide _) as [|Hn].
    + by constructor.
    + constructor; [|done]. unfold accepts. cbn.
      destruct (f (cstr (si_path it))); cbn; rewrite forallb_app, host_accepts; intros H; apply andb_true_iff in H as [H _]; by apply bool_decide_eq_true in H.
Qed.

(** Missing: configurations in which a route comes after one that extends it, with
    or without the items for other hosts (the shorter one is then confused with
    the longer one, see C37). *)
Theorem hosts_are_separate_partial : ∀ U f cfg (ro ro' : router U) p c w,
  ascii_config cfg → ascii_only p → in_order (routes_of cfg) → in_order (routes_of (only_for (host_of c) cfg)) →
  web_routes f cfg = Ok (Some ro) → web_routes f (only_for (host_of c) cfg) = Ok (Some ro') →
  dispatch ro p c w = dispatch ro' p c w.
Proof.
  intros U f cfg ro ro' p c w Ha Hp Ho Ho' H H'.
  assert (HF : ∀ cfg (ro : router U), web_routes f cfg = Ok (Some ro) → Forall (there f) (wc_statics cfg)).
  { clear. intros cfg ro H. unfold web_routes in H. destruct (add_redirects _ _) as [r| | | | |]; try done. by eapply add_statics_there. }
  assert (Ha' : ascii_config (only_for (host_of c) cfg)).
  { destruct Ha as [H1 H2]. split; cbn; apply Forall_forall; intros it Hit; apply elem_of_list_filter in Hit as [_ Hit].
    - by apply (proj1 (Forall_forall _ _) H1 it).
    - by apply (proj1 (Forall_forall _ _) H2 it). }
  destruct (dispatch_accepted (U := U) f cfg Ha Ho (HF _ _ H)) as (r1 & E1 & D1).
  destruct (dispatch_accepted (U := U) f _ Ha' Ho' (HF _ _ H')) as (r2 & E2 & D2).
  rewrite H in E1. injection E1 as <-. rewrite H' in E2. injection E2 as <-.
  rewrite D1, D2 by done. by rewrite (filter_concerning _ _ _ _ (thin_only f cfg c p)).
Qed.

Definition no_files : fs := λ _, Absent true.
Definition get_of (host path : string) : ctx :=
  ctx_new (Req mGET v1_1 {[ B "Host" := B host ]} (Route (B path) ∅) []) resp_new.
Definition quiet (f : fs) : world unit := World true f [] ∅ tt.
(** The router of a configuration (when it has one). *)
Definition router_of (f : fs) (cfg : web_config) : router unit :=
  match web_routes f cfg with Ok (Some ro) => ro | _ => router_new end.
Lemma router_of_ok f cfg : (match web_routes (U := unit) f cfg with Ok (Some _) => true | _ => false end) = true →
  web_routes f cfg = Ok (Some (router_of f cfg)).
Proof. unfold router_of. by destruct (web_routes f cfg) as [[ro|]| | | | |]. Qed.
(** The status and the Location of the response. *)
Definition answer (r : outcome (ctx * world unit)) : option (status_code * bytes) :=
  match r with Ok (c, _) => Some (rs_status (cx_resp c), header_get (rs_header (cx_resp c)) (B "Location")) | _ => None end.
Definition two_hosts : web_config := WebConfig 80 false
  [RedirectItem (B "/a/b") (B "http://x/") (B "two.org"); RedirectItem (B "/a") (B "http://y/") (B "*one.org")] [].
Theorem hosts_are_separate_refuted : ¬ hosts_are_separate_full.
Proof.
  intros H. pose proof (H unit no_files two_hosts (router_of no_files two_hosts)
    (router_of no_files (only_for (B "one.org") two_hosts)) (B "/a") (get_of "one.org" "/a") (quiet no_files)) as E.
  assert (X : ascii_config two_hosts). { split; by_compute. }
  specialize (E X ltac:(by_compute) ltac:(apply router_of_ok; by vm_compute) ltac:(apply router_of_ok; by vm_compute)).
  apply (f_equal answer) in E. by vm_compute in E.
Qed.
Definition two_hosts_ordered : web_config := WebConfig 80 false
  [RedirectItem (B "/a") (B "http://y/") (B "*one.org"); RedirectItem (B "/a") (B "http://z/") (B "two.org");
   RedirectItem (B "/a/b") (B "http://x/") (B "two.org")] [].
Fixpoint order_ok (before l : list bytes) : bool :=
  match l with
  | [] => true
  | r :: l' => bool_decide (r = [] ∨ r ∈ before ∨ Forall (λ k, starts_with r k = false) before) && order_ok (before ++ [r]) l'
  end.
Lemma in_order_check l : order_ok [] l = true → in_order l.
Proof.
  intros H. assert (G : ∀ b l, order_ok b l = true → ∀ before r after, l = before ++ r :: after →
    r = [] ∨ r ∈ b ++ before ∨ ∀ k, k ∈ b ++ before → ¬ r `prefix_of` k).
  { clear. intros b l. revert b. induction l as [|x l IH]; intros b H before r after E; [by destruct before|].
    cbn in H. apply andb_true_iff in H as [H1 H2]. destruct before as [|y before].
    - injection E as <- <-. rewrite app_nil_r. apply bool_decide_eq_true in H1 as [?|[?|H1]]; [by left|by right; left|].
      right. right. intros k Hk Hp. apply starts_with_prefix in Hp. rewrite (proj1 (Forall_forall _ _) H1 k Hk) in Hp. done.
    - injection E as <- ->. pose proof (IH _ H2 before r after eq_refl) as G. by rewrite <- app_assoc in G. }
  intros before r after E. apply (G [] l H before r after E).
Qed.
Ltac check_order := apply in_order_check; by vm_compute.
Example hosts_ex : dispatch (router_of no_files two_hosts_ordered) (B "/a") (get_of "www.one.org" "/a") (quiet no_files) =
  dispatch (router_of no_files (only_for (B "www.one.org") two_hosts_ordered)) (B "/a") (get_of "www.one.org" "/a") (quiet no_files).
Proof.
  apply (hosts_are_separate_partial unit no_files two_hosts_ordered); [split; by_compute|by_compute| | |apply router_of_ok; by vm_compute|apply router_of_ok; by vm_compute].
  - check_order.
  - check_order.
Qed.

(** ** C141 *)

(** A request that an item covers. *)
Definition hits_redirect (p host : bytes) (it : redirect_item) : Prop := rd_route it = p ∧ for_host host (rd_host it).
Definition hits_static (f : fs) (p host : bytes) (it : static_item) : Prop :=
  (si_route it = p ∨ (is_dir f it ∧ si_route it `prefix_of` p)) ∧ for_host host (si_host it).

(** Every redirect of the configuration redirects. *)
Definition redirects_work_full : Prop := ∀ U f cfg (ro : router U) it c w,
  ascii_config cfg → web_routes f cfg = Ok (Some ro) → it ∈ wc_redirects cfg →
  hits_redirect (path_of c) (host_of c) it →
  ∃ c' w', dispatch ro (path_of c) c w = Ok (c', w') ∧ rs_status (cx_resp c') = sFOUND ∧
    header_get (rs_header (cx_resp c')) (B "Location") = rd_redirect it.

Lemma thin_redirect {U} f cfg r1 it r2 c : wc_redirects cfg = r1 ++ it :: r2 →
  (∀ it', it' ∈ r1 ++ r2 → ¬ hits_redirect (path_of c) (host_of c) it') →
  (∀ it', it' ∈ wc_statics cfg → ¬ hits_static f (path_of c) (host_of c) it') →
  thin (U := U) (fun e => accepts e (cx_req c)) (path_of c) (regs_of f cfg) [redirect_reg it].
Proof.
  intros E Hr Hs. unfold regs_of. change [redirect_reg it] with ([redirect_reg (U := U) it] ++ []). apply thin_app.
  - rewrite E, map_app. cbn. change [redirect_reg it] with ([] ++ [redirect_reg (U := U) it]). apply thin_app.
    + apply thin_none. intros x Hx HA HC. apply elem_of_list_fmap in Hx as (it' & -> & Hx). apply (Hr it'); [by apply elem_of_app; left|].
      split; [exact HC|]. unfold accepts in HA. cbn in HA. rewrite host_accepts in HA. by apply bool_decide_eq_true in HA.
    + constructor. apply thin_none. intros x Hx HA HC. apply elem_of_list_fmap in Hx as (it' & -> & Hx). apply (Hr it'); [by apply elem_of_app; right|].
      split; [exact HC|]. unfold accepts in HA. cbn in HA. rewrite host_accepts in HA. by apply bool_decide_eq_true in HA.
  - apply thin_none. intros x Hx HA HC. apply elem_of_list_fmap in Hx as (it' & -> & Hx). apply (Hs it' Hx).
    unfold concerns, reg_key in HC. cbn in HC. unfold accepts in HA. cbn in HA. unfold hits_static, is_dir.
    destruct (f (cstr (si_path it'))) eqn:Ef; cbn in HA, HC; rewrite forallb_app, host_accepts in HA; apply andb_true_iff in HA as [HA _];
      apply bool_decide_eq_true in HA; (split; [|done]); try (by left). right. split; [by eexists|done].
Qed.

(** Missing: other items for the same request (the last one wins, and a directory
    answers 404 for what is not in it), and routes not in order. *)
Theorem redirects_work_partial : ∀ U f cfg (ro : router U) r1 it r2 c w,
  ascii_config cfg → web_routes f cfg = Ok (Some ro) → in_order (routes_of cfg) →
  wc_redirects cfg = r1 ++ it :: r2 →
  hits_redirect (path_of c) (host_of c) it →
  (∀ it', it' ∈ r1 ++ r2 → ¬ hits_redirect (path_of c) (host_of c) it') →
  (∀ it', it' ∈ wc_statics cfg → ¬ hits_static f (path_of c) (host_of c) it') →
  ∃ c', dispatch ro (path_of c) c w = Ok (c', w) ∧ rs_status (cx_resp c') = sFOUND ∧
    header_get (rs_header (cx_resp c')) (B "Location") = rd_redirect it.
Proof.
  intros U f cfg ro r1 it r2 c w Ha H Ho E Hit Hr Hs.
  assert (HF : Forall (there f) (wc_statics cfg)).
  { unfold web_routes in H. destruct (add_redirects _ _) as [r| | | | |]; try done. by eapply add_statics_there. }
  destruct (dispatch_accepted (U := U) f cfg Ha Ho HF) as (r0 & E0 & D0). rewrite H in E0. injection E0 as <-.
  assert (Hp : ascii_only (path_of c)).
  { destruct Hit as [<- _]. destruct Ha as [Ha _]. rewrite E in Ha. apply Forall_app in Ha as [_ Ha]. by apply Forall_cons in Ha as [Ha _]. }
  rewrite D0 by done. rewrite (filter_concerning _ _ _ _ (thin_redirect f cfg r1 it r2 c E Hr Hs)).
  assert (HA : accepts (U := U) (redirect_reg it).2 (cx_req c) = true).
  { unfold accepts. cbn. rewrite host_accepts. apply bool_decide_eq_true. apply Hit. }
  rewrite concerning_one; [|by apply Hit|done]. cbn [run_vector negb andb fst]. rewrite HA. cbn.
  destruct (w_running w); (eexists; split; [done|]); cbn; (split; [done|]); unfold header_get; by rewrite lookup_insert.
Qed.

(** The configuration in demo/web-server/config.json: on /hello the index page
    answers instead of the redirect, because its route / was taken for /hello. *)
Definition shipped : web_config := WebConfig 8080 false
  [RedirectItem (B "/hello") (B "https://chenxuanweb.top") []]
  [StaticItem (B "/") (B "../asset/index.html") []; StaticItem (B "/home") (B "../asset/blog-home/index.html") [];
   StaticItem (B "/") (B "../asset/blog-home") []].
Definition shipped_files : fs := λ p,
  if decide (p = B "../asset/index.html") then Reg true true true (B "<h1>index</h1>")
  else if decide (p = B "../asset/blog-home/index.html") then Reg true true true (B "<h1>blog</h1>")
  else if decide (p = B "../asset/blog-home") then Dir true
  else if decide (p = B "../asset/blog-home//") then Dir true else Absent true.
Theorem redirects_work_refuted : ¬ redirects_work_full.
Proof.
  intros H. destruct (H unit shipped_files shipped (router_of shipped_files shipped) (RedirectItem (B "/hello") (B "https://chenxuanweb.top") [])
    (get_of "localhost" "/hello") (quiet shipped_files)) as (c' & w' & E & S & _).
  - split; by_compute.
  - apply router_of_ok. by vm_compute.
  - by left.
  - split; [done|by left].
  - apply (f_equal answer) in E. cbn [answer] in E. rewrite S in E. by vm_compute in E.
Qed.
Example redirect_ex : ∃ c', dispatch (router_of no_files two_hosts_ordered) (B "/a") (get_of "two.org" "/a") (quiet no_files) = Ok (c', quiet no_files) ∧
  rs_status (cx_resp c') = sFOUND ∧ header_get (rs_header (cx_resp c')) (B "Location") = B "http://z/".
Proof.
  eapply (redirects_work_partial unit no_files two_hosts_ordered _ [RedirectItem (B "/a") (B "http://y/") (B "*one.org")]
    (RedirectItem (B "/a") (B "http://z/") (B "two.org")) [RedirectItem (B "/a/b") (B "http://x/") (B "two.org")] (get_of "two.org" "/a")).
  - split; by_compute.
  - apply router_of_ok. by vm_compute.
  - check_order.
  - done.
  - split; [done|]. match goal with |- ?P => apply (bool_decide_unpack P); by vm_compute end.
  - intros it' Hin [H1 H2]. cbn in Hin. repeat (apply elem_of_cons in Hin as [->|Hin];
      [first [by vm_compute in H1|match type of H2 with ?P => assert (X : bool_decide P = false) by (by vm_compute); by apply bool_decide_eq_false in X end]|]).
    by apply elem_of_nil in Hin.
  - intros it' Hin. by apply elem_of_nil in Hin.
Qed.

(** ** C142 *)

(** Every file of the configuration is served under its route. *)
Definition statics_work_full : Prop := ∀ U f cfg (ro : router U) it c w wr o d,
  ascii_config cfg → web_routes f cfg = Ok (Some ro) → it ∈ wc_statics cfg → fits (si_path it) →
  f (cstr (si_path it)) = Reg true wr o d → w_fs w = f →
  si_route it = path_of c → for_host (host_of c) (si_host it) → rq_method (cx_req c) = mGET →
  ∃ c' w', dispatch ro (path_of c) c w = Ok (c', w') ∧ rs_status (cx_resp c') = sOK ∧ rs_body (cx_resp c') = d.

Lemma thin_static {U} f cfg s1 it s2 c : wc_statics cfg = s1 ++ it :: s2 →
  (∀ it', it' ∈ wc_redirects cfg → ¬ hits_redirect (path_of c) (host_of c) it') →
  (∀ it', it' ∈ s1 ++ s2 → ¬ hits_static f (path_of c) (host_of c) it') →
  thin (U := U) (fun e => accepts e (cx_req c)) (path_of c) (regs_of f cfg) [static_reg f it].
Proof.
  intros E Hr Hs. unfold regs_of. change [static_reg f it] with ([] ++ [static_reg (U := U) f it]).
  assert (HS : ∀ l, (∀ it', it' ∈ l → ¬ hits_static f (path_of c) (host_of c) it') →
    thin (U := U) (fun e => accepts e (cx_req c)) (path_of c) (map (static_reg f) l) []).
  { clear. intros l Hs. apply thin_none. intros x Hx HA HC. apply elem_of_list_fmap in Hx as (it' & -> & Hx). apply (Hs it' Hx).
    unfold concerns, reg_key in HC. cbn in HC. unfold accepts in HA. cbn in HA. unfold hits_static, is_dir.
    destruct (f (cstr (si_path it'))) eqn:Ef; cbn in HA, HC; rewrite forallb_app, host_accepts in HA; apply andb_true_iff in HA as [HA _];
      apply bool_decide_eq_true in HA; (split; [|done]); try (by left). right. split; [by eexists|done]. }
  apply thin_app.
  - apply thin_none. intros x Hx HA HC. apply elem_of_list_fmap in Hx as (it' & -> & Hx). apply (Hr it' Hx).
    split; [exact HC|]. unfold accepts in HA. cbn in HA. rewrite host_accepts in HA. by apply bool_decide_eq_true in HA.
  - rewrite E, map_app. cbn. change [static_reg f it] with ([] ++ [static_reg (U := U) f it]). apply thin_app.
    + apply HS. intros it' Hin. apply Hs. apply elem_of_app. by left.
    + constructor. apply HS. intros it' Hin. apply Hs. apply elem_of_app. by right.
Qed.

(** What a request gets for which one static item is the only one. *)
Lemma only_static {U} f cfg (ro : router U) s1 it s2 c w :
  ascii_config cfg → web_routes f cfg = Ok (Some ro) → in_order (routes_of cfg) → ascii_only (path_of c) →
  wc_statics cfg = s1 ++ it :: s2 → hits_static f (path_of c) (host_of c) it → rq_method (cx_req c) = mGET →
  (∀ it', it' ∈ wc_redirects cfg → ¬ hits_redirect (path_of c) (host_of c) it') →
  (∀ it', it' ∈ s1 ++ s2 → ¬ hits_static f (path_of c) (host_of c) it') →
  dispatch ro (path_of c) c w =
    match f (cstr (si_path it)) with
    | Dir _ => static_dir_handler (si_route it) (si_path it) c w
    | _ => static_file_handler (si_path it) c w
    end.
Proof.
  intros Ha H Ho Hp E [Hit Hh] Hm Hr Hs.
  assert (HF : Forall (there f) (wc_statics cfg)).
  { unfold web_routes in H. destruct (add_redirects _ _) as [r| | | | |]; try done. by eapply add_statics_there. }
  destruct (dispatch_accepted (U := U) f cfg Ha Ho HF) as (r0 & E0 & D0). rewrite H in E0. injection E0 as <-.
  rewrite D0 by done. rewrite (filter_concerning _ _ _ _ (thin_static f cfg s1 it s2 c E Hr Hs)).
  assert (HM : method_filter mGET (cx_req c) = true). { unfold method_filter. by apply bool_decide_eq_true. }
  assert (HA : accepts (U := U) (static_reg f it).2 (cx_req c) = true).
  { unfold accepts. cbn. destruct (f (cstr (si_path it))); cbn; rewrite forallb_app, host_accepts; cbn; rewrite HM;
      rewrite bool_decide_true by done; done. }
  rewrite concerning_one; [| |done].
  - cbn [run_vector negb andb fst]. rewrite HA. cbn [static_reg snd]. destruct (f (cstr (si_path it))); cbn [e_callback]; unfold owned; cbn [snd].
    all: match goal with |- (_ ← (st' ← ?x; _); _) = _ => destruct x as [[c' w']| | | | |]; try done end; cbn [mbind outcome_bind fst snd]; by destruct (w_running w').
  - unfold concerns, reg_key. cbn. unfold is_dir in Hit. destruct (f (cstr (si_path it))) eqn:Ef; cbn.
    all: destruct Hit as [Hit|[[o' Hd] Hpre]]; try done; by rewrite Hit.
Qed.

Lemma static_file_serves {U} file c (w : world U) wr o d : fits file → w_fs w (cstr file) = Reg true wr o d →
  ∃ c' w', static_file_handler file c w = Ok (c', w') ∧ rs_status (cx_resp c') = sOK ∧ rs_body (cx_resp c') = d.
Proof.
  intros Hf Hfs. unfold static_file_handler, file_exist, file_read. rewrite Hfs. cbn [mbind outcome_bind negb fst snd].
  change (negb (kSuccess =? kSuccess)%Z) with false. cbn [negb].
  destruct (file_suffix_ok _ Hf) as (co & x & _ & _ & Hs). rewrite Hs. cbn [mbind outcome_bind].
  destruct (convert_to_str _ _ _) as [ty cu]. do 2 eexists. split; [done|]. done.
Qed.

(** Missing: as for the redirects. *)
Theorem statics_work_partial : ∀ U f cfg (ro : router U) s1 it s2 c w wr o d,
  ascii_config cfg → web_routes f cfg = Ok (Some ro) → in_order (routes_of cfg) →
  wc_statics cfg = s1 ++ it :: s2 → fits (si_path it) →
  f (cstr (si_path it)) = Reg true wr o d → w_fs w = f →
  si_route it = path_of c → for_host (host_of c) (si_host it) → rq_method (cx_req c) = mGET →
  (∀ it', it' ∈ wc_redirects cfg → ¬ hits_redirect (path_of c) (host_of c) it') →
  (∀ it', it' ∈ s1 ++ s2 → ¬ hits_static f (path_of c) (host_of c) it') →
  ∃ c' w', dispatch ro (path_of c) c w = Ok (c', w') ∧ rs_status (cx_resp c') = sOK ∧ rs_body (cx_resp c') = d.
Proof.
  intros U f cfg ro s1 it s2 c w wr o d Ha H Ho E Hf Hfs Hw Hp Hh Hm Hr Hs.
  assert (Hpa : ascii_only (path_of c)).
  { rewrite <- Hp. destruct Ha as [_ Ha]. rewrite E in Ha. apply Forall_app in Ha as [_ Ha]. by apply Forall_cons in Ha as [Ha _]. }
  rewrite (only_static f cfg ro s1 it s2 c w Ha H Ho Hpa E); [|by split; [left|]|done..].
  rewrite Hfs. eapply static_file_serves; [done|]. by rewrite Hw.
Qed.
(** And every file of a directory of the configuration. *)
Theorem static_dirs_work_partial : ∀ U f cfg (ro : router U) s1 it s2 c w rest wr o d,
  ascii_config cfg → web_routes f cfg = Ok (Some ro) → in_order (routes_of cfg) →
  wc_statics cfg = s1 ++ it :: s2 → is_dir f it →
  fits (path_of c) → fits (si_path it ++ B "/" ++ rest) → ascii_only (path_of c) →
  path_of c = si_route it ++ rest → ¬ contains (B "..") rest →
  w_fs w (cstr (si_path it ++ B "/" ++ rest)) = Reg true wr o d →
  for_host (host_of c) (si_host it) → rq_method (cx_req c) = mGET →
  (∀ it', it' ∈ wc_redirects cfg → ¬ hits_redirect (path_of c) (host_of c) it') →
  (∀ it', it' ∈ s1 ++ s2 → ¬ hits_static f (path_of c) (host_of c) it') →
  ∃ c' w', dispatch ro (path_of c) c w = Ok (c', w') ∧ rs_status (cx_resp c') = sOK ∧ rs_body (cx_resp c') = d.
Proof.
  intros U f cfg ro s1 it s2 c w rest wr o d Ha H Ho E Hd Hf Hff Hpa Hp Hnd Hfs Hh Hm Hr Hs.
  rewrite (only_static f cfg ro s1 it s2 c w Ha H Ho Hpa E); [|split; [right; split; [done|by exists rest]|done]|done..].
  destruct Hd as [o' ->]. by eapply static_dir_serves_root.
Qed.

(** The index page of the configuration that comes with the program is not found. *)
Theorem statics_work_refuted : ¬ statics_work_full.
Proof.
  intros H. destruct (H unit shipped_files shipped (router_of shipped_files shipped) (StaticItem (B "/") (B "../asset/index.html") [])
    (get_of "localhost" "/") (quiet shipped_files) true true (B "<h1>index</h1>")) as (c' & w' & E & S & Hb).
  - split; by_compute.
  - apply router_of_ok. by vm_compute.
  - by left.
  - by vm_compute.
  - by vm_compute.
  - done.
  - done.
  - by left.
  - done.
  - apply (f_equal (λ r, match r with Ok (c, _) => rs_body (cx_resp c) | _ => [] end)) in E. rewrite Hb in E. by vm_compute in E.
Qed.
(** With the longest routes last it would work. *)
Definition reordered : web_config := WebConfig 8080 false []
  [StaticItem (B "/") (B "../asset/index.html") []; StaticItem (B "/home/") (B "../asset/blog-home") (B "*.org")].
Example statics_ex : ∃ c' w', dispatch (router_of shipped_files reordered) (B "/") (get_of "localhost" "/") (quiet shipped_files) = Ok (c', w') ∧
  rs_status (cx_resp c') = sOK ∧ rs_body (cx_resp c') = B "<h1>index</h1>".
Proof.
  eapply (statics_work_partial unit shipped_files reordered _ [] (StaticItem (B "/") (B "../asset/index.html") [])
    [StaticItem (B "/home/") (B "../asset/blog-home") (B "*.org")] (get_of "localhost" "/")).
  - split; by_compute.
  - apply router_of_ok. by vm_compute.
  - check_order.
  - done.
  - by vm_compute.
  - by vm_compute.
  - done.
  - done.
  - by left.
  - done.
  - intros it' Hin. by apply elem_of_nil in Hin.
  - intros it' Hin [[H1|[_ [z H1]]] _]; cbn in Hin; apply elem_of_list_singleton in Hin as ->; by vm_compute in H1.
Qed.
Example static_dirs_ex : ∃ c' w', dispatch (router_of shipped_files reordered) (B "/home/index.html") (get_of "x.org" "/home/index.html") (quiet shipped_files) = Ok (c', w') ∧
  rs_status (cx_resp c') = sOK ∧ rs_body (cx_resp c') = B "<h1>blog</h1>".
Proof.
  eapply (static_dirs_work_partial unit shipped_files reordered _ [StaticItem (B "/") (B "../asset/index.html") []]
    (StaticItem (B "/home/") (B "../asset/blog-home") (B "*.org")) [] (get_of "x.org" "/home/index.html") _ (B "index.html")).
  - split; by_compute.
  - apply router_of_ok. by vm_compute.
  - check_order.
  - done.
  - eexists. by vm_compute.
  - by vm_compute.
  - by vm_compute.
  - by_compute.
  - done.
  - apply find_idx_None_contains. by vm_compute.
  - by vm_compute.
  - match goal with |- ?P => apply (bool_decide_unpack P); by vm_compute end.
  - done.
  - intros it' Hin. by apply elem_of_nil in Hin.
  - intros it' Hin. cbn in Hin. apply elem_of_list_singleton in Hin as ->. intros [[H1|[[o H1] _]] _]; by vm_compute in H1.
Qed.

(** ** C143 *)

(** The server starts exactly if every static path is there. *)
Theorem starts_iff_all_there : ∀ U f cfg, ascii_config cfg →
  ((∃ ro : router U, web_routes f cfg = Ok (Some ro)) ↔ Forall (there f) (wc_statics cfg)).
Proof.
  intros U f cfg Ha. split.
  - intros [ro H]. unfold web_routes in H. destruct (add_redirects _ _) as [r| | | | |]; try done. by eapply add_statics_there.
  - intros HF. rewrite web_routes_all by done.
    destruct (register_all_table (U := U) (regs_of f cfg) (regs_ascii f cfg Ha)) as (ro & T & Hro & _). rewrite Hro. by exists ro.
Qed.
Example starts_ex : ¬ ∃ ro : router unit, web_routes no_files shipped = Ok (Some ro).
Proof.
  rewrite (starts_iff_all_there unit no_files shipped); [|split; by_compute].
  intros H. apply Forall_cons in H as [H _]. by vm_compute in H.
Qed.

(** The server listens on the port of the configuration. *)
Definition listens_where_told_full : Prop := ∀ cfg, (0 < wc_port cfg)%Z → web_port cfg = wc_port cfg.
Theorem listens_where_told_partial : ∀ cfg, (0 < wc_port cfg < 2 ^ 16)%Z → web_port cfg = wc_port cfg.
Proof. intros cfg H. unfold web_port. apply Z.mod_small. lia. Qed.
Theorem listens_where_told_refuted : ¬ listens_where_told_full.
Proof. intros H. by pose proof (H (WebConfig 65616 false [] []) ltac:(done)). Qed.
Example listens_ex : web_port shipped = 8080%Z.
Proof. by apply (listens_where_told_partial shipped). Qed.

(** ** C144 *)

(** The commands that signal a running server. *)
Definition machine0 (f : fs) : machine := Machine f ∅ ∅.
Definition can_write (f : fs) : Prop :=
  match f (cstr pid_file) with Reg r w _ _ => r = true ∧ w = true | Absent c => c = true | _ => False end.

(** --stop and --reload signal a server if there is one, and no other process. *)
Definition stop_finds_server_full : Prop := ∀ F (a : argc_deal F) room f ls m ks next,
  can_write f → 32 ≤ room → m_run room ls (machine0 f) = Some m →
  get_option a (B "stop") = true ∨ get_option a (B "reload") = true →
  web_main a (mc_fs m) = Ok (ks, next) →
  (mc_servers m ≠ ∅ → ks ≠ []) ∧ ∀ k, k ∈ ks → k ∈ mc_servers m.

Lemma dec_len fuel n : length (dec_digits fuel n) ≤ fuel.
Proof.
  revert n. induction fuel as [|fuel IH]; intros n; [done|]. cbn. destruct (n <? 10)%N; cbn; [lia|].
  rewrite app_length. cbn. specialize (IH (n / 10)%N). lia.
Qed.
Lemma pid_len p : (0 ≤ p ≤ int_max)%Z → length (int_to_string p) ≤ 32.
Proof.
  intros H. unfold int_to_string. destruct (p <? 0)%Z eqn:E; [lia|]. unfold dec_of_N. etransitivity; [apply dec_len|].
  assert (N.log2 (Z.to_N p) ≤ 31)%N; [|lia]. etransitivity; [apply (N.log2_le_mono _ (2 ^ 31))|]; [unfold int_max in *; lia|]. by vm_compute.
Qed.

(** What the pid file says. *)
Definition pid_says (f : fs) (z : Z) : Prop := ∃ o, f (cstr pid_file) = Reg true true o (int_to_string z).
Lemma write_says room bg p f : can_write f → 32 ≤ room → (0 ≤ p ≤ int_max)%Z →
  can_write (write_pid room bg p f) ∧ pid_says (write_pid room bg p f) (noted_pid bg p).
Proof.
  intros Hw Hr Hp. unfold write_pid, file_write, open_out, can_write, pid_says in *.
  assert (Hl : take room (int_to_string (noted_pid bg p)) = int_to_string (noted_pid bg p)).
  { apply take_ge. etransitivity; [apply pid_len|lia]. unfold noted_pid. destruct bg; [done|]. unfold int_max. lia. }
  destruct (f (cstr pid_file)) as [mc| |r w o d|]; try done.
  - subst mc. cbn [snd fs_set]. unfold fs_set. rewrite decide_True, Hl by done. split; [done|by eexists].
  - destruct Hw as [-> ->]. cbn [snd]. unfold fs_set. rewrite decide_True, Hl by done. split; [done|by eexists].
Qed.
Lemma run_can_write room ls m m' : 32 ≤ room → can_write (mc_fs m) → m_run room ls m = Some m' → can_write (mc_fs m').
Proof.
  intros Hr. revert m. induction ls as [|l ls IH]; intros m Hw H; [by injection H as <-|]. cbn in H.
  destruct (m_step room l m) as [m1|] eqn:E; [|done]. cbn in H. apply (IH m1); [|done].
  destruct l as [p cfg|p|p]; cbn in E.
  - destruct (m_free p m) eqn:Ef; [|done]. injection E as <-. cbn. unfold m_free in Ef. apply bool_decide_eq_true in Ef as (? & ? & _).
    apply write_says; [done|done|lia].
  - injection E as <-. done.
  - destruct (m_free p m); [|done]. injection E as <-. done.
Qed.

(** The server that was started last, by MStart [p] with [cfg], is still running. *)
Definition last_server (ls : list mlabel) (p : Z) (cfg : web_config) : Prop :=
  ∃ l1 l2, ls = l1 ++ MStart p cfg :: l2 ∧ MEnd p ∉ l2 ∧ ∀ p' cfg', MStart p' cfg' ∉ l2.

Lemma m_run_app room l1 l2 m : m_run room (l1 ++ l2) m = (m1 ← m_run room l1 m; m_run room l2 m1).
Proof. revert m. induction l1 as [|l l1 IH]; intros m; [done|]. cbn. destruct (m_step room l m); [apply IH|done]. Qed.
Lemma last_says room f ls m p cfg : can_write f → 32 ≤ room → m_run room ls (machine0 f) = Some m → last_server ls p cfg →
  p ∈ mc_servers m ∧ (1 < p ≤ int_max)%Z ∧ pid_says (mc_fs m) (noted_pid (wc_background cfg) p).
Proof.
  intros Hw Hr H (l1 & l2 & -> & He & Hs). rewrite m_run_app in H. destruct (m_run room l1 (machine0 f)) as [m1|] eqn:E1; [|done].
  pose proof (run_can_write room l1 (machine0 f) m1 Hr Hw E1) as Hw1. cbn [mbind option_bind] in H.
  change (m_run room (MStart p cfg :: l2) m1) with (m2 ← m_step room (MStart p cfg) m1; m_run room l2 m2) in H. cbn in H.
  destruct (m_free p m1) eqn:Ef; [|done]. cbn in H. unfold m_free in Ef. apply bool_decide_eq_true in Ef as (F1 & F2 & _).
  destruct (write_says room (wc_background cfg) p (mc_fs m1) Hw1 Hr ltac:(lia)) as [_ Hsay].
  match type of H with m_run _ _ ?m2 = _ => assert (HI : p ∈ mc_servers m2 ∧ pid_says (mc_fs m2) (noted_pid (wc_background cfg) p)) by (cbn; split; [set_solver|done]);
    revert HI H; generalize m2 end.
  clear -He Hs F1 F2. intros m2 HI H. revert m2 HI H. induction l2 as [|l l2 IH]; intros m2 [H1 H2] H.
  - injection H as <-. split; [done|]. split; [lia|done].
  - cbn in H. destruct (m_step room l m2) as [m3|] eqn:E; [|done]. cbn in H. apply (IH ltac:(set_solver) ltac:(set_solver) m3); [|done].
    destruct l as [p' cfg'|p'|p']; cbn in E.
    + destruct (Hs p' cfg'). by left.
    + injection E as <-. cbn. assert (p' ≠ p) by set_solver. split; [set_solver|done].
    + destruct (m_free p' m2); [|done]. injection E as <-. done.
Qed.

(** Missing: servers in the foreground (the file says 0), pids up to 66, servers of
    which the last one has ended (its pid may be that of another program). *)
Theorem stop_finds_server_partial : ∀ F (a : argc_deal F) room f ls m p cfg,
  can_write f → 32 ≤ room → m_run room ls (machine0 f) = Some m →
  last_server ls p cfg → wc_background cfg = true → (66 < p)%Z →
  p ∈ mc_servers m ∧
  (get_option a (B "stop") = true → web_main a (mc_fs m) = Ok ([p], WExit)) ∧
  (get_option a (B "reload") = true → get_option a (B "stop") = false → ∀ ks next, web_main a (mc_fs m) = Ok (ks, next) → ks = [p]).
Proof.
  intros F a room f ls m p cfg Hw Hr H HL Hb Hp. destruct (last_says _ _ _ _ _ _ Hw Hr H HL) as (H1 & H2 & o & H3).
  rewrite Hb in H3. cbn [noted_pid] in H3. split; [done|].
  assert (HM : get_option a (B "reload") || get_option a (B "stop") = true →
    web_main a (mc_fs m) = (if get_option a (B "stop") then Ok ([p], WExit) else web_load a (mc_fs m) [p])).
  { intros Hg. unfold web_main. rewrite Hg. unfold file_read. rewrite H3. cbn [mbind outcome_bind fst snd].
    change (negb (kSuccess =? 0)%Z) with false. cbn [negb]. rewrite stoi_int_to_string by (unfold int_min; lia).
    destruct (p <=? 66)%Z eqn:E; [lia|]. done. }
  split.
  - intros Hs. rewrite HM by (rewrite Hs; apply orb_true_r). by rewrite Hs.
  - intros Hg Hs ks next HX. rewrite HM, Hs in HX by (by rewrite Hg). unfold web_load in HX.
    destruct (file_read _ _ _) as [[rc d]| | | | |]; try done. cbn [mbind outcome_bind fst snd] in HX. destruct (negb _); by injection HX as <- <-.
Qed.

Definition stop_args : argc_deal unit := ArgcDeal {[ B "stop" := [] ]} ∅ None.
Definition fg : web_config := WebConfig 80 false [] [].
Definition bg : web_config := WebConfig 80 true [] [].
Definition m_after (ls : list mlabel) : machine := default (machine0 no_files) (m_run 32 ls (machine0 no_files)).
Lemma m_after_ok ls : (match m_run 32 ls (machine0 no_files) with Some _ => true | None => false end) = true → m_run 32 ls (machine0 no_files) = Some (m_after ls).
Proof. unfold m_after. by destruct (m_run _ _ _). Qed.
(** Started in the foreground, the server is not found. *)
Theorem stop_finds_server_refuted : ¬ stop_finds_server_full.
Proof.
  intros H. destruct (H unit stop_args 32 no_files [MStart 4711 fg] (m_after [MStart 4711 fg]) [] WExit) as [X _].
  - done.
  - lia.
  - apply m_after_ok. by vm_compute.
  - left. by vm_compute.
  - by vm_compute.
  - apply X; [|done]. intros E. assert (Hin : 4711%Z ∈ mc_servers (m_after [MStart 4711 fg])) by (by vm_compute). rewrite E in Hin. by apply elem_of_empty in Hin.
Qed.
(** The pid file outlives the server: another program is killed. *)
Theorem stop_kills_stranger : ∃ ls, let m := m_after ls in m_run 32 ls (machine0 no_files) = Some m ∧
  mc_servers m = ∅ ∧ 4711%Z ∈ mc_others m ∧ web_main stop_args (mc_fs m) = Ok ([4711%Z], WExit).
Proof.
  exists [MStart 4711 bg; MEnd 4711; MSpawn 4711]. cbv zeta. split; [apply m_after_ok; by vm_compute|].
  split; [|split; [by vm_compute|by vm_compute]]. apply set_eq. intros x. split; [|set_solver]. intros Hx. exfalso.
  cbn in Hx. set_solver.
Qed.
Example stop_ex : web_main stop_args (mc_fs (m_after [MStart 100 bg; MStart 4711 bg; MSpawn 17; MEnd 100])) = Ok ([4711%Z], WExit).
Proof.
  eapply (stop_finds_server_partial unit stop_args 32 no_files [MStart 100 bg; MStart 4711 bg; MSpawn 17; MEnd 100] _ 4711 bg).
  - done.
  - lia.
  - apply m_after_ok. by vm_compute.
  - exists [MStart 100 bg], [MSpawn 17; MEnd 100]. split; [done|]. split; [set_solver|set_solver].
  - done.
  - lia.
  - by vm_compute.
Qed.

(** ** C145 *)

(** --stop does not start a server. *)
Definition stop_only_stops_full : Prop := ∀ F (a : argc_deal F) f ks next,
  get_option a (B "stop") = true → web_main a f = Ok (ks, next) → next = WExit.
(** Missing: the pid file cannot be read. *)
Theorem stop_only_stops_partial : ∀ F (a : argc_deal F) f ks next wr o d,
  get_option a (B "stop") = true → f (cstr pid_file) = Reg true wr o d → web_main a f = Ok (ks, next) → next = WExit.
Proof.
  intros F a f ks next wr o d Hs Hf H. unfold web_main in H. rewrite Hs, orb_true_r in H. unfold file_read in H. rewrite Hf in H.
  cbn [mbind outcome_bind fst snd] in H. change (negb (kSuccess =? 0)%Z) with false in H. cbn [negb] in H.
  destruct (stoi d) as [z| | | | |]; try done; [destruct (z <=? 66)%Z|]; by injection H as <- <-.
Qed.
Definition only_config : fs := λ p, if decide (p = B "./config.json") then Reg true true true (B "{}") else Absent true.
Theorem stop_only_stops_refuted : ¬ stop_only_stops_full.
Proof. intros H. by pose proof (H unit stop_args only_config [] (WStart (B "{}")) ltac:(by vm_compute) ltac:(by vm_compute)). Qed.
Example stop_only_ex : ∀ next, web_main stop_args (mc_fs (m_after [MStart 100 fg])) = Ok ([], next) → next = WExit.
Proof. intros next. eapply stop_only_stops_partial; [by vm_compute|]. by vm_compute. Qed.

Print Assumptions hosts_are_separate_partial.
Print Assumptions hosts_are_separate_refuted.
Print Assumptions redirects_work_partial.
Print Assumptions redirects_work_refuted.
Print Assumptions statics_work_partial.
Print Assumptions static_dirs_work_partial.
Print Assumptions statics_work_refuted.
Print Assumptions starts_iff_all_there.
Print Assumptions listens_where_told_partial.
Print Assumptions listens_where_told_refuted.
Print Assumptions stop_finds_server_partial.
Print Assumptions stop_finds_server_refuted.
Print Assumptions stop_kills_stranger.
Print Assumptions stop_only_stops_partial.
Print Assumptions stop_only_stops_refuted.
