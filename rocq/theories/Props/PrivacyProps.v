(** C174: a server tells its peers nothing about files that it was not told to serve
    (src/cppnet/http/server/http_server.cpp: HttpGroup::StaticDir, HttpGroup::StaticFile,
    on the servers of HttpSystem.v, HttpsSystem.v and HttpThreads.v). *)
From Verif.Lib Require Import CxxStringFacts.
From Verif.Model Require Import Server.
From Verif.Model Require HttpSystem HttpsSystem HttpThreads.
From Verif.Proof Require Import RouterProof HttpSystemProof PrivacyProof.
From Verif.Proof Require HttpsSystemProof HttpThreadsProof.
From Verif.Props Require Import StaticProps.

(** How an application configures its server: directories, files, and callbacks of
    its own. *)
Inductive setup (U : Type) : Type :=
| SDir (alive : U -> bool) (g path dir : bytes) (fl : list filter_fn)
| SFile (alive : U -> bool) (g path file : bytes) (fl : list filter_fn)
| SOwn (g path : bytes) (e : entry U).
Arguments SDir {U}. Arguments SFile {U}. Arguments SOwn {U}.
Definition do_setup {U} (x : setup U) (ro : router U) : outcome (Z * router U) :=
  match x with
  | SDir alive g path dir fl => group_StaticDir alive g path dir fl ro
  | SFile alive g path file fl => group_StaticFile alive g path file fl ro
  | SOwn g path e => register g path e ro
  end.
Fixpoint do_setups {U} (xs : list (setup U)) (ro : router U) : outcome (router U) :=
  match xs with
  | [] => Ok ro
  | x :: xs' => r ← do_setup x ro; do_setups xs' r.2
  end.

(** The names of files that may be served. *)
Definition published {U} (xs : list (setup U)) (name : bytes) : Prop :=
  (exists alive g path dir fl, SDir alive g path dir fl ∈ xs /\ inside dir name) \/
  (exists alive g path file fl, SFile alive g path file fl ∈ xs /\ name = cstr file).

(** A callback that has nothing to do with files: with other files it does the same,
    and leaves the files alone. *)
Definition ignores_files {U} (h : handler U) : Prop :=
  (forall c w f, h c (with_fs w f) = ofmap (fun x => (x.1, with_fs x.2 f)) (h c w)) /\
  (forall c w c' w', h c w = Ok (c', w') -> fits (path_of c) -> fits (path_of c')).
Definition proper {U} (x : setup U) : Prop :=
  match x with
  | SDir _ _ _ dir _ => NUL ∉ dir
  | SFile _ _ _ _ _ => True
  | SOwn _ _ e => forall h, e_callback e = Some h -> ignores_files h
  end.

(** Two worlds that differ only in files that are not published. *)
Definition twin {U} (pub : bytes -> Prop) (f : fs) (w1 w2 : world U) : Prop :=
  w2 = with_fs w1 f /\ forall x, pub x -> f x = w_fs w1 x.
(** ... and the files are [f1] in the first. *)
Definition twins {U} (pub : bytes -> Prop) (f1 f : fs) (w1 w2 : world U) : Prop := twin pub f w1 w2 /\ w_fs w1 = f1.

Lemma twins_running {U} pub f1 f (w1 w2 : world U) : twins pub f1 f w1 w2 -> w_running w1 = w_running w2.
Proof. intros [[-> _] _]. done. Qed.

Section calls.
Context {U : Type} (pub : bytes -> Prop) (f1 f : fs).
Definition path_fits (c : ctx) : Prop := fits (path_of c).

Lemma ignores_rel (h : handler U) c w1 w2 : ignores_files h -> path_fits c -> twins pub f1 f w1 w2 ->
  rel_answer (twins pub f1 f) path_fits (h c w1) (h c w2).
Proof.
  intros [H Hp] Hc [[-> Hag] Hf]. pose proof (H c w1 f) as E. rewrite E.
  pose proof (H c w1 (w_fs w1)) as E1. replace (with_fs w1 (w_fs w1)) with w1 in E1 by (by destruct w1).
  destruct (h c w1) as [[c' w']| | | | |] eqn:Eh; try done. cbn [ofmap mbind outcome_bind fst snd] in *.
  injection E1 as E1. split; [done|]. split; [by eapply Hp|].
  assert (Hw : w_fs w' = w_fs w1) by (rewrite E1; done). split; [|congruence]. split; [done|].
  intros x Hx. rewrite Hw. by apply Hag.
Qed.
Lemma owned_rel alive (h : handler U) c w1 w2 : twins pub f1 f w1 w2 ->
  rel_answer (twins pub f1 f) path_fits (h c w1) (h c w2) ->
  rel_answer (twins pub f1 f) path_fits (owned alive h c w1) (owned alive h c w2).
Proof.
  intros [[-> _] _] H. unfold owned. cbn [with_fs w_user]. by destruct (alive (w_user w1)).
Qed.
Lemma twins_keep (w1 w' : world U) : twins pub f1 f w1 (with_fs w1 f) -> w_fs w' = w_fs w1 ->
  twins pub f1 f w' (with_fs w' f).
Proof. intros [[_ Hag] Hf] E. split; [|congruence]. split; [done|]. intros x Hx. rewrite E. by apply Hag. Qed.

Lemma static_dir_rel m dir c w1 w2 : NUL ∉ dir -> (forall x, inside dir x -> pub x) -> path_fits c ->
  twins pub f1 f w1 w2 ->
  rel_answer (twins pub f1 f) path_fits (static_dir_handler (U := U) m dir c w1) (static_dir_handler m dir c w2).
Proof.
  intros Hnul Hpub Hc Ht. pose proof Ht as [[-> Hag] Hf1]. unfold static_dir_handler. unfold path_fits, path_of in Hc.
  assert (Hok : forall c' (w' : world U), path_of c' = path_of c -> w_fs w' = w_fs w1 ->
    rel_answer (twins pub f1 f) path_fits (Ok (c', w')) (Ok (c', with_fs w' f))).
  { intros c' w' E1 E2. split; [done|]. split; [unfold path_fits; by rewrite E1|]. by apply (twins_keep w1). }
  set (route := rt_path (rq_route (cx_req c))) in *.
  destruct (static_dir_aim m route Hc) as [[E _]|(a & r & Hr & _ & E & Es)].
  { rewrite E, N.eqb_refl. by apply Hok. }
  rewrite E, Es. cbn [mbind outcome_bind].
  assert (Hfr : fits r). { rewrite Hr in Hc. by do 2 apply fits_app_r in Hc. }
  destruct (find_dotdot r Hfr) as [[E2 Hnd]|[E2 _]]; rewrite E2; cbn [negb]; [|by apply Hok].
  set (fp := dir ++ B "/" ++ r) in *.
  assert (Hfp : f (cstr fp) = w_fs w1 (cstr fp)).
  { apply Hag, Hpub. exists (cstr r). split; [|by intros Hx; apply Hnd, contains_cstr].
    unfold fp. rewrite cstr_app by done. by rewrite cstr_app by by_compute. }
  unfold file_exist, file_read. cbn [with_fs w_fs]. rewrite Hfp.
  destruct (w_fs w1 (cstr fp)) as [| |rd wr o d|]; try done; cbn [mbind outcome_bind negb]; try (by apply Hok).
  destruct rd; cbn [mbind outcome_bind fst snd]; [|by apply Hok].
  change (negb (kSuccess =? kSuccess)%Z) with false. cbn [negb].
  destruct (file_suffix fp); try done. cbn [mbind outcome_bind opened with_fs w_custom w_running w_fs w_opened w_user].
  destruct (resp_success _ _ _ _) as [p3 cu]. by apply Hok.
Qed.
Lemma static_file_rel file c w1 w2 : pub (cstr file) -> path_fits c -> twins pub f1 f w1 w2 ->
  rel_answer (twins pub f1 f) path_fits (static_file_handler (U := U) file c w1) (static_file_handler file c w2).
Proof.
  intros Hpub Hc Ht. pose proof Ht as [[-> Hag] Hf1]. unfold static_file_handler.
  assert (Hok : forall c' (w' : world U), path_of c' = path_of c -> w_fs w' = w_fs w1 ->
    rel_answer (twins pub f1 f) path_fits (Ok (c', w')) (Ok (c', with_fs w' f))).
  { intros c' w' E1 E2. split; [done|]. split; [unfold path_fits; by rewrite E1|]. by apply (twins_keep w1). }
  unfold file_exist, file_read. cbn [with_fs w_fs]. rewrite (Hag _ Hpub).
  destruct (w_fs w1 (cstr file)) as [| |rd wr o d|]; try done; cbn [mbind outcome_bind negb]; try (by apply Hok).
  destruct rd; cbn [mbind outcome_bind fst snd]; [|by apply Hok].
  change (negb (kSuccess =? kSuccess)%Z) with false. cbn [negb].
  destruct (file_suffix file); try done. cbn [mbind outcome_bind opened with_fs w_custom w_running w_fs w_opened w_user].
  destruct (convert_to_str _ _ _) as [ty cu]. by apply Hok.
Qed.
End calls.

Lemma setups_rel {U} (xs : list (setup U)) f1 f : forall ys (ro ro' : router U), Forall proper ys ->
  (forall x, published ys x -> published xs x) ->
  Forall (Forall (rel_entry (twins (published xs) f1 f) path_fits)) (ro_heap ro) -> do_setups ys ro = Ok ro' ->
  Forall (Forall (rel_entry (twins (published xs) f1 f) path_fits)) (ro_heap ro').
Proof.
  induction ys as [|y ys IH]; intros ro ro' Hp Hpub HF H; cbn [do_setups] in H; [by injection H as <-|].
  apply Forall_cons in Hp as [Hy Hp].
  destruct (do_setup y ro) as [[rc r]| | | | |] eqn:E; cbn [mbind outcome_bind snd] in H; try done.
  apply (IH r ro' Hp); [| |done].
  { intros x [(al & g & pa & d & fl & Hi & Hx)|(al & g & pa & d & fl & Hi & Hx)]; apply Hpub.
    - left. exists al, g, pa, d, fl. split; [by right|done].
    - right. exists al, g, pa, d, fl. split; [by right|done]. }
  destruct y as [alive g path dir fl|alive g path file fl|g path e]; cbn [do_setup proper] in *.
  - eapply register_Forall; [exact E| |done]. intros h c w1 w2 Hh Hc Ht. cbn in Hh. injection Hh as <-.
    apply owned_rel; [done|]. apply static_dir_rel; [done| |done..]. intros x Hx. apply Hpub. left.
    exists alive, g, path, dir, fl. split; [by left|done].
  - eapply register_Forall; [exact E| |done]. intros h c w1 w2 Hh Hc Ht. cbn in Hh. injection Hh as <-.
    apply owned_rel; [done|]. apply static_file_rel; [|done..]. apply Hpub. right.
    exists alive, g, path, file, fl. split; [by left|done].
  - eapply register_Forall; [exact E| |done]. intros h c w1 w2 Hh Hc Ht. apply ignores_rel; [by apply Hy|done..].
Qed.

(** ** HTTP, one thread *)

Section http.
Import HttpSystem.
Context {U : Type} (pub : bytes -> Prop) (f1 f : fs).
Implicit Types ro : router U.
Let R : world U -> world U -> Prop := twins pub f1 f.

Lemma pending_sent hit ro e w0 (s : hsys U) ls : sys_run hit ro e (sys_new w0) ls = Some s ->
  forall i c, sy_conns s !! i = Some c -> length (hn_in c) <= length (sent_by i ls).
Proof.
  revert s. induction ls as [|l ls IH] using rev_ind; intros s H i c Hi.
  { injection H as <-. done. }
  apply sys_run_snoc in H as (s1 & H1 & Hl). specialize (IH s1 H1). rewrite sent_by_snoc, app_length.
  destruct (decide (about l = i)) as [E|E].
  2: { rewrite (step_other _ _ _ _ _ _ _ Hl E) in Hi. specialize (IH i c Hi). lia. }
  assert (Hread : forall wr m c1, sy_conns s1 !! i = Some c1 -> bytes_of m = [] ->
    sy_conns (read_event hit ro e wr m i c1 s1) !! i = Some c -> length (hn_in c) <= length (sent_by i ls)).
  { intros wr m c1 Hc1 Hm Hx. pose proof (IH i c1 Hc1) as Hle. unfold read_event in Hx.
    destruct (handle_read _ _ _ _ _ _) as [v| | | | |] eqn:Ev; cbn [sy_conns] in Hx;
      [|rewrite Hc1 in Hx; injection Hx as <-; done..].
    rewrite lookup_insert in Hx. injection Hx as <-. cbn [hn_in]. apply handle_read_length in Ev. cbn [sm_items] in Ev.
    etransitivity; [exact Ev|]. replace (bytes_of (map Byte (hn_in c1) ++ m)) with (hn_in c1); [done|].
    clear -Hm. induction (hn_in c1) as [|x b IH]; cbn; [by rewrite Hm|]. by rewrite <- IH. }
  destruct l as [j|j bs|j|j lv wr|j wr|j wr]; cbn [sys_step about] in *; subst j.
  - case_decide; [|done]. injection Hl as <-. cbn in Hi. rewrite lookup_insert in Hi. injection Hi as <-. cbn. lia.
  - destruct (sy_conns s1 !! i) as [c1|] eqn:E1; [|done]. cbn [mbind option_bind] in Hl. destruct (_ && _); [|done].
    injection Hl as <-. cbn in Hi. rewrite lookup_insert in Hi. injection Hi as <-. cbn [hn_in].
    rewrite decide_True by done. rewrite app_length. specialize (IH i c1 E1). lia.
  - destruct (sy_conns s1 !! i) as [c1|] eqn:E1; [|done]. cbn [mbind option_bind] in Hl. destruct (hn_open c1); [|done].
    injection Hl as <-. cbn in Hi. rewrite lookup_insert in Hi. injection Hi as <-. cbn [hn_in].
    specialize (IH i c1 E1). lia.
  - destruct (sy_conns s1 !! i) as [c1|] eqn:E1; [|done]. cbn [mbind option_bind] in Hl. case_decide; [|done].
    destruct lv.
    + destruct (hn_fin c1); [|done]. injection Hl as <-. cbn in Hi. rewrite lookup_insert in Hi. injection Hi as <-.
      cbn [hn_in]. specialize (IH i c1 E1). lia.
    + injection Hl as <-. pose proof (Hread wr [] c1 eq_refl eq_refl Hi). lia.
  - destruct (sy_conns s1 !! i) as [c1|] eqn:E1; [|done]. cbn [mbind option_bind] in Hl. case_decide; [|done].
    cbv zeta in Hl. case_decide; [done|]. injection Hl as <-. pose proof (Hread wr [] c1 eq_refl eq_refl Hi). lia.
  - destruct (sy_conns s1 !! i) as [c1|] eqn:E1; [|done]. cbn [mbind option_bind] in Hl. case_decide; [|done].
    injection Hl as <-. pose proof (Hread wr [Gap] c1 eq_refl eq_refl Hi). lia.
Qed.

Definition sys_alike (s1 s2 : hsys U) : Prop :=
  sy_thr s1 = sy_thr s2 /\ sy_conns s1 = sy_conns s2 /\ R (sy_world s1) (sy_world s2).
Definition opt_alike {A} (Q : A -> A -> Prop) (o1 o2 : option A) : Prop :=
  match o1, o2 with Some a, Some b => Q a b | None, None => True | _, _ => False end.

Lemma parsed_fits buf rc r body : fits buf -> req_parse req_new buf = Ok (rc, r) ->
  path_fits (ctx_new (Req (rq_method r) (rq_version r) (rq_header r) (rq_route r) body) resp_new).
Proof.
  intros Hb Hq. apply req_parse_length in Hq. unfold path_fits, path_of, fits in *. cbn. lia.
Qed.

Lemma read_event_alike hit ro e wr m i c s1 s2 : Forall (Forall (rel_entry R path_fits)) (ro_heap ro) ->
  fits (hn_in c) -> bytes_of m = [] -> sys_alike s1 s2 ->
  sys_alike (read_event hit ro e wr m i c s1) (read_event hit ro e wr m i c s2).
Proof.
  intros HF Hc Hm (Et & Ec & Hr). unfold read_event.
  set (st := Stream (map Byte (hn_in c) ++ m) (if hn_fin c then Eof else Wait)).
  assert (Hrel : rel_out (rel_served R) (handle_read hit wr ro e (sy_world s1) st) (handle_read hit wr ro e (sy_world s2) st)).
  { apply (handle_read_rel R path_fits (twins_running pub f1 f)); [done| |done].
    intros len buf t rc r body Hu Hq. eapply parsed_fits; [|exact Hq].
    unfold read_until in Hu. change CRLFCRLF with (CR :: drop 1 CRLFCRLF) in Hu. cbv iota beta in Hu.
    apply until_loop_length in Hu.
    replace (bytes_of (sm_items st)) with (hn_in c) in Hu.
    2: { unfold st. cbn [sm_items]. clear -Hm. induction (hn_in c) as [|x b IH]; cbn; [by rewrite Hm|]. by rewrite <- IH. }
    unfold fits in *. cbn [length] in Hu. lia. }
  destruct (handle_read hit wr ro e (sy_world s1) st) as [v1| | | | |], (handle_read hit wr ro e (sy_world s2) st) as [v2| | | | |];
    cbn [rel_out] in Hrel; try done.
  destruct Hrel as (E1 & E2 & E3 & E4 & E5). split; [done|]. split; [|done]. cbn [sy_conns]. by rewrite E1, E2, E3, E4, Ec.
Qed.

Lemma sys_step_alike hit ro e s1 s2 l : Forall (Forall (rel_entry R path_fits)) (ro_heap ro) ->
  (forall i c, sy_conns s1 !! i = Some c -> fits (hn_in c)) -> sys_alike s1 s2 ->
  opt_alike sys_alike (sys_step hit ro e s1 l) (sys_step hit ro e s2 l).
Proof.
  intros HF Hfit Hs. pose proof Hs as (Et & Ec & Hr).
  assert (Hw : forall i c, sys_alike (with_conn s1 i c) (with_conn s2 i c)).
  { intros i c. split; [done|]. split; [|done]. cbn. by rewrite Ec. }
  destruct l as [j|j bs|j|j lv wr|j wr|j wr]; cbn [sys_step]; rewrite <- ?Et, <- ?Ec.
  - case_decide; [apply Hw|done].
  - destruct (sy_conns s1 !! j) as [c1|]; [|done]. cbn [mbind option_bind]. destruct (_ && _); [apply Hw|done].
  - destruct (sy_conns s1 !! j) as [c1|]; [|done]. cbn [mbind option_bind]. destruct (hn_open c1); [apply Hw|done].
  - destruct (sy_conns s1 !! j) as [c1|] eqn:E1; [|done]. cbn [mbind option_bind]. case_decide; [|done].
    destruct lv; [destruct (hn_fin c1); [apply Hw|done]|]. apply read_event_alike; [done|by eapply Hfit|done..].
  - destruct (sy_conns s1 !! j) as [c1|] eqn:E1; [|done]. cbn [mbind option_bind]. case_decide; [|done]. cbv zeta.
    pose proof (read_event_alike hit ro e wr [] j c1 s1 s2 HF (Hfit _ _ E1) eq_refl Hs) as Hx.
    pose proof Hx as [Hy _]. rewrite <- Hy. case_decide; [done|exact Hx].
  - destruct (sy_conns s1 !! j) as [c1|] eqn:E1; [|done]. cbn [mbind option_bind]. case_decide; [|done].
    apply read_event_alike; [done|by eapply Hfit|done..].
Qed.

Lemma sys_run_alike hit ro e w1 w2 ls : Forall (Forall (rel_entry R path_fits)) (ro_heap ro) ->
  R w1 w2 -> (forall i, fits (sent_by i ls)) ->
  opt_alike sys_alike (sys_run hit ro e (sys_new w1) ls) (sys_run hit ro e (sys_new w2) ls).
Proof.
  intros HF Hr. induction ls as [|l ls IH] using rev_ind; intros Hfit.
  { done. }
  assert (Hfit' : forall i, fits (sent_by i ls)).
  { intros i. specialize (Hfit i). rewrite sent_by_snoc in Hfit. by apply fits_app_l in Hfit. }
  specialize (IH Hfit'). rewrite !sys_run_app.
  destruct (sys_run hit ro e (sys_new w1) ls) as [s1|] eqn:E1, (sys_run hit ro e (sys_new w2) ls) as [s2|]; try done.
  cbn [mbind option_bind sys_run]. cbn [opt_alike] in IH.
  pose proof (sys_step_alike hit ro e s1 s2 l HF) as Hst.
  assert (Hb : forall i c, sy_conns s1 !! i = Some c -> fits (hn_in c)).
  { intros i c Hi. pose proof (pending_sent _ _ _ _ _ _ E1 i c Hi). specialize (Hfit' i). unfold fits in *. lia. }
  specialize (Hst Hb IH).
  destruct (sys_step hit ro e s1 l), (sys_step hit ro e s2 l); done.
Qed.
End http.

(** ** HTTPS *)

Section https.
Import HttpSystem HttpsSystem HttpsSystemProof.
Context {U : Type} (pub : bytes -> Prop) (f1 f : fs).
Implicit Types ro : router U.
Let R : world U -> world U -> Prop := twins pub f1 f.

Definition unread (c : tconn) : nat := tl_size (Tls (tn_buf c) (Rec <$> tn_wire c) Wait).
Lemma unread_more (c : tconn) m t : records_of m = [] -> tl_size (Tls (tn_buf c) ((Rec <$> tn_wire c) ++ m) t) = unread c.
Proof.
  intros Hm. unfold unread, tl_size. cbn [tl_buf tl_items]. f_equal.
  induction (tn_wire c) as [|b l IH].
  - induction m as [|[b|] m IHm]; [done|discriminate Hm|exact (IHm Hm)].
  - cbn [fmap list_fmap app sum_list sum_list_with]. f_equal. exact IH.
Qed.
Lemma unread_rest buf fin he est op out sent (t : tls) : tl_buf t = buf ->
  unread (TConn buf (records_of (tl_items t)) fin he est op out sent) = tl_size t.
Proof.
  intros <-. unfold unread, tl_size. cbn [tl_buf tl_items tn_buf tn_wire]. f_equal.
  induction (tl_items t) as [|[b|] l IH]; [done| |].
  - change (records_of (Rec b :: l)) with (b :: records_of l). cbn [fmap list_fmap sum_list sum_list_with]. f_equal. exact IH.
  - change (records_of (SGap :: l)) with (records_of l). cbn [fmap list_fmap sum_list sum_list_with]. exact IH.
Qed.

Lemma unread_sent hit ro e w0 (s : xsys U) ls : xrun hit ro e (xsys_new w0) ls = Some s ->
  forall i c, xs_conns s !! i = Some c -> unread c <= length (concat (recs_by i ls)).
Proof.
  revert s. induction ls as [|l ls IH] using rev_ind; intros s H i c Hi.
  { injection H as <-. done. }
  apply xrun_snoc in H as (s1 & H1 & Hl). specialize (IH s1 H1). rewrite recs_by_snoc, concat_app, app_length.
  destruct (decide (xabout l = i)) as [E|E].
  2: { rewrite (xstep_other _ _ _ _ _ _ _ Hl E) in Hi. specialize (IH i c Hi). lia. }
  assert (Hread : forall wr m c1, xs_conns s1 !! i = Some c1 -> records_of m = [] ->
    xs_conns (xread hit ro e wr m i c1 s1) !! i = Some c -> unread c <= length (concat (recs_by i ls))).
  { intros wr m c1 Hc1 Hm Hx. pose proof (IH i c1 Hc1) as Hle. unfold xread in Hx.
    destruct (handle_read_tls _ _ _ _ _ _) as [[v t]| | | | |] eqn:Ev; cbn [xs_conns] in Hx;
      [|rewrite Hc1 in Hx; injection Hx as <-; done..].
    rewrite lookup_insert in Hx. injection Hx as <-. rewrite unread_rest by done. apply handle_read_tls_length in Ev.
    rewrite unread_more in Ev by done. lia. }
  assert (Hput : forall t c1, xs_conns s1 !! i = Some c1 -> xs_conns (xwith s1 t i (tn_closed c1)) !! i = Some c ->
    unread c <= length (concat (recs_by i ls))).
  { intros t c1 Hc1 Hx. cbn in Hx. rewrite lookup_insert in Hx. injection Hx as <-. exact (IH i c1 Hc1). }
  apply xstep_cases in Hl.
  destruct l as [j|j g|j bs|j|j|j lv wr|j wr|j wr]; cbn [xabout] in *; subst j.
  - destruct Hl as (_ & _ & ->). cbn in Hi. rewrite lookup_insert in Hi. injection Hi as <-. cbn. lia.
  - destruct Hl as (c1 & Hc1 & _ & _ & _ & ->). cbn in Hi. rewrite lookup_insert in Hi. injection Hi as <-.
    pose proof (IH i c1 Hc1) as Hle. unfold unread in *. cbn [tn_buf tn_wire]. lia.
  - destruct Hl as (c1 & Hc1 & _ & _ & _ & ->). cbn in Hi. rewrite lookup_insert in Hi. injection Hi as <-.
    pose proof (IH i c1 Hc1) as Hle. rewrite decide_True by done. cbn [concat]. rewrite app_nil_r.
    unfold unread, tl_size in *. cbn [tn_buf tn_wire tl_buf tl_items] in *.
    assert (E : forall (a : list bytes), sum_list ((λ i, match i with Rec b => length b | SGap => 0 end) <$> (Rec <$> (a ++ [bs]))) =
      sum_list ((λ i, match i with Rec b => length b | SGap => 0 end) <$> (Rec <$> a)) + length bs).
    { intros a. induction a as [|x a IHa]; cbn [app fmap list_fmap sum_list sum_list_with]; [unfold id; lia|].
      cbn [app fmap list_fmap sum_list sum_list_with] in IHa. rewrite IHa. unfold id. lia. }
    rewrite E. lia.
  - destruct Hl as (c1 & Hc1 & _ & ->). cbn in Hi. rewrite lookup_insert in Hi. injection Hi as <-.
    pose proof (IH i c1 Hc1) as Hle. unfold unread in *. cbn [tn_buf tn_wire]. lia.
  - destruct Hl as (c1 & Hc1 & _ & [[_ ->]|[_ ->]]).
    + cbn in Hi. rewrite lookup_insert in Hi. injection Hi as <-.
      pose proof (IH i c1 Hc1) as Hle. unfold unread in *. cbn [tn_buf tn_wire]. lia.
    + pose proof (Hput _ c1 Hc1 Hi). lia.
  - destruct Hl as (c1 & Hc1 & _ & _ & _ & Hl). destruct lv.
    + destruct Hl as [_ ->]. pose proof (Hput _ c1 Hc1 Hi). lia.
    + subst s. pose proof (Hread wr [] c1 Hc1 eq_refl Hi). lia.
  - destruct Hl as (c1 & Hc1 & _ & -> & _). pose proof (Hread wr [] c1 Hc1 eq_refl Hi). lia.
  - destruct Hl as (c1 & Hc1 & [[_ ->]|[_ ->]]).
    + pose proof (Hput _ c1 Hc1 Hi). lia.
    + pose proof (Hread wr [SGap] c1 Hc1 eq_refl Hi). lia.
Qed.

Definition xsys_alike (s1 s2 : xsys U) : Prop :=
  xs_thr s1 = xs_thr s2 /\ xs_conns s1 = xs_conns s2 /\ R (xs_world s1) (xs_world s2).

Lemma xread_alike hit ro e wr m i c s1 s2 : Forall (Forall (rel_entry R path_fits)) (ro_heap ro) ->
  (N.of_nat (unread c) < 2 ^ 63)%N -> records_of m = [] -> xsys_alike s1 s2 ->
  xsys_alike (xread hit ro e wr m i c s1) (xread hit ro e wr m i c s2).
Proof.
  intros HF Hc Hm (Et & Ec & Hr). unfold xread.
  set (st := Tls (tn_buf c) ((Rec <$> tn_wire c) ++ m) (if tn_fin c then Eof else Wait)).
  assert (Hrel : rel_out (fun x y => rel_served R x.1 y.1 /\ x.2 = y.2)
    (handle_read_tls hit wr ro e (xs_world s1) st) (handle_read_tls hit wr ro e (xs_world s2) st)).
  { apply (handle_read_tls_rel R path_fits (twins_running pub f1 f)); [done| |done].
    intros len buf t rc r body Hu Hq. eapply parsed_fits; [|exact Hq].
    apply ssl_read_until_length in Hu. unfold st in Hu. rewrite unread_more in Hu by done.
    unfold fits. lia. }
  destruct (handle_read_tls hit wr ro e (xs_world s1) st) as [[v1 t1]| | | | |],
    (handle_read_tls hit wr ro e (xs_world s2) st) as [[v2 t2]| | | | |]; cbn [rel_out fst snd] in Hrel; try done.
  destruct Hrel as ((E1 & E2 & E3 & E4 & E5) & E6). split; [done|]. split; [|done]. cbn [xs_conns]. by rewrite E2, E3, E4, E6, Ec.
Qed.

Lemma xstep_alike hit ro e s1 s2 l : Forall (Forall (rel_entry R path_fits)) (ro_heap ro) ->
  (forall i c, xs_conns s1 !! i = Some c -> (N.of_nat (unread c) < 2 ^ 63)%N) -> xsys_alike s1 s2 ->
  opt_alike xsys_alike (xstep hit ro e s1 l) (xstep hit ro e s2 l).
Proof.
  intros HF Hfit Hs. pose proof Hs as (Et & Ec & Hr).
  assert (Hw : forall t i c, xsys_alike (xwith s1 t i c) (xwith s2 t i c)).
  { intros t i c. split; [done|]. split; [|done]. cbn. by rewrite Ec. }
  destruct l as [j|j g|j bs|j|j|j lv wr|j wr|j wr]; cbn [xstep]; rewrite <- ?Et, <- ?Ec;
    try (destruct (xs_conns s1 !! j) as [c1|] eqn:E1; [|done]; cbn [mbind option_bind]).
  - case_decide; [apply Hw|done].
  - case_decide; [apply Hw|done].
  - case_decide; [apply Hw|done].
  - destruct (tn_open c1); [apply Hw|done].
  - case_decide; [|done]. destruct (tn_hello c1) as [[]|]; [apply Hw..|]. destruct (tn_fin c1); [apply Hw|done].
  - case_decide; [|done].
    destruct lv; [destruct (tn_fin c1); [apply Hw|done]|]. apply xread_alike; [done|by eapply Hfit|done..].
  - case_decide; [|done]. cbv zeta.
    pose proof (xread_alike hit ro e wr [] j c1 s1 s2 HF (Hfit _ _ E1) eq_refl Hs) as Hx.
    pose proof Hx as [Hy _]. rewrite <- Hy. case_decide; [done|exact Hx].
  - case_decide; [apply Hw|]. case_decide; [|done].
    apply xread_alike; [done|by eapply Hfit|done..].
Qed.

Lemma xrun_alike hit ro e w1 w2 ls : Forall (Forall (rel_entry R path_fits)) (ro_heap ro) ->
  R w1 w2 -> (forall i, fits (concat (recs_by i ls))) ->
  opt_alike xsys_alike (xrun hit ro e (xsys_new w1) ls) (xrun hit ro e (xsys_new w2) ls).
Proof.
  intros HF Hr. induction ls as [|l ls IH] using rev_ind; intros Hfit.
  { done. }
  assert (Hfit' : forall i, fits (concat (recs_by i ls))).
  { intros i. specialize (Hfit i). rewrite recs_by_snoc, concat_app in Hfit. by apply fits_app_l in Hfit. }
  specialize (IH Hfit'). rewrite !xrun_app.
  destruct (xrun hit ro e (xsys_new w1) ls) as [s1|] eqn:E1, (xrun hit ro e (xsys_new w2) ls) as [s2|]; try done.
  cbn [mbind option_bind xrun]. cbn [opt_alike] in IH.
  pose proof (xstep_alike hit ro e s1 s2 l HF) as Hst.
  assert (Hb : forall i c, xs_conns s1 !! i = Some c -> (N.of_nat (unread c) < 2 ^ 63)%N).
  { intros i c Hi. pose proof (unread_sent _ _ _ _ _ _ E1 i c Hi). specialize (Hfit' i). unfold fits in *. lia. }
  specialize (Hst Hb IH).
  destruct (xstep hit ro e s1 l), (xstep hit ro e s2 l); done.
Qed.
End https.

(** ** HTTP, worker threads *)

Section threads.
Import HttpThreads HttpThreadsProof.
Context {U : Type} (pub : bytes -> Prop) (f1 f : fs).
Implicit Types ro : router U.
Let R : world U -> world U -> Prop := twins pub f1 f.

(** What a worker has read so far. *)
Definition rst_length (st : rst) : nat :=
  match st with RHead buf => length buf | RBody r _ _ | RRun r => length (rt_path (rq_route r)) | _ => 0 end.
Definition wst_length (x : wst) : nat := match x with WRead _ _ st => rst_length st | _ => 0 end.

Lemma got_byte_length st c st' : got_byte st c = Ok st' -> rst_length st' <= S (rst_length st).
Proof.
  destruct st as [buf|r n got|r| |]; cbn [got_byte]; intros H; try (injection H as <-; cbn; lia).
  - destruct (until_goes_on CRLFCRLF (buf ++ [c]) c) as [[]| | | | |]; cbn [mbind outcome_bind] in H; try done.
    + injection H as <-. cbn. rewrite app_length. cbn. lia.
    + unfold after_head in H. destruct (_ <=? 0)%Z; [injection H as <-; cbn; lia|].
      destruct (req_parse req_new (buf ++ [c])) as [[rc r]| | | | |] eqn:Eq; cbn [mbind outcome_bind] in H; try done.
      apply req_parse_length in Eq. rewrite app_length in Eq. cbn [length] in Eq.
      destruct (negb _); [injection H as <-; cbn; lia|]. destruct (0 <? _)%Z; injection H as <-; cbn [rst_length]; lia.
  - destruct (_ =? n); injection H as <-; cbn [rst_length with_body rq_route]; lia.
Qed.
Lemma got_none_length st : rst_length (got_none st) <= rst_length st.
Proof. destruct st as [buf|r n [|ch got]|r| |]; cbn [got_none rst_length with_body rq_route]; lia. Qed.

Definition all_short (n : nat) (s : tsys U) : Prop := Forall (fun x => wst_length x <= n) (ts_workers s).
Lemma all_short_put n s w x : all_short n s -> wst_length x <= n -> Forall (fun x => wst_length x <= n) (<[w := x]> (ts_workers s)).
Proof. intros H Hx. by apply Forall_insert. Qed.
Lemma recv_step_short n s w x r : all_short n s -> ts_workers s !! w = Some x -> all_short (S n) (recv_step s w x r).
Proof.
  intros H Hx. assert (H' : all_short (S n) s) by (eapply Forall_impl; [exact H|]; cbn; lia).
  pose proof (Forall_lookup_1 _ _ _ _ H Hx) as Hw. cbn beta in Hw.
  destruct x as [|fd|th fd st], r as [c|]; cbn [recv_step]; try done.
  - apply all_short_put; [done|cbn; lia].
  - apply all_short_put; [done|cbn; lia].
  - destruct (got_byte st c) as [st'| | | | |] eqn:E; try done. apply got_byte_length in E.
    apply all_short_put; [done|]. cbn [wst_length] in *. lia.
  - pose proof (got_none_length st). apply all_short_put; [done|]. cbn [wst_length] in *. lia.
Qed.
Lemma t_step_short mixed hit ro e n s l s' : all_short n s -> t_step mixed hit ro e s l = Some s' -> all_short (S n) s'.
Proof.
  intros H Hl. assert (H' : all_short (S n) s) by (eapply Forall_impl; [exact H|]; cbn; lia).
  unfold t_step in Hl. destruct (ts_down s); [done|].
  destruct l as [i fd ok|i bs|i|fd|fd|w|w|w i|w wr].
  - case_decide; [|done]. cbv zeta in Hl. destruct mixed, ok; injection Hl as <-; exact H'.
  - destruct (ts_conns s !! i); [|done]. cbn [mbind option_bind] in Hl. destruct (tn_fin _); [done|]. by injection Hl as <-.
  - destruct (ts_conns s !! i); [|done]. cbn [mbind option_bind] in Hl. by injection Hl as <-.
  - destruct (conn_of s fd) as [ic|]; [|done]. cbn [mbind option_bind] in Hl. destruct (_ && _); [|done]. by injection Hl as <-.
  - destruct (conn_of s fd) as [ic|]; [|done]. cbn [mbind option_bind] in Hl. destruct (_ && _); [|done]. by injection Hl as <-.
  - destruct (ts_workers s !! w) as [[]|]; try done. destruct (ts_queue s) as [|k q]; [done|]. cbv zeta in Hl.
    injection Hl as <-. destruct k as [fd []|fd]; (apply all_short_put; [exact H'|cbn; lia]).
  - destruct (ts_workers s !! w) as [x|] eqn:Ew; [|done]. cbn [mbind option_bind] in Hl.
    destruct (wst_fd x) as [fd|]; [|done]. cbn [mbind option_bind] in Hl. destruct (receiving x); [|done].
    destruct (conn_of s fd) as [[i c]|]; [|injection Hl as <-; by apply recv_step_short].
    destruct (tn_in c) as [|ch rest]; [destruct (tn_fin c); [|done]; injection Hl as <-; by apply recv_step_short|].
    cbv zeta in Hl. injection Hl as <-. apply recv_step_short; by destruct (takes x).
  - destruct (ts_workers s !! w) as [x|] eqn:Ew; [|done]. cbn [mbind option_bind] in Hl.
    destruct (wst_fd x) as [fd|]; [|done]. cbn [mbind option_bind] in Hl. destruct (_ && _); [|done].
    injection Hl as <-. by apply recv_step_short.
  - destruct (ts_workers s !! w) as [[|fd|th fd st]|] eqn:Ew; try done. destruct (finishing st); [|done].
    destruct (finish _ _ _ _ _ _) as [[[[wo texts] sent] cl]| | | | |]; try done; [|injection Hl as <-; exact H'..].
    cbv zeta in Hl. injection Hl as <-.
    assert (Hx : Forall (fun x => wst_length x <= S n) (<[w := after_read th fd]> (ts_workers s)))
      by (apply all_short_put; [exact H'|destruct th; cbn; lia]).
    destruct cl, (conn_of s fd) as [[i c]|]; exact Hx.
Qed.
Lemma t_run_short mixed hit ro e n0 w0 ls s : t_run mixed hit ro e (t_new n0 w0) ls = Some s -> all_short (length ls) s.
Proof.
  revert s. induction ls as [|l ls IH] using rev_ind; intros s H.
  - injection H as <-. apply Forall_replicate. cbn. lia.
  - apply t_run_snoc in H as (s1 & H1 & Hl). rewrite app_length, Nat.add_comm. eapply t_step_short; [by apply IH|exact Hl].
Qed.

Definition tsys_alike (s1 s2 : tsys U) : Prop :=
  R (ts_world s1) (ts_world s2) /\
  s2 = TSys (ts_world s2) (ts_fds s1) (ts_conns s1) (ts_queue s1) (ts_workers s1) (ts_down s1).

Lemma finish_alike hit wr ro e st w1 w2 : Forall (Forall (rel_entry R path_fits)) (ro_heap ro) ->
  (N.of_nat (rst_length st) < 2 ^ 63)%N -> R w1 w2 ->
  rel_out (fun x y => R x.1.1.1 y.1.1.1 /\ x.1.1.2 = y.1.1.2 /\ x.1.2 = y.1.2 /\ x.2 = y.2)
    (finish hit wr ro e st w1) (finish hit wr ro e st w2).
Proof.
  intros HF Hs Hr. destruct st as [buf|r n got|r| |]; cbn [finish]; try (by split).
  - pose proof (answer_rel R path_fits (twins_running pub f1 f) hit wr ro r e w1 w2 (Stream [] Eof) HF) as H.
    assert (Hp : path_fits (ctx_new r resp_new)) by (unfold path_fits, path_of, fits; cbn in *; lia).
    specialize (H Hp Hr).
    destruct (answer hit wr ro r e w1 _) as [v1| | | | |], (answer hit wr ro r e w2 _) as [v2| | | | |];
      cbn [rel_out mbind outcome_bind fst snd] in *; try done.
    destruct H as (E1 & E2 & E3 & E4 & E5). by split_and!.
  - destruct (resp_build hit _ []) as [[rc p] buf]. destruct (sock_write wr buf); done.
Qed.

Lemma t_step_alike mixed hit ro e n s1 s2 l : Forall (Forall (rel_entry R path_fits)) (ro_heap ro) ->
  all_short n s1 -> (N.of_nat n < 2 ^ 63)%N -> tsys_alike s1 s2 ->
  opt_alike tsys_alike (t_step mixed hit ro e s1 l) (t_step mixed hit ro e s2 l).
Proof.
  intros HF Hsh Hn [Hr E]. destruct s1 as [w1 fds cs q ws dn], s2 as [w2 fds2 cs2 q2 ws2 dn2]. cbn [ts_world ts_fds ts_conns ts_queue ts_workers ts_down] in *.
  injection E as -> -> -> -> ->. unfold all_short in Hsh. cbn [ts_workers] in Hsh.
  assert (Hrecv : forall cs w x r, tsys_alike (recv_step (TSys w1 fds cs q ws dn) w x r) (recv_step (TSys w2 fds cs q ws dn) w x r)).
  { intros cs' w x r. destruct x as [|fd|th fd st], r as [ch|]; cbn [recv_step]; try (by split).
    destruct (got_byte st ch); by split. }
  unfold t_step, conn_of. cbn [ts_world ts_fds ts_conns ts_queue ts_workers ts_down]. destruct dn; [done|].
  destruct l as [i fd ok|i bs|i|fd|fd|w|w|w i|w wr].
  - case_decide; [|done]. destruct mixed, ok; by split.
  - destruct (cs !! i); [|done]. cbn [mbind option_bind]. destruct (tn_fin _); [done|by split].
  - destruct (cs !! i); [|done]. by split.
  - destruct (fds !! fd) as [i|]; [|done]. cbn [mbind option_bind]. destruct (cs !! i); [|done]. cbn [mbind option_bind snd].
    destruct (_ && _); by split.
  - destruct (fds !! fd) as [i|]; [|done]. cbn [mbind option_bind]. destruct (cs !! i); [|done]. cbn [mbind option_bind snd].
    destruct (_ && _); by split.
  - destruct (ws !! w) as [[]|]; try done. destruct q as [|[fd []|fd] q]; by split.
  - destruct (ws !! w) as [x|]; [|done]. cbn [mbind option_bind].
    destruct (wst_fd x) as [fd|]; [|done]. cbn [mbind option_bind]. destruct (receiving x); [|done].
    destruct (fds !! fd) as [i|]; [|apply Hrecv]. cbn [mbind option_bind]. destruct (cs !! i) as [c|]; [|apply Hrecv]. cbn [mbind option_bind].
    destruct (tn_in c) as [|ch rest]; [destruct (tn_fin c); [apply Hrecv|done]|].
    cbv zeta. destruct (takes x); apply Hrecv.
  - destruct (ws !! w) as [x|]; [|done]. cbn [mbind option_bind].
    destruct (wst_fd x) as [fd|]; [|done]. cbn [mbind option_bind]. destruct (_ && _); [apply Hrecv|done].
  - destruct (ws !! w) as [[|fd|th fd st]|] eqn:Ew; try done. destruct (finishing st); [|done].
    pose proof (Forall_lookup_1 _ _ _ _ Hsh Ew) as Hlen. cbn [wst_length] in Hlen.
    set (wr' := match fds !! fd with Some _ => wr | None => WFail end).
    pose proof (finish_alike hit wr' ro e st w1 w2 HF) as H.
    assert (Hl : (N.of_nat (rst_length st) < 2 ^ 63)%N) by lia. specialize (H Hl Hr).
    destruct (finish hit wr' ro e st w1) as [[[[wo texts] sent] cl]| | | | |],
      (finish hit wr' ro e st w2) as [[[[wo2 texts2] sent2] cl2]| | | | |]; cbn [rel_out fst snd] in H; try done.
    destruct H as (H & -> & -> & ->). cbv zeta.
    destruct cl2, (fds !! fd) as [i|]; cbn [mbind option_bind]; try (by split); destruct (cs !! i) as [c|]; by split.
Qed.

Lemma t_run_alike mixed hit ro e n0 w1 w2 ls : Forall (Forall (rel_entry R path_fits)) (ro_heap ro) ->
  R w1 w2 -> (N.of_nat (length ls) < 2 ^ 63)%N ->
  opt_alike tsys_alike (t_run mixed hit ro e (t_new n0 w1) ls) (t_run mixed hit ro e (t_new n0 w2) ls).
Proof.
  intros HF Hr. induction ls as [|l ls IH] using rev_ind; intros Hfit.
  { by split. }
  rewrite app_length in Hfit. cbn [length] in Hfit.
  assert (Hfit' : (N.of_nat (length ls) < 2 ^ 63)%N) by lia. specialize (IH Hfit'). rewrite !t_run_app.
  destruct (t_run mixed hit ro e (t_new n0 w1) ls) as [s1|] eqn:E1, (t_run mixed hit ro e (t_new n0 w2) ls) as [s2|]; try done.
  cbn [mbind option_bind t_run]. cbn [opt_alike] in IH.
  pose proof (t_step_alike mixed hit ro e (length ls) s1 s2 l HF (t_run_short _ _ _ _ _ _ _ _ E1) Hfit' IH) as Hst.
  destruct (t_step mixed hit ro e s1 l), (t_step mixed hit ro e s2 l); done.
Qed.
End threads.

(** ** The theorems *)

(** What the peers have, where the thread is, and whether the process is there. *)
Definition seen {U} (s : HttpSystem.hsys U) := (HttpSystem.sy_thr s, HttpSystem.sy_conns s).
Definition seen_tls {U} (s : HttpsSystem.xsys U) := (HttpsSystem.xs_thr s, HttpsSystem.xs_conns s).
Definition seen_threads {U} (s : HttpThreads.tsys U) :=
  (HttpThreads.ts_fds s, HttpThreads.ts_conns s, HttpThreads.ts_queue s, HttpThreads.ts_workers s, HttpThreads.ts_down s).

(** Other files in place of those that are not published make no difference that
    anybody sees, in any run; and no file is changed. *)
Definition files_private (U : Type) : Prop := forall hit e (xs : list (setup U)) ro w f,
  Forall proper xs -> do_setups xs router_new = Ok ro ->
  (forall x, published xs x -> f x = w_fs w x) ->
  (forall ls, (forall i, fits (sent_by i ls)) ->
     seen <$> HttpSystem.sys_run hit ro e (HttpSystem.sys_new (with_fs w f)) ls =
       seen <$> HttpSystem.sys_run hit ro e (HttpSystem.sys_new w) ls /\
     forall s, HttpSystem.sys_run hit ro e (HttpSystem.sys_new w) ls = Some s ->
       w_fs (HttpSystem.sy_world s) = w_fs w) /\
  (forall ls, (forall i, fits (concat (HttpsSystemProof.recs_by i ls))) ->
     seen_tls <$> HttpsSystem.xrun hit ro e (HttpsSystem.xsys_new (with_fs w f)) ls =
       seen_tls <$> HttpsSystem.xrun hit ro e (HttpsSystem.xsys_new w) ls /\
     forall s, HttpsSystem.xrun hit ro e (HttpsSystem.xsys_new w) ls = Some s ->
       w_fs (HttpsSystem.xs_world s) = w_fs w) /\
  (forall mixed n ls, (N.of_nat (length ls) < 2 ^ 63)%N ->
     seen_threads <$> HttpThreads.t_run mixed hit ro e (HttpThreads.t_new n (with_fs w f)) ls =
       seen_threads <$> HttpThreads.t_run mixed hit ro e (HttpThreads.t_new n w) ls /\
     forall s, HttpThreads.t_run mixed hit ro e (HttpThreads.t_new n w) ls = Some s ->
       w_fs (HttpThreads.ts_world s) = w_fs w).

Theorem unpublished_files_stay_private : forall U, files_private U.
Proof.
  intros U hit e xs ro w f Hp Hro Hag.
  assert (HF : Forall (Forall (rel_entry (twins (published xs) (w_fs w) f) path_fits)) (ro_heap ro)).
  { eapply (setups_rel xs); [exact Hp|done| |exact Hro]. constructor. }
  assert (HR : twins (published xs) (w_fs w) f w (with_fs w f)) by (by repeat split).
  split; [|split].
  - intros ls Hf. pose proof (sys_run_alike _ _ _ hit ro e _ _ ls HF HR Hf) as H.
    destruct (HttpSystem.sys_run hit ro e (HttpSystem.sys_new w) ls) as [s1|],
      (HttpSystem.sys_run hit ro e (HttpSystem.sys_new (with_fs w f)) ls) as [s2|]; cbn [opt_alike] in H; try done.
    destruct H as (E1 & E2 & _ & E3). split; [|by intros s [= <-]]. cbn. unfold seen. by rewrite E1, E2.
  - intros ls Hf. pose proof (xrun_alike _ _ _ hit ro e _ _ ls HF HR Hf) as H.
    destruct (HttpsSystem.xrun hit ro e (HttpsSystem.xsys_new w) ls) as [s1|],
      (HttpsSystem.xrun hit ro e (HttpsSystem.xsys_new (with_fs w f)) ls) as [s2|]; cbn [opt_alike] in H; try done.
    destruct H as (E1 & E2 & _ & E3). split; [|by intros s [= <-]]. cbn. unfold seen_tls. by rewrite E1, E2.
  - intros mixed n ls Hf. pose proof (t_run_alike _ _ _ mixed hit ro e n _ _ ls HF HR Hf) as H.
    destruct (HttpThreads.t_run mixed hit ro e (HttpThreads.t_new n w) ls) as [s1|],
      (HttpThreads.t_run mixed hit ro e (HttpThreads.t_new n (with_fs w f)) ls) as [s2|]; cbn [opt_alike] in H; try done.
    destruct H as ((_ & E3) & E). split; [|by intros s [= <-]]. cbn. unfold seen_threads. by rewrite E.
Qed.
Print Assumptions unpublished_files_stay_private.

(** ** Examples *)

Definition count_visits : handler nat := fun c w =>
  Ok (ctx_set_resp c (Resp sOK v1_1 ∅ (B "hello")),
      World (w_running w) (w_fs w) (w_opened w) (w_custom w) (S (w_user w))).
Definition site : list (setup nat) :=
  [SDir (fun _ => true) [] (B "/s") (B "/srv") []; SOwn [] (B "/hello") (Entry (Some count_visits) true [])].
Definition site_ro : router nat := match do_setups site router_new with Ok ro => ro | _ => router_new end.
Definition files (secret : bytes) : fs := fun x =>
  if bool_decide (x = B "/srv//a") then Reg true true true (B "index")
  else if bool_decide (x = B "/etc/pw") then Reg true true true secret else Absent true.
Definition site_world (secret : bytes) : world nat := World true (files secret) [] ∅ 0.

Lemma site_proper : Forall proper site.
Proof.
  unfold site. constructor; [|constructor; [|constructor]]; cbn [proper e_callback].
  - by_compute.
  - intros h [= <-]. split; [done|]. intros c w c' w' H. by injection H as <- _.
Qed.
Lemma site_built : do_setups site router_new = Ok site_ro.
Proof. by vm_compute. Qed.
Lemma site_published x : published site x -> files (B "other") x = files (B "secret") x.
Proof.
  intros [(al & g & pa & d & fl & Hi & t & -> & _)|(al & g & pa & fi & fl & Hi & _)]; unfold site in Hi;
    rewrite !elem_of_cons, elem_of_nil in Hi; destruct Hi as [E|[E|[]]]; try done.
  injection E as _ _ _ -> _. unfold files. cbn [B app list_ascii_of_string]. case_bool_decide; [done|]. by rewrite bool_decide_false.
Qed.

(** Two peers ask for a file of the directory and, in three ways, for the other one. *)
Definition ask (path : string) : bytes := B "GET " ++ B path ++ B " HTTP/1.1" ++ CRLFCRLF.
Definition asking : list HttpSystem.hlab :=
  [HttpSystem.LOpen 0; HttpSystem.LOpen 1;
   HttpSystem.LSend 0 (ask "/s/a"); HttpSystem.LSend 1 (ask "/s/../etc/pw");
   HttpSystem.LServe 1 false (WTake 999); HttpSystem.LServe 0 false (WTake 999);
   HttpSystem.LSend 1 (ask "/s//etc/pw" ++ ask "/s" ++ ask "/hello");
   HttpSystem.LServe 1 false (WTake 999); HttpSystem.LServe 1 false (WTake 999); HttpSystem.LServe 1 false (WTake 999)].
Definition heads (s : HttpSystem.hsys nat) : list (list bytes) :=
  (fun ic => take 12 <$> HttpSystem.hn_out ic.2) <$> map_to_list (HttpSystem.sy_conns s).

Example private_ex :
  seen <$> HttpSystem.sys_run map_to_list site_ro [] (HttpSystem.sys_new (site_world (B "other"))) asking =
    seen <$> HttpSystem.sys_run map_to_list site_ro [] (HttpSystem.sys_new (site_world (B "secret"))) asking /\
  heads <$> HttpSystem.sys_run map_to_list site_ro [] (HttpSystem.sys_new (site_world (B "secret"))) asking =
    Some [[B "HTTP/1.1 200"]; [B "HTTP/1.1 404"; B "HTTP/1.1 404"; B "HTTP/1.1 404"; B "HTTP/1.1 200"]].
Proof.
  split.
  - refine (proj1 (proj1 (unpublished_files_stay_private nat map_to_list [] site site_ro (site_world (B "secret"))
      (files (B "other")) site_proper site_built site_published) asking _)).
    intros [|[|i]]; by vm_compute.
  - by vm_compute.
Qed.
