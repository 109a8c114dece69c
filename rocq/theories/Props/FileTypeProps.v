(** C214: the type files are sent with (http_server.cpp: HttpGroup::StaticDir,
    HttpGroup::StaticFile; http_header.cpp: HttpHeader::ConvertFileType, ConvertToStr). *)
From Verif.Spec Require Import FileSpec.
From Verif.Proof Require Import RouterProof FileProof StrangerProof.
From Verif.Props Require Import RouterProps StaticProps TypeTableProps.

(** ** Statements *)

(** The types of the well-known suffixes. *)
Definition known_types : list (bytes * bytes) :=
  map (fun p => (B p.1, B p.2))
    [("html", "text/html"); ("htm", "text/html"); ("txt", "text/plain"); ("css", "text/css"); ("less", "text/css");
     ("js", "text/javascript"); ("mjs", "text/javascript"); ("json", "application/json"); ("png", "image/png");
     ("jpg", "image/jpeg"); ("jpeg", "image/jpeg"); ("gif", "image/gif"); ("webp", "image/webp")]%string.
(** [x] is the suffix of the file name [name]. *)
Definition suffix_of (name x : bytes) : Prop := exists c, last_component name c /\ extension c x.
(** Files with suffix [x] are of type [ty], where [T] are the registered types and
    [other x v] is what is sent for a suffix [x] registered with type [v]. *)
Inductive type_of (T : smap) (other : bytes -> bytes) (x : bytes) : bytes -> Prop :=
| ty_known ty : (x, ty) ∈ known_types -> type_of T other x ty
| ty_registered v : x ∉ known_types.*1 -> T !! x = Some v -> type_of T other x (other v)
| ty_none : x ∉ known_types.*1 -> T !! x = None -> type_of T other x (B "application/octet-stream").

(** Requests one after the other. *)
Inductive requests_served {U} (ro : router U) : world U -> world U -> Prop :=
| rsv_none w : requests_served ro w w
| rsv_one w w1 w2 p c c' : requests_served ro w w1 -> dispatch ro p c w1 = Ok (c', w2) -> requests_served ro w w2.

(** The type of [file] when it is sent by StaticFile. *)
Definition sends_type {U} (file : bytes) (w : world U) (ty : bytes) : Prop := forall c,
  exists c' w', static_file_handler file c w = Ok (c', w') /\ rs_header (cx_resp c') !! B "Content-Type" = Some ty.
Definition readable {U} (w : world U) (file : bytes) : Prop := exists wr o d, w_fs w (cstr file) = Reg true wr o d.

(** Which files were sent before does not matter. *)
Definition types_stay_full : Prop := forall U (alive : U -> bool) (ro : router U) w w' file ty,
  serves_files alive True ro -> requests_served ro w w' -> fits file -> readable w file -> readable w' file ->
  sends_type file w ty -> sends_type file w' ty.
(** What was registered last for a suffix is used. *)
Definition registered_used_full : Prop := forall U (w : world U) file x v, 
  fits file -> readable w file -> suffix_of file x -> sends_type file (set_custom w (set_custom_content_type (w_custom w) x v)) v.

(** ** Proofs *)

Lemma suffix_det name x y : suffix_of name x -> suffix_of name y -> x = y.
Proof.
  assert (Hsplit : forall c (a b a' b' : bytes), c ∉ b -> c ∉ b' -> a ++ c :: b = a' ++ c :: b' -> b = b').
  { intros c a. induction a as [|z a IH]; intros b [|z' a'] b' H H' E; cbn [app] in E.
    - by injection E.
    - injection E as -> E. rewrite E in H. destruct H. apply elem_of_app. right. by left.
    - injection E as -> E. rewrite <- E in H'. destruct H'. apply elem_of_app. right. by left.
    - injection E as _ E. by eapply IH. }
  intros (c & [Hc Hp] & Hx) (d & [Hd Hq] & Hy).
  assert (c = d) as <-.
  { destruct Hp as [->|[a ->]], Hq as [Hq|[b Hq]].
    - done.
    - subst c. destruct Hc. apply elem_of_app. right. by left.
    - subst d. destruct Hd. apply elem_of_app. right. by left.
    - by eapply Hsplit. }
  destruct Hx as [(a & -> & Hx)|[Hx ->]], Hy as [(b & Hy & Hb)|[Hy ->]].
  - by eapply Hsplit.
  - destruct Hy. apply elem_of_app. right. by left.
  - subst c. destruct Hx. apply elem_of_app. right. by left.
  - done.
Qed.
Lemma suffix_ok p : fits p -> exists x, suffix_of p x /\ file_suffix p = Ok x.
Proof. intros H. destruct (file_suffix_ok p H) as (c & x & H1 & H2 & H3). exists x. split; [by exists c|done]. Qed.

Lemma convert_known T ft x ty : (x, ty) ∈ known_types -> convert_to_str T (convert_file_type T x) ft = (ty, T).
Proof.
  unfold known_types. cbn [map]. intros H. repeat (apply elem_of_cons in H as [[= -> ->]|H]; [by vm_compute|]). by apply elem_of_nil in H.
Qed.
Lemma convert_other T x : x ∉ known_types.*1 ->
  convert_file_type T x = match T !! x with Some _ => kCustom | None => kApplicationOctetStream end.
Proof.
  intros Hb. change (known_types.*1) with builtin_suffixes in Hb. unfold convert_file_type, builtin_suffixes in *. cbn [map] in Hb.
  repeat (apply not_elem_of_cons in Hb as [? Hb]). unfold streq. by rewrite !bool_decide_eq_false_2 by done.
Qed.
Lemma known_or_not x : (exists ty, (x, ty) ∈ known_types) \/ x ∉ known_types.*1.
Proof.
  destruct (decide (x ∈ known_types.*1)) as [H|]; [|by right]. left. apply elem_of_list_fmap in H as ([y ty] & -> & H). by exists ty.
Qed.
Lemma type_det T other x a b : type_of T other x a -> type_of T other x b -> a = b.
Proof.
  assert (Hk : forall ty, (x, ty) ∈ known_types -> x ∈ known_types.*1) by (intros ty H; apply elem_of_list_fmap; by exists (x, ty)).
  intros [ty1 H1|v1 H1 E1|H1 E1] [ty2 H2|v2 H2 E2|H2 E2]; try (by destruct (Hk _ H1)); try (by destruct (Hk _ H2)); try congruence; try naive_solver.
  pose proof (convert_known ∅ [] _ _ H1) as E1. rewrite (convert_known ∅ [] _ _ H2) in E1. by injection E1.
Qed.

(** The table: as it was, or with an empty type for the empty suffix. *)
Definition grown (T T' : smap) : Prop := T' = T \/ (T !! [] = None /\ T' = <[ [] := [] ]> T).
Lemma grown_lookup T T' x : grown T T' -> x <> [] -> T' !! x = T !! x.
Proof. intros [->|[_ ->]] H; [done|by rewrite lookup_insert_ne]. Qed.
Lemma grown_empty T T' : grown T T' -> default [] (T' !! []) = default [] (T !! []).
Proof. intros [->|[E ->]]; [done|by rewrite E, lookup_insert]. Qed.
Lemma grown_dir T T' ft : grown T T' -> grown T (snd (convert_to_str T' (convert_file_type T' ft) [])).
Proof.
  intros HT. destruct (known_or_not ft) as [[ty Hk]|Hk]; [by rewrite (convert_known _ _ _ _ Hk)|].
  rewrite (convert_other _ _ Hk). destruct (T' !! ft); [|done]. cbn [convert_to_str].
  destruct (T' !! []) eqn:E; [done|]. cbn [snd]. destruct HT as [->|[HE ->]]; [by right|by rewrite lookup_insert in E].
Qed.

Section table.
Context {U : Type} (T : smap) (alive : U -> bool).
Local Notation ok := (fun w : world U => grown T (w_custom w)).
Lemma dir_grown m dir c (w : world U) : ok w -> kept ok (static_dir_handler m dir c w).
Proof.
  intros Hc. unfold static_dir_handler, kept. destruct (_ =? npos)%N; [done|].
  match goal with |- context [substr_from ?x ?y] => pose proof (substr_returns x y) as Hb; destruct (substr_from x y) as [z| | | | |] end;
    cbn [mbind outcome_bind]; try done. destruct (negb _); [done|].
  unfold file_exist, file_read. destruct (w_fs w _) as [| |[] ? ? d|] eqn:E; cbn [mbind outcome_bind negb fst snd]; try done.
  change (negb (kSuccess =? kSuccess)%Z) with false. cbv iota.
  match goal with |- context [file_suffix ?x] => pose proof (suffix_returns x) as Hx; destruct (file_suffix x) as [x'| | | | |] end; cbn [mbind outcome_bind]; try done.
  unfold resp_success, header_set_content_type. cbn [opened w_custom].
  pose proof (grown_dir T _ x' Hc) as Hl. destruct (convert_to_str (w_custom w) (convert_file_type (w_custom w) x') []) as [s T']. exact Hl.
Qed.
Lemma file_grown file c (w : world U) : ok w -> kept ok (static_file_handler file c w).
Proof.
  intros Hc. pose proof (file_same (w_custom w) file c w eq_refl) as H. unfold kept in *.
  destruct (static_file_handler file c w) as [[c' w']| | | | |]; try done. by rewrite H.
Qed.
Lemma router_grown dirs ro : serves_files alive dirs ro -> forall p c w, ok w -> kept ok (dispatch ro p c w).
Proof.
  intros H. apply dispatch_keeps. induction H as [|ro g path dir fl rc ro' H IH Hd E|ro g path file fl rc ro' H IH E|ro g path x rc ro' H IH Hx E].
  - constructor.
  - apply (register_all_of _ _ _ _ _ _ E); [|done]. intros h [= <-] c w Hw. unfold owned. destruct (alive _); [|done]. by apply dir_grown.
  - apply (register_all_of _ _ _ _ _ _ E); [|done]. intros h [= <-] c w Hw. unfold owned. destruct (alive _); [|done]. by apply file_grown.
  - apply (register_all_of _ _ _ _ _ _ E); [|done]. intros h Hh c w Hw. specialize (Hx h Hh c w). unfold kept.
    destruct (h c w) as [[c' w']| | | | |]; try done. by rewrite Hx.
Qed.
Lemma served_grown dirs ro w w' : serves_files alive dirs ro -> requests_served ro w w' -> ok w -> ok w'.
Proof.
  intros H Hr. induction Hr as [w|w w1 w2 p c c' Hr IH Hd]; [done|]. intros Hw.
  pose proof (router_grown dirs ro H p c w1 (IH Hw)) as Hk. by rewrite Hd in Hk.
Qed.
End table.

(** ** Theorems *)

(** The type StaticFile sends, for every file and every table. *)
Theorem file_type_exact : forall U (w : world U) file ty, fits file -> readable w file ->
  sends_type file w ty <-> exists x, suffix_of file x /\ type_of (w_custom w) id x ty.
Proof.
  intros U w file ty Hf (wr & o & d & Hfs). destruct (suffix_ok file Hf) as (x & Hx & Hs).
  assert (Hmain : exists ty0, type_of (w_custom w) id x ty0 /\ forall c, exists c' w', static_file_handler file c w = Ok (c', w') /\
    rs_header (cx_resp c') !! B "Content-Type" = Some ty0).
  { exists (convert_to_str (w_custom w) (convert_file_type (w_custom w) x) x).1. split.
    - destruct (known_or_not x) as [[ty1 Hk]|Hk]; [rewrite (convert_known _ _ _ _ Hk); by constructor|].
      rewrite (convert_other _ _ Hk). destruct (w_custom w !! x) as [v|] eqn:E; cbn [convert_to_str]; [rewrite E; by apply (ty_registered _ id _ v)|by apply ty_none].
    - intros c. unfold static_file_handler, file_exist, file_read. rewrite Hfs. cbn [mbind outcome_bind negb fst snd].
      change (negb (kSuccess =? kSuccess)%Z) with false. cbv iota. rewrite Hs. cbn [mbind outcome_bind opened w_custom].
      destruct (convert_to_str (w_custom w) (convert_file_type (w_custom w) x) x) as [s T'] eqn:E.
      do 2 eexists. split; [done|]. cbn [cx_resp ctx_set_resp resp_success0 rs_header]. unfold header_set_content_type_str. by rewrite lookup_insert. }
  destruct Hmain as (ty0 & Ht & Hh). split.
  - intros Hsend. exists x. split; [done|]. destruct (Hh (ctx_new (Req mGET v1_1 ∅ (Route [] ∅) []) resp_new)) as (c1 & w1 & E1 & H1).
    destruct (Hsend (ctx_new (Req mGET v1_1 ∅ (Route [] ∅) []) resp_new)) as (c2 & w2 & E2 & H2). rewrite E1 in E2. injection E2 as <- <-. rewrite H1 in H2.
    apply (inj Some) in H2. by subst ty0.
  - intros (y & Hy & Hty). rewrite (suffix_det _ _ _ Hy Hx) in Hty. rewrite (type_det _ _ _ _ _ Hty Ht). exact Hh.
Qed.

(** The type StaticDir sends: for a registered suffix, it is what is registered for the
    empty one, or nothing. *)
Theorem dir_type_exact : forall U (w : world U) dir m rest c x wr o d,
  fits (path_of c) -> fits (dir ++ B "/" ++ rest) -> path_of c = m ++ rest -> ~ contains (B "..") rest ->
  w_fs w (cstr (dir ++ B "/" ++ rest)) = Reg true wr o d -> suffix_of (dir ++ B "/" ++ rest) x ->
  exists c' w' ty, static_dir_handler m dir c w = Ok (c', w') /\ rs_header (cx_resp c') !! B "Content-Type" = Some ty /\
    type_of (w_custom w) (fun _ => default [] (w_custom w !! [])) x ty.
Proof.
  intros U w dir m rest c x wr o d Hf Hff Hp Hnd Hfs Hx. destruct (suffix_ok _ Hff) as (x' & Hx' & Hs).
  rewrite <- (suffix_det _ _ _ Hx Hx') in Hs. clear x' Hx'.
  destruct (static_dir_found [] m rest c Hf Hp) as (E1 & E2 & E3); [intros j Hj; cbn in Hj; lia|done|].
  unfold path_of in *. unfold static_dir_handler. rewrite E1, E2. cbn [mbind outcome_bind].
  rewrite E3. cbn [negb]. unfold file_exist, file_read. rewrite Hfs. cbn [mbind outcome_bind negb fst snd].
  change (negb (kSuccess =? kSuccess)%Z) with false. cbv iota.
  cbn [app] in Hs |- *. rewrite Hs. cbn [mbind outcome_bind opened w_custom]. unfold resp_success, header_set_content_type.
  destruct (convert_to_str (w_custom w) (convert_file_type (w_custom w) x) []) as [s T'] eqn:E.
  do 3 eexists. split; [done|]. cbn [cx_resp ctx_set_resp rs_header]. rewrite lookup_insert. split; [done|].
  destruct (known_or_not x) as [[ty1 Hk]|Hk]; [rewrite (convert_known _ _ _ _ Hk) in E; injection E as <- _; by constructor|].
  rewrite (convert_other _ _ Hk) in E. destruct (w_custom w !! x) as [v|] eqn:Ev; cbn [convert_to_str] in E.
  - replace s with (default [] (w_custom w !! [])); [by apply (ty_registered _ (fun _ => default [] (w_custom w !! [])) _ v)|].
    destruct (w_custom w !! []); by injection E as <- _.
  - injection E as <- _. by apply ty_none.
Qed.

(** Missing: files without a suffix.  Whatever was asked for before, files with a suffix
    are sent with the same type. *)
Theorem types_stay_partial : forall U (alive : U -> bool) (ro : router U) w w' file ty x,
  serves_files alive True ro -> requests_served ro w w' -> fits file -> readable w file -> readable w' file ->
  suffix_of file x -> x <> [] -> sends_type file w ty <-> sends_type file w' ty.
Proof.
  intros U alive ro w w' file ty x Hro Hr Hf H1 H2 Hx Hne.
  pose proof (served_grown (w_custom w) alive True ro w w' Hro Hr (or_introl eq_refl)) as HG.
  rewrite (file_type_exact _ w file ty Hf H1), (file_type_exact _ w' file ty Hf H2).
  assert (Hiff : forall T T', T !! x = T' !! x -> type_of T id x ty -> type_of T' id x ty).
  { intros T T' E Ht. inversion Ht as [a Ha|v Ha Ev Eq|Ha Ev Eq]; [by constructor| |apply ty_none; congruence]. rewrite <- Eq. apply (ty_registered T' id x v); congruence. }
  pose proof (grown_lookup _ _ x HG Hne) as E.
  split; intros (y & Hy & Ht); rewrite (suffix_det _ _ _ Hy Hx) in Ht; exists x; (split; [done|]); by eapply Hiff.
Qed.
(** What changes: once a file of a registered suffix has been sent from a directory, files
    without a suffix have an empty type. *)
Theorem no_suffix_changes : forall U (w : world U) dir m rest c x v wr o d file,
  fits (path_of c) -> fits (dir ++ B "/" ++ rest) -> path_of c = m ++ rest -> ~ contains (B "..") rest ->
  w_fs w (cstr (dir ++ B "/" ++ rest)) = Reg true wr o d -> suffix_of (dir ++ B "/" ++ rest) x ->
  x ∉ known_types.*1 -> w_custom w !! x = Some v -> w_custom w !! [] = None ->
  fits file -> readable w file -> suffix_of file [] ->
  sends_type file w (B "application/octet-stream") /\
  exists c' w', static_dir_handler m dir c w = Ok (c', w') /\ sends_type file w' [].
Proof.
  intros U w dir m rest c x v wr o d file Hf Hff Hp Hnd Hfs Hx Hk Hv Hn Hfile Hr Hsf. split.
  { apply file_type_exact; [done..|]. exists []. split; [done|]. apply ty_none; [by_compute|done]. }
  destruct (suffix_ok _ Hff) as (x' & Hx' & Hs). rewrite <- (suffix_det _ _ _ Hx Hx') in Hs. clear x' Hx'.
  destruct (custom_types_dir_wrong dir m rest c w x v wr o d Hf Hff Hp Hnd Hfs Hs Hv Hk Hn) as (c' & w' & E & _ & Hc).
  exists c', w'. split; [done|].
  assert (Hfs' : w_fs w' = w_fs w).
  { destruct (static_dir_found [] m rest c Hf Hp) as (E1 & E2 & E3); [intros j Hj; cbn in Hj; lia|done|].
    unfold path_of in *. unfold static_dir_handler in E. rewrite E1, E2 in E. cbn [mbind outcome_bind] in E.
    rewrite E3 in E. cbn [negb] in E. unfold file_exist, file_read in E. rewrite Hfs in E. cbn [mbind outcome_bind negb fst snd] in E.
    change (negb (kSuccess =? kSuccess)%Z) with false in E. cbv iota in E.
    cbn [app] in Hs, E. rewrite Hs in E. cbn [mbind outcome_bind opened w_custom] in E. unfold resp_success, header_set_content_type in E.
    destruct (convert_to_str (w_custom w) (convert_file_type (w_custom w) x) []) as [s T']. by injection E as _ <-. }
  destruct Hr as (wr1 & o1 & d1 & Hr). apply file_type_exact; [done|exists wr1, o1, d1; by rewrite Hfs'|].
  exists []. split; [done|]. apply (ty_registered _ id [] []); [by_compute|done].
Qed.
(** Missing: the suffixes that have a type anyway. *)
Theorem registered_used_partial : forall U (w : world U) file x v,
  fits file -> readable w file -> suffix_of file x -> x ∉ known_types.*1 ->
  sends_type file (set_custom w (set_custom_content_type (w_custom w) x v)) v.
Proof.
  intros U w file x v Hf Hr Hx Hk. apply file_type_exact; [done|exact Hr|]. exists x. split; [done|].
  apply (ty_registered _ id x v); [done|]. cbn [set_custom w_custom]. unfold set_custom_content_type. by rewrite lookup_insert.
Qed.

(** ** Examples *)

Definition site_fs : fs := fun p =>
  if bool_decide (p ∈ [B "/srv//a.md"; B "/srv/b.tar.gz"; B "/srv/x.png"; B "/srv/README"]) then Reg true true true (B "...") else Absent true.
Definition site_world : world unit := World true site_fs [] {[ B "md" := B "text/markdown"; B "png" := B "image/x-png" ]} tt.
Lemma site_readable p : p ∈ [B "/srv//a.md"; B "/srv/b.tar.gz"; B "/srv/x.png"; B "/srv/README"] -> cstr p = p -> readable site_world p.
Proof. intros H E. exists true, true, (B "..."). rewrite E. cbn [w_fs site_world]. unfold site_fs. by rewrite bool_decide_eq_true_2. Qed.
Ltac site := apply site_readable; [by_compute|by vm_compute].
Lemma suffix_ex dir base x : "/"%char ∉ base -> "/"%char ∉ x -> "."%char ∉ x -> suffix_of (dir ++ "/"%char :: base ++ "."%char :: x) x.
Proof.
  intros H1 H2 H3. exists (base ++ "."%char :: x). split.
  - split; [|right; by exists dir]. rewrite elem_of_app, elem_of_cons. naive_solver.
  - left. by exists base.
Qed.
(** A registered type, no type, and a well-known type, which a registration does not change. *)
Example file_type_exact_ex :
  sends_type (B "/srv//a.md") site_world (B "text/markdown") /\
  sends_type (B "/srv/b.tar.gz") site_world (B "application/octet-stream") /\
  sends_type (B "/srv/x.png") site_world (B "image/png").
Proof.
  split; [|split]; (apply file_type_exact; [by vm_compute|site|]).
  - exists (B "md"). split; [apply (suffix_ex (B "/srv/") (B "a")); by_compute|]. apply (ty_registered _ id _ (B "text/markdown")); [by_compute|by vm_compute].
  - exists (B "gz"). split; [apply (suffix_ex (B "/srv") (B "b.tar")); by_compute|]. apply ty_none; [by_compute|by vm_compute].
  - exists (B "png"). split; [apply (suffix_ex (B "/srv") (B "x")); by_compute|]. apply ty_known. by_compute.
Qed.
Definition site_ctx : ctx := sd_c "/s/a.md".
Lemma readme_suffix : suffix_of (B "/srv/README") [].
Proof. exists (B "README"). split; [split; [by_compute|right; by exists (B "/srv")]|right; split; [by_compute|done]]. Qed.
Example dir_type_exact_ex : exists c' w' ty, static_dir_handler (B "/s") (B "/srv") site_ctx site_world = Ok (c', w') /\
  rs_header (cx_resp c') !! B "Content-Type" = Some ty /\ type_of (w_custom site_world) (fun _ => default [] (w_custom site_world !! [])) (B "md") ty.
Proof.
  apply (dir_type_exact unit site_world (B "/srv") (B "/s") (B "/a.md") site_ctx (B "md") true true (B "..."));
    [by vm_compute|by vm_compute|done|by rewrite <- find_idx_None_contains|by vm_compute|apply (suffix_ex (B "/srv/") (B "a")); by_compute].
Qed.
Example no_suffix_changes_ex : sends_type (B "/srv/README") site_world (B "application/octet-stream") /\
  exists c' w', static_dir_handler (B "/s") (B "/srv") site_ctx site_world = Ok (c', w') /\ sends_type (B "/srv/README") w' [].
Proof.
  apply (no_suffix_changes unit site_world (B "/srv") (B "/s") (B "/a.md") site_ctx (B "md") (B "text/markdown") true true (B "..."));
    [by vm_compute|by vm_compute|done|by rewrite <- find_idx_None_contains|by vm_compute|apply (suffix_ex (B "/srv/") (B "a")); by_compute
    |by_compute|by vm_compute|by vm_compute|by vm_compute|site|apply readme_suffix].
Qed.
Definition site_router : router unit := dir_router.
Lemma site_serves : serves_files any True site_router.
Proof.
  destruct (group_StaticDir any [] (B "/s") (B "/srv") [] router_new) as [[rc ro]| | | | |] eqn:E; try (by exfalso; revert E; vm_compute).
  unfold site_router, dir_router. rewrite E. eapply sf_dir; [apply sf_new|done|exact E].
Qed.
Lemma site_asked : exists w', requests_served site_router site_world w' /\ readable w' (B "/srv/README") /\ readable w' (B "/srv/x.png") /\ w_custom w' !! [] = Some [].
Proof.
  destruct (dispatch site_router (B "/s/a.md") site_ctx site_world) as [[c' w']| | | | |] eqn:E; try (by exfalso; revert E; vm_compute).
  exists w'. split; [eapply rsv_one; [apply rsv_none|exact E]|].
  assert (H : match dispatch site_router (B "/s/a.md") site_ctx site_world with
              | Ok (_, w) => (w_fs w (B "/srv/README"), w_fs w (B "/srv/x.png"), w_custom w !! []) | _ => (Absent true, Absent true, None) end
            = (Reg true true true (B "..."), Reg true true true (B "..."), Some [])) by (by vm_compute).
  rewrite E in H. injection H as H1 H2 H3. split; [|split; [|done]]; by exists true, true, (B "...").
Qed.
Example types_stay_ex : exists w', requests_served site_router site_world w' /\ w_custom w' !! [] = Some [] /\ sends_type (B "/srv/x.png") w' (B "image/png").
Proof.
  destruct site_asked as (w' & Hr & _ & Hp & Hc). exists w'. split; [done|]. split; [done|].
  apply (types_stay_partial unit any site_router site_world w' (B "/srv/x.png") (B "image/png") (B "png") site_serves Hr);
    [by vm_compute|site|done|apply (suffix_ex (B "/srv") (B "x")); by_compute|done|apply file_type_exact_ex].
Qed.
Theorem types_stay_refuted : ~ types_stay_full.
Proof.
  intros H. destruct site_asked as (w' & Hr & Hp & _ & Hc).
  assert (Hs := H unit any site_router site_world w' (B "/srv/README") (B "application/octet-stream") site_serves Hr ltac:(by vm_compute) ltac:(site) Hp (proj1 no_suffix_changes_ex)).
  apply file_type_exact in Hs; [|by vm_compute|done]. destruct Hs as (x & Hx & Ht). rewrite (suffix_det _ _ _ Hx readme_suffix) in Ht.
  assert (Ht' : type_of (w_custom w') id [] []) by (apply (ty_registered _ id [] []); [by_compute|done]).
  pose proof (type_det _ _ _ _ _ Ht Ht') as E. discriminate E.
Qed.
Example registered_used_ex : sends_type (B "/srv/b.tar.gz") (set_custom site_world (set_custom_content_type (w_custom site_world) (B "gz") (B "application/gzip"))) (B "application/gzip").
Proof.
  apply registered_used_partial; [by vm_compute|site|apply (suffix_ex (B "/srv") (B "b.tar")); by_compute|by_compute].
Qed.
Theorem registered_used_refuted : ~ registered_used_full.
Proof.
  intros H. pose proof (H unit site_world (B "/srv/x.png") (B "png") (B "image/x-png") ltac:(by vm_compute) ltac:(site)
    ltac:(apply (suffix_ex (B "/srv") (B "x")); by_compute)) as Hs.
  apply file_type_exact in Hs; [|by vm_compute|site]. destruct Hs as (x & Hx & Ht).
  rewrite (suffix_det _ _ (B "png") Hx ltac:(apply (suffix_ex (B "/srv") (B "x")); by_compute)) in Ht.
  assert (Ht' : type_of (w_custom (set_custom site_world (set_custom_content_type (w_custom site_world) (B "png") (B "image/x-png")))) id (B "png") (B "image/png"))
    by (apply ty_known; by_compute).
  pose proof (type_det _ _ _ _ _ Ht Ht') as E. discriminate E.
Qed.
Print Assumptions file_type_exact.
Print Assumptions dir_type_exact.
Print Assumptions types_stay_partial.
Print Assumptions no_suffix_changes.
Print Assumptions registered_used_partial.
Print Assumptions types_stay_refuted.
Print Assumptions registered_used_refuted.
