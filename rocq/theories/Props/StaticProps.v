(** C42, C43, C79, C83, C84, C86: static files and the handler context
    (src/cppnet/http/server/http_server.cpp and http_server.hpp). *)
From Verif.Proof Require Import RouterProof SocketProof FileProof.
From Verif.Props Require Import RouterProps.

Section props.
Context {U : Type}.
Implicit Types (w : world U) (c : ctx).

Definition path_of (c : ctx) : bytes := rt_path (rq_route (cx_req c)).

(** The part of the request path behind the first [m]. *)
Lemma static_dir_aim m route : fits route ->
  (str_find route m 0 = npos /\ ~ contains m route) \/
  (exists a r, route = a ++ m ++ r /\ (forall j, j < length a -> ~ m `prefix_of` drop j route) /\
     (str_find route m 0 =? npos)%N = false /\
     substr_from route (szadd (str_find route m 0) (size m)) = Ok r).
Proof.
  intros Hf. rewrite str_find_0. destruct (find_idx m route) as [i|] eqn:E.
  - right. destruct (find_idx_Some _ _ _ E) as ([r Hr] & Hlen & Hfirst).
    exists (take i route), r. rewrite take_length.
    split; [by rewrite <- Hr, take_drop|].
    split; [intros j Hj; apply Hfirst; lia|].
    unfold opt_pos. split.
    + apply N.eqb_neq. apply (lt_npos route); [done|lia].
    + unfold size. rewrite szadd_nat by (unfold fits in Hf; lia).
      rewrite substr_from_nat by (done || lia). f_equal.
      rewrite <- drop_drop, Hr. by rewrite drop_app.
  - left. split; [done|]. by apply find_idx_None_contains.
Qed.

Lemma find_dotdot r : fits r ->
  ((str_find r (B "..") 0 =? npos)%N = true /\ ~ contains (B "..") r) \/
  ((str_find r (B "..") 0 =? npos)%N = false /\ contains (B "..") r).
Proof.
  intros Hf. rewrite str_find_0. destruct (find_idx (B "..") r) as [i|] eqn:E.
  - right. pose proof (find_idx_bound _ _ _ E). split.
    + apply N.eqb_neq. apply (lt_npos r); [done|lia].
    + apply find_idx_contains. by rewrite E.
  - left. split; [done|]. by apply find_idx_None_contains.
Qed.

Lemma contains_cstr x s : contains x (cstr s) -> contains x s.
Proof.
  intros (a & b & H). destruct (cstr_split s) as (r & Hs & _). exists a, (b ++ r).
  rewrite Hs at 1. rewrite H. by rewrite <- !app_assoc.
Qed.
Lemma cstr_app a b : NUL ∉ a -> cstr (a ++ b) = a ++ cstr b.
Proof.
  induction a as [|x a IH]; intros H; [done|]. apply not_elem_of_cons in H as [Hx Ha].
  cbn [cstr app]. destruct (Ascii.eqb x NUL) eqn:E; [by apply ascii_eqb_true in E; subst|].
  by rewrite IH.
Qed.

(** ** C42 *)

(** A file name of the kind StaticDir may touch. *)
Definition inside (dir name : bytes) : Prop :=
  exists t, name = dir ++ B "/" ++ t /\ ~ contains (B "..") t.

(** All names given to the file system are inside. *)
Theorem static_dir_stays_inside : forall m dir c w c' w',
  NUL ∉ dir -> fits (path_of c) ->
  static_dir_handler m dir c w = Ok (c', w') ->
  exists l, w_opened w' = w_opened w ++ l /\ Forall (inside dir) l.
Proof.
  intros m dir c w c' w' Hnul Hf H. unfold static_dir_handler in H. unfold path_of in Hf.
  set (route := rt_path (rq_route (cx_req c))) in *.
  destruct (static_dir_aim m route Hf) as [[E _]|(a & r & Hr & _ & E & Es)].
  { rewrite E in H. rewrite N.eqb_refl in H. injection H as <- <-. exists []. by rewrite app_nil_r. }
  rewrite E, Es in H. cbn [mbind outcome_bind] in H.
  assert (Hfr : fits r). { rewrite Hr in Hf. by do 2 apply fits_app_r in Hf. }
  destruct (find_dotdot r Hfr) as [[E2 Hnd]|[E2 _]]; rewrite E2 in H; cbn [negb] in H.
  2: { injection H as <- <-. exists []. by rewrite app_nil_r. }
  assert (Hin : inside dir (cstr (dir ++ B "/" ++ r))).
  { exists (cstr r). split; [|by intros Hc; apply Hnd, contains_cstr].
    rewrite cstr_app by done. by rewrite cstr_app by by_compute. }
  set (fp := dir ++ B "/" ++ r) in *.
  destruct (file_exist (w_fs w) fp) as [[]| | | | |]; try done; cbn [mbind outcome_bind negb] in H.
  2: { injection H as <- <-. exists [cstr fp]. split; [done|]. by repeat constructor. }
  destruct (file_read (w_fs w) fp (rs_body (cx_resp c))) as [[rc d]| | | | |]; try done.
  cbn [mbind outcome_bind negb fst snd] in H. exists [cstr fp; cstr fp].
  assert (Hl : w_opened w' = (w_opened w ++ [cstr fp]) ++ [cstr fp]).
  { destruct (negb (rc =? kSuccess)%Z); [by injection H as <- <-|].
    destruct (file_suffix fp) as [sfx| | | | |]; try done. cbn [mbind outcome_bind] in H.
    destruct (resp_success _ _ _ _) as [p3 cu]. by injection H as <- <-. }
  split; [by rewrite Hl, <- app_assoc|]. by repeat constructor.
Qed.

(** And nothing else in the file system influences the outcome, exceptions
    included: two file systems that agree on the names inside give the same. *)
Definition with_fs w (f : fs) : world U := World (w_running w) f (w_opened w) (w_custom w) (w_user w).
Definition upto_fs (r : outcome (ctx * world U)) : outcome (ctx * world U) :=
  x ← r; Ok (x.1, with_fs x.2 (fun _ => StatFail)).

Theorem static_dir_reads_only_inside : forall m dir c w f,
  NUL ∉ dir -> fits (path_of c) -> (forall x, inside dir x -> f x = w_fs w x) ->
  upto_fs (static_dir_handler m dir c (with_fs w f)) = upto_fs (static_dir_handler m dir c w).
Proof.
  intros m dir c w f Hnul Hf Hag. unfold static_dir_handler. unfold path_of in Hf.
  set (route := rt_path (rq_route (cx_req c))) in *.
  destruct (static_dir_aim m route Hf) as [[E _]|(a & r & Hr & _ & E & Es)].
  { by rewrite E. }
  rewrite E, Es. cbn [mbind outcome_bind].
  assert (Hfr : fits r). { rewrite Hr in Hf. by do 2 apply fits_app_r in Hf. }
  destruct (find_dotdot r Hfr) as [[E2 Hnd]|[E2 _]]; rewrite E2; cbn [negb]; [|done].
  set (fp := dir ++ B "/" ++ r) in *.
  assert (Hfp : f (cstr fp) = w_fs w (cstr fp)).
  { apply Hag. exists (cstr r). split; [|by intros Hc; apply Hnd, contains_cstr].
    unfold fp. rewrite cstr_app by done. by rewrite cstr_app by by_compute. }
  unfold file_exist, file_read. cbn [with_fs w_fs]. rewrite Hfp.
  destruct (w_fs w (cstr fp)) as [| |rd wr o d|]; try done; cbn [mbind outcome_bind negb].
  destruct rd; cbn [mbind outcome_bind fst snd].
  - change (negb (kSuccess =? kSuccess)%Z) with false. cbn [negb].
    destruct (file_suffix fp); try done. cbn [mbind outcome_bind opened with_fs w_custom w_running w_fs w_opened w_user].
    by destruct (resp_success _ _ _ _).
  - done.
Qed.

(** ** C43 *)
Definition static_dir_serves_full : Prop := forall g m rest dir c w rd wr o d,
  fits (path_of c) -> fits (dir ++ B "/" ++ rest) ->
  path_of c = g ++ m ++ rest -> ~ contains (B "..") rest ->
  w_fs w (cstr (dir ++ B "/" ++ rest)) = Reg rd wr o d -> rd = true ->
  exists c' w', static_dir_handler m dir c w = Ok (c', w') /\
    rs_status (cx_resp c') = sOK /\ rs_body (cx_resp c') = d.

(** The mount path does not occur earlier in the request path. *)
Definition first_occurrence (m route : bytes) (n : nat) : Prop :=
  forall j, j < n -> ~ m `prefix_of` drop j route.

Lemma static_dir_found g m rest c :
  fits (path_of c) -> path_of c = g ++ m ++ rest ->
  first_occurrence m (path_of c) (length g) -> ~ contains (B "..") rest ->
  (str_find (path_of c) m 0 =? npos)%N = false /\
  substr_from (path_of c) (szadd (str_find (path_of c) m 0) (size m)) = Ok rest /\
  (str_find rest (B "..") 0 =? npos)%N = true.
Proof.
  intros Hf Hp Hfirst Hnd.
  destruct (static_dir_aim m (path_of c) Hf) as [[_ E]|(a & r & Hr & Ha & E & Es)].
  { exfalso. apply E. exists g, rest. done. }
  assert (length a = length g) as Hl.
  { destruct (Nat.lt_trichotomy (length a) (length g)) as [Hlt|[?|Hlt]]; [|done|].
    - exfalso. apply (Hfirst (length a) Hlt). rewrite Hr, drop_app. by exists r.
    - exfalso. apply (Ha (length g) Hlt). rewrite Hp, drop_app. by exists rest. }
  rewrite Hp in Hr. apply app_inj_1 in Hr as [<- Hr]; [|done]. apply app_inv_head in Hr as <-.
  split; [done|]. split; [done|].
  assert (Hfr : fits rest). { rewrite Hp in Hf. by do 2 apply fits_app_r in Hf. }
  destruct (find_dotdot rest Hfr) as [[? _]|[_ ?]]; done.
Qed.

(** Missing: groups whose route contains the mount path again (the first
    occurrence is taken). *)
Theorem static_dir_serves_partial : forall g m rest dir c w wr o d,
  fits (path_of c) -> fits (dir ++ B "/" ++ rest) ->
  path_of c = g ++ m ++ rest -> first_occurrence m (path_of c) (length g) ->
  ~ contains (B "..") rest ->
  w_fs w (cstr (dir ++ B "/" ++ rest)) = Reg true wr o d ->
  exists c' w', static_dir_handler m dir c w = Ok (c', w') /\ cx_req c' = cx_req c /\
    rs_status (cx_resp c') = sOK /\ rs_body (cx_resp c') = d /\
    rs_header (cx_resp c') !! B "Connection" = Some (B "keep-alive") /\
    w_opened w' = w_opened w ++ [cstr (dir ++ B "/" ++ rest); cstr (dir ++ B "/" ++ rest)] /\
    w_fs w' = w_fs w /\ w_running w' = w_running w /\ w_user w' = w_user w.
Proof.
  intros g m rest dir c w wr o d Hf Hff Hp Hfirst Hnd Hfs.
  destruct (static_dir_found g m rest c Hf Hp Hfirst Hnd) as (E1 & E2 & E3).
  unfold path_of in *. unfold static_dir_handler. rewrite E1, E2. cbn [mbind outcome_bind].
  rewrite E3. cbn [negb]. unfold file_exist, file_read. rewrite Hfs. cbn [mbind outcome_bind negb fst snd].
  change (negb (kSuccess =? kSuccess)%Z) with false. cbn [negb].
  destruct (file_suffix_ok _ Hff) as (co & x & _ & _ & Hs).
  cbn [app] in Hs |- *. rewrite Hs. cbn [mbind outcome_bind].
  unfold resp_success, header_set_content_type. destruct (convert_to_str _ _ _) as [ty cu].
  do 2 eexists. split; [done|]. cbn [cx_req cx_resp ctx_set_resp rs_status rs_body rs_header set_custom w_opened w_fs w_running w_user opened].
  do 3 (split; [done|]). split; [|by rewrite <- app_assoc].
  rewrite lookup_insert_ne by done. unfold header_set_long_connection. by rewrite lookup_insert.
Qed.

(** On the server itself (no group) the condition is void. *)
Theorem static_dir_serves_root : forall m rest dir c w wr o d,
  fits (path_of c) -> fits (dir ++ B "/" ++ rest) ->
  path_of c = m ++ rest -> ~ contains (B "..") rest ->
  w_fs w (cstr (dir ++ B "/" ++ rest)) = Reg true wr o d ->
  exists c' w', static_dir_handler m dir c w = Ok (c', w') /\
    rs_status (cx_resp c') = sOK /\ rs_body (cx_resp c') = d.
Proof.
  intros m rest dir c w wr o d Hf Hff Hp Hnd Hfs.
  destruct (static_dir_serves_partial [] m rest dir c w wr o d Hf Hff Hp) as (c' & w' & H & _ & H1 & H2 & _);
    [intros j Hj; cbn in Hj; lia|done|done|]. eauto.
Qed.

(** A file that is not there leaves the response alone. *)
Theorem static_dir_missing : forall g m rest dir c w b,
  fits (path_of c) -> path_of c = g ++ m ++ rest -> first_occurrence m (path_of c) (length g) ->
  ~ contains (B "..") rest -> w_fs w (cstr (dir ++ B "/" ++ rest)) = Absent b ->
  exists w', static_dir_handler m dir c w = Ok (ctx_Next c, w') /\ w_user w' = w_user w.
Proof.
  intros g m rest dir c w b Hf Hp Hfirst Hnd Hfs.
  destruct (static_dir_found g m rest c Hf Hp Hfirst Hnd) as (E1 & E2 & E3).
  unfold path_of in *. unfold static_dir_handler. rewrite E1, E2. cbn [mbind outcome_bind].
  rewrite E3. cbn [negb]. unfold file_exist. rewrite Hfs. cbn [mbind outcome_bind negb]. eauto.
Qed.

(** ** C84: a name that cannot be looked up (too long, a loop of links, no
    permission) makes the handler throw *)
Definition static_dir_total_full : Prop := forall m dir c w,
  fits (path_of c) -> fits (dir ++ B "/" ++ path_of c) -> is_ok (static_dir_handler m dir c w).

Theorem static_dir_total_partial : forall m dir c w,
  fits (path_of c) -> fits (dir ++ B "/" ++ path_of c) ->
  (forall x, inside dir x -> w_fs w x <> StatFail) -> NUL ∉ dir ->
  is_ok (static_dir_handler m dir c w).
Proof.
  intros m dir c w Hf Hff Hst Hnul. unfold static_dir_handler. unfold path_of in *.
  set (route := rt_path (rq_route (cx_req c))) in *.
  destruct (static_dir_aim m route Hf) as [[E _]|(a & r & Hr & _ & E & Es)].
  { rewrite E, N.eqb_refl. by eexists. }
  rewrite E, Es. cbn [mbind outcome_bind].
  assert (Hfr : fits r). { rewrite Hr in Hf. by do 2 apply fits_app_r in Hf. }
  destruct (find_dotdot r Hfr) as [[E2 Hnd]|[E2 _]]; rewrite E2; cbn [negb]; [|by eexists].
  set (fp := dir ++ B "/" ++ r) in *.
  assert (Hfp : w_fs w (cstr fp) <> StatFail).
  { apply Hst. exists (cstr r). split; [|by intros Hc; apply Hnd, contains_cstr].
    unfold fp. rewrite cstr_app by done. by rewrite cstr_app by by_compute. }
  assert (Hffp : fits fp).
  { unfold fp. rewrite Hr in Hff. unfold fits in *. rewrite !app_length in *. lia. }
  destruct (file_suffix_ok fp Hffp) as (co & x & _ & _ & Hs).
  unfold file_exist, file_read.
  destruct (w_fs w (cstr fp)) as [| |rd wr o d|]; try done; cbn [mbind outcome_bind negb]; try by eexists.
  destruct rd; cbn [mbind outcome_bind fst snd].
  - change (negb (kSuccess =? kSuccess)%Z) with false. cbn [negb].
    rewrite Hs. cbn [mbind outcome_bind]. destruct (resp_success _ _ _ _). by eexists.
  - by eexists.
Qed.

(** ** C79 *)

(** The suffixes with a built-in type. *)
Definition builtin_suffixes : list bytes :=
  map B ["html"; "htm"; "txt"; "css"; "less"; "js"; "mjs"; "json"; "png"; "jpg"; "jpeg"; "gif"; "webp"].

Lemma convert_custom custom ft v :
  custom !! ft = Some v -> ft ∉ builtin_suffixes ->
  convert_file_type custom ft = kCustom.
Proof.
  intros Hv Hb. unfold convert_file_type. unfold builtin_suffixes in Hb. cbn [map] in Hb.
  repeat (apply not_elem_of_cons in Hb as [? Hb]). unfold streq.
  rewrite !bool_decide_eq_false_2 by done. cbn [orb]. by rewrite Hv.
Qed.

Definition custom_types_full : Prop := forall dir m rest c w ft v wr o d,
  fits (path_of c) -> fits (dir ++ B "/" ++ rest) -> path_of c = m ++ rest -> ~ contains (B "..") rest ->
  w_fs w (cstr (dir ++ B "/" ++ rest)) = Reg true wr o d ->
  file_suffix (dir ++ B "/" ++ rest) = Ok ft -> w_custom w !! ft = Some v -> ft ∉ builtin_suffixes ->
  exists c' w', static_dir_handler m dir c w = Ok (c', w') /\
    rs_header (cx_resp c') !! B "Content-Type" = Some v /\ w_custom w' = w_custom w.

(** StaticFile does it right.  Missing: StaticDir, and suffixes with a built-in
    type. *)
Theorem custom_types_partial : forall file c w ft v wr o d,
  w_fs w (cstr file) = Reg true wr o d ->
  file_suffix file = Ok ft -> w_custom w !! ft = Some v -> ft ∉ builtin_suffixes ->
  exists c' w', static_file_handler file c w = Ok (c', w') /\
    rs_status (cx_resp c') = sOK /\ rs_body (cx_resp c') = d /\
    rs_header (cx_resp c') !! B "Content-Type" = Some v /\ w_custom w' = w_custom w.
Proof.
  intros file c w ft v wr o d Hfs Hs Hv Hb. unfold static_file_handler, file_exist, file_read.
  rewrite Hfs. cbn [mbind outcome_bind negb fst snd].
  change (negb (kSuccess =? kSuccess)%Z) with false. cbn [negb]. rewrite Hs. cbn [mbind outcome_bind].
  cbn [opened w_custom]. rewrite (convert_custom _ _ _ Hv Hb). cbn [convert_to_str]. rewrite Hv.
  do 2 eexists. split; [done|]. cbn. split; [done|]. split; [done|]. split; [|done].
  unfold header_set_content_type_str. by rewrite lookup_insert.
Qed.

(** StaticDir never sends the registered type: it sends an empty one (or what is
    registered for the empty suffix) and registers an empty type for the empty
    suffix. *)
Theorem custom_types_dir_wrong : forall dir m rest c w ft v wr o d,
  fits (path_of c) -> fits (dir ++ B "/" ++ rest) -> path_of c = m ++ rest -> ~ contains (B "..") rest ->
  w_fs w (cstr (dir ++ B "/" ++ rest)) = Reg true wr o d ->
  file_suffix (dir ++ B "/" ++ rest) = Ok ft -> w_custom w !! ft = Some v -> ft ∉ builtin_suffixes ->
  w_custom w !! [] = None ->
  exists c' w', static_dir_handler m dir c w = Ok (c', w') /\
    rs_header (cx_resp c') !! B "Content-Type" = Some [] /\ w_custom w' !! [] = Some [].
Proof.
  intros dir m rest c w ft v wr o d Hf Hff Hp Hnd Hfs Hs Hv Hb Hn.
  destruct (static_dir_found [] m rest c Hf Hp) as (E1 & E2 & E3); [intros j Hj; cbn in Hj; lia|done|].
  unfold path_of in *. unfold static_dir_handler. rewrite E1, E2. cbn [mbind outcome_bind].
  rewrite E3. cbn [negb]. unfold file_exist, file_read. rewrite Hfs. cbn [mbind outcome_bind negb fst snd].
  change (negb (kSuccess =? kSuccess)%Z) with false. cbn [negb].
  cbn [app] in Hs |- *. rewrite Hs. cbn [mbind outcome_bind opened w_custom].
  rewrite (convert_custom _ _ _ Hv Hb). unfold resp_success, header_set_content_type. cbn [convert_to_str].
  rewrite Hn. do 2 eexists. split; [done|]. cbn [cx_resp ctx_set_resp rs_header set_custom w_custom].
  by rewrite !lookup_insert.
Qed.

(** ** C83: the values of a context *)
Theorem context_get_set : forall c tag dflt k v,
  (ctx_Get (ctx_Set c tag k v) tag dflt k).1 = v /\
  (forall tag', tag' <> tag -> (ctx_Get (ctx_Set c tag k v) tag' dflt k).1 = dflt) /\
  (forall tag' k', k' <> k -> (ctx_Get (ctx_Set c tag k v) tag' dflt k').1 = (ctx_Get c tag' dflt k').1).
Proof.
  intros c tag dflt k v. unfold ctx_Get, ctx_Set. cbn [cx_data fst].
  rewrite lookup_insert. split; [by rewrite Nat.eqb_refl|]. split.
  - intros tag' Hne. replace (tag =? tag') with false; [done|]. symmetry. by apply Nat.eqb_neq.
  - intros tag' k' Hne. by rewrite lookup_insert_ne.
Qed.

(** Reading changes no later reading. *)
Theorem context_get_reads : forall c tag dflt k tag' dflt' k',
  (ctx_Get (ctx_Get c tag dflt k).2 tag' dflt' k').1 = (ctx_Get c tag' dflt' k').1 /\
  cx_req (ctx_Get c tag dflt k).2 = cx_req c /\ cx_resp (ctx_Get c tag dflt k).2 = cx_resp c.
Proof.
  intros c tag dflt k tag' dflt' k'. split; [|done]. unfold ctx_Get. cbn [snd cx_data fst].
  destruct (cx_data c !! k) eqn:E; [done|].
  destruct (decide (k' = k)) as [->|Hne]; [by rewrite lookup_insert, E|by rewrite lookup_insert_ne].
Qed.
End props.

(** ** Refutations and examples *)
Definition sd_fs : fs := fun p =>
  if decide (p = B "/www//s/x.md") then Reg true true true (B "wrong")
  else if decide (p = B "/www//x.md") then Reg true true true (B "right")
  else if decide (p = B "/www//secret") then StatFail
  else Absent true.
Definition sd_w : world unit := World true sd_fs [] {[ B "md" := B "text/markdown" ]} tt.
Definition sd_c (p : string) : ctx := ctx_new (Req mGET v1_1 ∅ (Route (B p) ∅) []) resp_new.

Theorem static_dir_serves_refuted : ~ static_dir_serves_full (U:=unit).
Proof.
  intros H. destruct (H (B "/s") (B "/s") (B "/x.md") (B "/www") (sd_c "/s/s/x.md") sd_w true true true (B "right"))
    as (c' & w' & Hd & _ & Hb);
    [by vm_compute|by vm_compute|done|by rewrite <- find_idx_None_contains|by vm_compute|done|].
  vm_compute in Hd. injection Hd as <- <-. by vm_compute in Hb.
Qed.

Theorem static_dir_total_refuted : ~ static_dir_total_full (U:=unit).
Proof.
  intros H. destruct (H (B "/s") (B "/www") (sd_c "/s/secret") sd_w) as [x Hx]; by vm_compute in Hx || vm_compute.
Qed.

Theorem custom_types_refuted : ~ custom_types_full (U:=unit).
Proof.
  intros H. destruct (H (B "/www") (B "/s") (B "/x.md") (sd_c "/s/x.md") sd_w (B "md") (B "text/markdown") true true (B "right"))
    as (c' & w' & Hd & Hb & _);
    [by vm_compute|by vm_compute|done|by rewrite <- find_idx_None_contains|by vm_compute|done|done|by_compute|].
  vm_compute in Hd. injection Hd as <- <-. by vm_compute in Hb.
Qed.

Print Assumptions static_dir_stays_inside.
Print Assumptions static_dir_reads_only_inside.
Print Assumptions static_dir_serves_partial.
Print Assumptions static_dir_serves_root.
Print Assumptions static_dir_missing.
Print Assumptions static_dir_serves_refuted.
Print Assumptions static_dir_total_partial.
Print Assumptions static_dir_total_refuted.
Print Assumptions custom_types_partial.
Print Assumptions custom_types_dir_wrong.
Print Assumptions custom_types_refuted.
Print Assumptions context_get_set.
Print Assumptions context_get_reads.

(** Non-vacuity. *)
Example ex_static : exists c' w', static_dir_handler (B "/s") (B "/www") (sd_c "/s/x.md") sd_w = Ok (c', w') /\
  w_opened w' = [B "/www//x.md"; B "/www//x.md"] /\ rs_body (cx_resp c') = B "right".
Proof. do 2 eexists. split; [by vm_compute|]. done. Qed.
Example ex_traversal : exists w', static_dir_handler (B "/s") (B "/www") (sd_c "/s/../secret") sd_w
  = Ok (ctx_set_resp (sd_c "/s/../secret") (resp_not_found resp_new), w') /\ w_opened w' = [].
Proof. eexists. split; [by vm_compute|done]. Qed.
Example ex_static_file : exists c' w', static_file_handler (B "/www//x.md") (sd_c "/x") sd_w = Ok (c', w') /\
  rs_header (cx_resp c') !! B "Content-Type" = Some (B "text/markdown").
Proof. do 2 eexists. split; [by vm_compute|]. done. Qed.
Example ex_ctx : (ctx_Get (ctx_Set (sd_c "/") 1 (B "user") (B "bob")) 1 [] (B "user")).1 = B "bob" /\
  (ctx_Get (ctx_Set (sd_c "/") 1 (B "user") (B "bob")) 2 (B "0") (B "user")).1 = B "0".
Proof. by vm_compute. Qed.

(** ** C86: static routes registered through a group object that is gone *)
Definition group_may_die_full : Prop := forall U (alive : U -> bool) g m dir c (w : world U),
  ascii_only g -> ascii_only m -> rq_method (cx_req c) = mGET ->
  exists ro, group_StaticDir alive g m dir [] router_new = Ok (kSuccess, ro) /\
    dispatch ro (g ++ m) c w <> UB.

(** As long as the object lives, the route does what the callback does. *)
Theorem group_may_die_partial : forall U (alive : U -> bool) g m dir c (w : world U) p,
  ascii_only g -> ascii_only m -> ascii_only p -> g ++ m `prefix_of` p ->
  rq_method (cx_req c) = mGET -> alive (w_user w) = true ->
  exists ro, group_StaticDir alive g m dir [] router_new = Ok (kSuccess, ro) /\
    dispatch ro p c w = static_dir_handler m dir c w.
Proof.
  intros U alive g m dir c w p Hg Hm Hp Hpre Hget Hal.
  destruct (single_registration g m
    (Entry (Some (owned alive (static_dir_handler m dir))) false ([] ++ [method_filter mGET])) p c w) as (ro & Hr & Hch);
    [done|done|done|].
  exists ro. split; [exact Hr|].
  assert (Hc : chain [Entry (Some (owned alive (static_dir_handler m dir))) false ([] ++ [method_filter mGET])] (c, w)
    (dispatch ro p c w)).
  { destruct (decide (p = g ++ m)); [done|]. by rewrite decide_True in Hch. }
  apply (chain_det _ _ _ _ Hc).
  assert (Hf : forall f, f ∈ ([] ++ [method_filter mGET]) -> f (cx_req c) = true).
  { intros f Hf. apply elem_of_list_singleton in Hf as ->. unfold method_filter. by apply bool_decide_eq_true. }
  assert (Ho : owned alive (static_dir_handler m dir) c w = static_dir_handler m dir c w).
  { unfold owned. by rewrite Hal. }
  destruct (static_dir_handler m dir c w) as [st'| | | | |] eqn:E.
  2-6: (eapply chain_failed; [done|exact Hf|exact Ho|by intros [x Hx]]).
  destruct (w_running st'.2) eqn:Er.
  - eapply chain_called; [done|exact Hf|exact Ho|done|constructor].
  - eapply chain_stopped; [done|exact Hf|exact Ho|done].
Qed.

(** [server.Group("/g").StaticDir("/s", ...)]: the group is a temporary. *)
Theorem group_may_die_refuted : ~ group_may_die_full.
Proof.
  intros H. destruct (H unit (fun _ => false) (B "/g") (B "/s") (B "/www") (sd_c "/g/s") sd_w) as (ro & Hro & Hd);
    [by_compute|by_compute|done|].
  vm_compute in Hro. injection Hro as <-. apply Hd. by vm_compute.
Qed.
Print Assumptions group_may_die_partial.
Print Assumptions group_may_die_refuted.

Example ex_alive : exists ro c' w', group_StaticDir (fun _ : unit => true) [] (B "/s") (B "/www") [] router_new = Ok (kSuccess, ro) /\
  dispatch ro (B "/s/x.md") (sd_c "/s/x.md") sd_w = Ok (c', w') /\ rs_body (cx_resp c') = B "right".
Proof. do 3 eexists. split; [by vm_compute|]. split; [by vm_compute|done]. Qed.
