(** C201: the table of content types (the static map HttpHeader::custom_content_type_,
    http_header.hpp:115, which nothing locks) while several threads serve files
    (HttpServer on TcpServer in the modes kMultiThread and kMixed). *)
From Verif.Model Require Import HttpThreads.
From Verif.Proof Require Import RouterProof StrangerProof.
From Verif.Props Require Import RouterProps StaticProps ServerProps.

(** ** Statements *)

(** Routes for directories ([dirs]), for files, and with handlers that do not block and leave
    the table alone. *)
Definition leaves_table {U} (x : entry U) : Prop := forall h, e_callback x = Some h -> forall c w,
  match h c w with Ok (_, w') => w_custom w' = w_custom w | Blocked => False | _ => True end.
Inductive serves_files {U} (alive : U -> bool) (dirs : Prop) : router U -> Prop :=
| sf_new : serves_files alive dirs router_new
| sf_dir ro g path dir fl rc ro' : serves_files alive dirs ro -> dirs ->
    group_StaticDir alive g path dir fl ro = Ok (rc, ro') -> serves_files alive dirs ro'
| sf_file ro g path file fl rc ro' : serves_files alive dirs ro ->
    group_StaticFile alive g path file fl ro = Ok (rc, ro') -> serves_files alive dirs ro'
| sf_other ro g path x rc ro' : serves_files alive dirs ro -> leaves_table x ->
    register g path x ro = Ok (rc, ro') -> serves_files alive dirs ro'.

(** Running the handlers on [r] now would change the table. *)
Definition writes_table {U} (ro : router U) (w : world U) (r : req) : Prop := exists c' w',
  dispatch ro (rt_path (rq_route r)) (ctx_new r resp_new) w = Ok (c', w') /\ w_custom w' <> w_custom w.
(** Two threads are about to run handlers that change it: a data race. *)
Definition table_race {U} (ro : router U) (s : tsys U) : Prop := exists a b ta tb fa fb ra rb,
  a <> b /\ ts_workers s !! a = Some (WRead ta fa (RRun ra)) /\ ts_workers s !! b = Some (WRead tb fb (RRun rb)) /\
  writes_table ro (ts_world s) ra /\ writes_table ro (ts_world s) rb.

Definition table_safe_full : Prop := forall U (alive : U -> bool) (ro : router U) mixed hit e m w ls s,
  serves_files alive True ro -> t_run mixed hit ro e (t_new m w) ls = Some s -> ~ table_race ro s.

(** ** Proofs *)

Lemma substr_returns b i : substr_from b i <> Blocked.
Proof. unfold substr_from, substr. by destruct (_ <? _)%N. Qed.
Lemma suffix_returns p : file_suffix p <> Blocked.
Proof.
  unfold file_suffix. pose proof (substr_returns p (if (find_last_of p "/"%char =? npos)%N then 0 else find_last_of p "/"%char)%N) as H.
  destruct (substr_from p _); cbn [mbind outcome_bind]; try done. case_match; [done|]. apply substr_returns.
Qed.

(** Looking up the type of a file finds what is there. *)
Lemma lookup_known T ft : snd (convert_to_str T (convert_file_type T ft) ft) = T.
Proof.
  unfold convert_file_type. repeat match goal with |- context [if ?b then _ else _] => destruct b; [done|] end.
  destruct (T !! ft) as [v|] eqn:E; [|done]. cbn [convert_to_str]. by rewrite E.
Qed.
Lemma lookup_dir T ft : T = ∅ \/ is_Some (T !! []) -> snd (convert_to_str T (convert_file_type T ft) []) = T.
Proof.
  intros HT. unfold convert_file_type. repeat match goal with |- context [if ?b then _ else _] => destruct b; [done|] end.
  destruct (T !! ft) as [v|] eqn:E; [|done]. cbn [convert_to_str].
  destruct HT as [->|[v' ->]]; [by rewrite lookup_empty in E|done].
Qed.

Section table.
Context {U : Type} (T : smap) (alive : U -> bool).
Local Notation same := (fun w : world U => w_custom w = T).

Lemma dir_same m dir c (w : world U) : T = ∅ \/ is_Some (T !! []) -> same w -> kept same (static_dir_handler m dir c w).
Proof.
  intros HT Hc. unfold static_dir_handler, kept. destruct (_ =? npos)%N; [done|].
  match goal with |- context [substr_from ?x ?y] => pose proof (substr_returns x y) as Hb; destruct (substr_from x y) as [z| | | | |] end;
    cbn [mbind outcome_bind]; try done. destruct (negb _); [done|].
  unfold file_exist, file_read. destruct (w_fs w _) as [| |[] ? ? d|] eqn:E; cbn [mbind outcome_bind negb fst snd]; try done.
  change (negb (kSuccess =? kSuccess)%Z) with false. cbv iota.
  match goal with |- context [file_suffix ?x] => pose proof (suffix_returns x) as Hx; destruct (file_suffix x) as [x'| | | | |] end; cbn [mbind outcome_bind]; try done.
  unfold resp_success, header_set_content_type. cbn [opened w_custom]. rewrite Hc.
  pose proof (lookup_dir T x' HT) as Hl. destruct (convert_to_str T (convert_file_type T x') []) as [s T']. exact Hl.
Qed.
Lemma file_same file c (w : world U) : same w -> kept same (static_file_handler file c w).
Proof.
  intros Hc. unfold static_file_handler, kept.
  unfold file_exist, file_read. destruct (w_fs w _) as [| |[] ? ? d|] eqn:E; cbn [mbind outcome_bind negb fst snd]; try done.
  change (negb (kSuccess =? kSuccess)%Z) with false. cbv iota.
  match goal with |- context [file_suffix ?x] => pose proof (suffix_returns x) as Hx; destruct (file_suffix x) as [x'| | | | |] end; cbn [mbind outcome_bind]; try done.
  cbn [opened w_custom]. rewrite Hc.
  pose proof (lookup_known T x') as Hl. destruct (convert_to_str T (convert_file_type T x') x') as [s T']. exact Hl.
Qed.
Lemma router_same dirs ro : serves_files alive dirs ro -> (dirs -> T = ∅ \/ is_Some (T !! [])) ->
  forall p c w, same w -> kept same (dispatch ro p c w).
Proof.
  intros H HT. apply dispatch_keeps. induction H as [|ro g path dir fl rc ro' H IH Hd E|ro g path file fl rc ro' H IH E|ro g path x rc ro' H IH Hx E].
  - constructor.
  - apply (register_all_of _ _ _ _ _ _ E); [|done]. intros h [= <-] c w Hw. unfold owned. destruct (alive _); [|done]. apply dir_same; auto.
  - apply (register_all_of _ _ _ _ _ _ E); [|done]. intros h [= <-] c w Hw. unfold owned. destruct (alive _); [|done]. by apply file_same.
  - apply (register_all_of _ _ _ _ _ _ E); [|done]. intros h Hh c w Hw. specialize (Hx h Hh c w). unfold kept.
    destruct (h c w) as [[c' w']| | | | |]; try done. by rewrite Hx.
Qed.

(** No step of the server changes the world, except by running handlers. *)
Lemma step_same ro mixed hit e s l s' : (forall p c w, same w -> kept same (dispatch ro p c w)) ->
  same (ts_world s) -> t_step mixed hit ro e s l = Some s' -> same (ts_world s').
Proof.
  intros Hro Hs. unfold t_step. destruct (ts_down s); [done|].
  assert (Hrecv : forall t w x r, ts_world (recv_step t w x r) = ts_world (U := U) t).
  { intros t w x r. destruct x as [|f|th f st], r as [c|]; cbn [recv_step]; try done. by destruct (got_byte st c). }
  destruct l as [i f ok|i bs|i|f|f|w|w|w i|w wr].
  - destruct (decide _); [|done]. intros [= <-]. by destruct mixed, ok.
  - destruct (ts_conns s !! i) as [c|]; [|done]. cbn [mbind option_bind]. destruct (tn_fin c); [done|]. by intros [= <-].
  - destruct (ts_conns s !! i) as [c|]; [|done]. cbn [mbind option_bind]. by intros [= <-].
  - destruct (conn_of s f) as [ic|]; [|done]. cbn [mbind option_bind]. destruct (_ && _); [|done]. by intros [= <-].
  - destruct (conn_of s f) as [ic|]; [|done]. cbn [mbind option_bind]. destruct (_ && _); [|done]. by intros [= <-].
  - destruct (ts_workers s !! w) as [[|f|th f st]|]; try done. destruct (ts_queue s) as [|k q]; [done|]. intros [= <-].
    by destruct k as [f []|f].
  - destruct (ts_workers s !! w) as [x|]; [|done]. cbn [mbind option_bind]. destruct (wst_fd x) as [f|]; [|done]. cbn [mbind option_bind].
    destruct (receiving x); [|done]. destruct (conn_of s f) as [[i c]|]; [|intros [= <-]; by rewrite Hrecv].
    destruct (tn_in c) as [|ch rest]; [destruct (tn_fin c); [|done]; intros [= <-]; by rewrite Hrecv|].
    intros [= <-]. rewrite Hrecv. by destruct (takes x).
  - destruct (ts_workers s !! w) as [x|]; [|done]. cbn [mbind option_bind]. destruct (wst_fd x) as [f|]; [|done]. cbn [mbind option_bind].
    destruct (_ && _); [|done]. intros [= <-]. by rewrite Hrecv.
  - destruct (ts_workers s !! w) as [[|f|th f st]|]; try done. destruct (finishing st); [|done].
    set (wr' := match ts_fds s !! f with Some _ => wr | None => WFail end).
    destruct (finish hit wr' ro e st (ts_world s)) as [[[[wo texts] sent] cl]| | | | |] eqn:Ef; try (by intros [= <-]).
    intros [= <-].
    assert (Hwo : same wo).
    { destruct st as [buf|r n got|r| |]; cbn [finish] in Ef; try by injection Ef as <- _ _ _.
      - destruct (answer hit wr' ro r e (ts_world s) (Stream [] Eof)) as [v| | | | |] eqn:Ea; try done. injection Ef as <- _ _ _.
        unfold answer in Ea. pose proof (Hro (rt_path (rq_route r)) (ctx_new r resp_new) _ Hs) as Hk.
        destruct (dispatch ro _ _ _) as [[c' w']| | | | |]; try done. cbn [mbind outcome_bind fst snd kept] in Ea, Hk.
        unfold respond in Ea. destruct (resp_build hit _ []) as [[rc p2] buf].
        destruct (negb (rc =? kSuccess)%Z); [destruct (resp_build hit _ buf) as [[? ?] ?]|];
          (destruct (sock_write wr' _) as [[]| | | | |]; try done; cbn [mbind outcome_bind] in Ea; by injection Ea as <-).
      - destruct (resp_build hit _ []) as [[? ?] buf]. destruct (sock_write wr' buf); try done. by injection Ef as <- _ _ _. }
    destruct (conn_of s f) as [[i c]|], cl; exact Hwo.
Qed.
Lemma run_same ro mixed hit e ls : (forall p c w, same w -> kept same (dispatch ro p c w)) -> forall s s',
  same (ts_world s) -> t_run mixed hit ro e s ls = Some s' -> same (ts_world s').
Proof.
  intros Hro. induction ls as [|l ls IH]; intros s s' Hs H; cbn [t_run] in H; [by injection H as <-|].
  destruct (t_step mixed hit ro e s l) as [s1|] eqn:E; [|done]. cbn [mbind option_bind] in H.
  eapply IH; [|exact H]. by eapply step_same.
Qed.
End table.

(** ** Theorems *)

(** Missing: directories, when a type was registered for some suffix and none for the
    empty one.  Otherwise the table never changes, so that reading it needs no lock. *)
Theorem table_safe_partial : forall U (alive : U -> bool) dirs (ro : router U) mixed hit e m w ls s,
  serves_files alive dirs ro -> (dirs -> w_custom w = ∅ \/ is_Some (w_custom w !! [])) ->
  t_run mixed hit ro e (t_new m w) ls = Some s ->
  w_custom (ts_world s) = w_custom w /\ ~ table_race ro s.
Proof.
  intros U alive dirs ro mixed hit e m w ls s Hsf HT Hrun.
  pose proof (router_same (w_custom w) alive dirs ro Hsf HT) as Hk.
  assert (Hs : w_custom (ts_world s) = w_custom w) by (eapply (run_same (w_custom w) ro mixed hit e ls Hk (t_new m w) s); [done|exact Hrun]).
  split; [exact Hs|]. intros (a & b & ta & tb & fa & fb & ra & rb & _ & _ & _ & (c' & w' & Hd & Hne) & _).
  specialize (Hk (rt_path (rq_route ra)) (ctx_new ra resp_new) _ Hs). rewrite Hd in Hk. cbn [kept] in Hk. congruence.
Qed.

(** ** Examples *)
Definition any (_ : unit) : bool := true.
Definition notes (p : bytes) : fobj :=
  if bool_decide (p = B "/srv//a.md") then Reg true true true (B "# A") else Absent true.
Definition dir_router : router unit := match group_StaticDir any [] (B "/s") (B "/srv") [] router_new with Ok (_, ro) => ro | _ => router_new end.
Definition file_router : router unit := match group_StaticFile any [] (B "/n") (B "/srv//a.md") [] router_new with Ok (_, ro) => ro | _ => router_new end.
Definition md_world : world unit := World true notes [] {[ B "md" := B "text/markdown" ]} tt.
Definition get_text (path : string) : bytes := B "GET " ++ B path ++ B " HTTP/1.1" ++ CRLF ++ B "Host: h" ++ CRLFCRLF.
(** Two clients ask for the same file, and two threads have read their requests. *)
Definition both_ask (path : string) : list tlab :=
  [TAccept 0 5 true; TAccept 1 6 true; TSend 0 (get_text path); TSend 1 (get_text path); TPop 0; TPop 1] ++
  repeat (TRecv 0) (S (length (get_text path))) ++ repeat (TRecv 1) (S (length (get_text path))).

Definition running (x : wst) : option req := match x with WRead _ _ (RRun r) => Some r | _ => None end.
Lemma running_at {U} (s : tsys U) i r : running <$> (ts_workers s !! i) = Some (Some r) -> exists th f, ts_workers s !! i = Some (WRead th f (RRun r)).
Proof.
  destruct (ts_workers s !! i) as [[|f|th f [| |r'| |]]|]; try done. cbn. intros [= ->]. by exists th, f.
Qed.
Definition types_after {U} (ro : router U) (w : world U) (x : option (option req)) : option (list (bytes * bytes)) :=
  match x with
  | Some (Some r) => match dispatch ro (rt_path (rq_route r)) (ctx_new r resp_new) w with Ok (_, w') => Some (map_to_list (w_custom w')) | _ => None end
  | _ => None
  end.
Lemma types_writes {U} (ro : router U) w r l : types_after ro w (Some (Some r)) = Some l -> l <> map_to_list (w_custom w) -> writes_table ro w r.
Proof.
  cbn [types_after]. destruct (dispatch ro _ _ w) as [[c' w']| | | | |] eqn:E; try done. intros [= <-] Hne.
  exists c', w'. split; [done|]. intros Heq. apply Hne. by rewrite Heq.
Qed.

Lemma dir_router_ok : serves_files any True dir_router.
Proof.
  assert (H : match group_StaticDir any [] (B "/s") (B "/srv") [] (router_new (U := unit)) with Ok (rc, _) => (rc =? kSuccess)%Z | _ => false end = true) by (by vm_compute).
  unfold dir_router. destruct (group_StaticDir any [] (B "/s") (B "/srv") [] router_new) as [[rc ro]| | | | |] eqn:E; [|discriminate..].
  exact (sf_dir any True router_new [] (B "/s") (B "/srv") [] rc ro (sf_new any True) I E).
Qed.
Lemma file_router_ok : serves_files any False file_router.
Proof.
  assert (H : match group_StaticFile any [] (B "/n") (B "/srv//a.md") [] (router_new (U := unit)) with Ok (rc, _) => (rc =? kSuccess)%Z | _ => false end = true) by (by vm_compute).
  unfold file_router. destruct (group_StaticFile any [] (B "/n") (B "/srv//a.md") [] router_new) as [[rc ro]| | | | |] eqn:E; [|discriminate..].
  exact (sf_file any False router_new [] (B "/n") (B "/srv//a.md") [] rc ro (sf_new any False) E).
Qed.

Lemma both_run : exists s, t_run false map_to_list dir_router [] (t_new 2 md_world) (both_ask "/s/a.md") = Some s /\ table_race dir_router s.
Proof.
  assert (H : match t_run false map_to_list dir_router [] (t_new 2 md_world) (both_ask "/s/a.md") with
    | Some s => Some (types_after dir_router (ts_world s) (running <$> (ts_workers s !! 0)), types_after dir_router (ts_world s) (running <$> (ts_workers s !! 1)),
                      map_to_list (w_custom (ts_world s)))
    | None => None end = Some (Some [([], []); (B "md", B "text/markdown")], Some [([], []); (B "md", B "text/markdown")], [(B "md", B "text/markdown")]))
    by (by vm_compute).
  destruct (t_run false map_to_list dir_router [] (t_new 2 md_world) (both_ask "/s/a.md")) as [s|]; [|discriminate].
  exists s. split; [reflexivity|]. apply Some_inj in H.
  assert (H1 := f_equal (fun x => x.1.1) H). assert (H2 := f_equal (fun x => x.1.2) H). assert (H3 := f_equal snd H). clear H. cbn [fst snd] in H1, H2, H3.
  assert (Hr : forall i l, types_after dir_router (ts_world s) (running <$> (ts_workers s !! i)) = Some l -> exists r, running <$> (ts_workers s !! i) = Some (Some r)).
  { clear. intros i l H. destruct (running <$> (ts_workers s !! i)) as [[r|]|]; [by exists r|discriminate H..]. }
  destruct (Hr _ _ H1) as (r1 & R1). destruct (Hr _ _ H2) as (r2 & R2). rewrite R1 in H1. rewrite R2 in H2. clear Hr.
  destruct (running_at s 0 r1 R1) as (ta & fa & W1). destruct (running_at s 1 r2 R2) as (tb & fb & W2).
  apply types_writes in H1; [|rewrite H3; clear; by intros ?]. apply types_writes in H2; [|rewrite H3; clear; by intros ?].
  exists 0, 1, ta, tb, fa, fb, r1, r2. split; [lia|]. split; [exact W1|]. split; [exact W2|]. split; [exact H1|exact H2].
Qed.

(** A type is registered for .md; two threads serve a file of that name in a directory. *)
Theorem table_safe_refuted : ~ table_safe_full.
Proof.
  intros H. destruct both_run as (s & E & Hrace).
  exact (H unit any dir_router false map_to_list [] 2 md_world (both_ask "/s/a.md") s dir_router_ok E Hrace).
Qed.

(** With StaticFile, two threads are about to run the handler and the table stays. *)
Example table_safe_ex : exists s,
  t_run false map_to_list file_router [] (t_new 2 md_world) (both_ask "/n" ++ [TRun 0 (WTake 500)]) = Some s /\
  w_custom (ts_world s) = {[ B "md" := B "text/markdown" ]} /\ ~ table_race file_router s /\
  map (fun c => length (tn_sent c.2)) (map_to_list (ts_conns s)) = [94; 0].
Proof.
  assert (H : match t_run false map_to_list file_router [] (t_new 2 md_world) (both_ask "/n" ++ [TRun 0 (WTake 500)]) with
    | Some s => Some (map (fun c => length (tn_sent c.2)) (map_to_list (ts_conns s))) | None => None end = Some [94; 0]) by (by vm_compute).
  destruct (t_run false map_to_list file_router [] (t_new 2 md_world) (both_ask "/n" ++ [TRun 0 (WTake 500)])) as [s|] eqn:E; [|discriminate].
  exists s. split; [reflexivity|]. apply Some_inj in H.
  destruct (table_safe_partial unit any False file_router false map_to_list [] 2 md_world _ s file_router_ok ltac:(by intros []) E) as [H1 H2].
  split; [exact H1|]. split; [exact H2|exact H].
Qed.

Print Assumptions table_safe_partial.
Print Assumptions table_safe_refuted.
