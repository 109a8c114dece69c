(** C216-C219: an HTTPS server with worker threads
    (src/cppnet/http/server/http_server.cpp on src/cppnet/server/tcp_server.cpp in mode
    kMultiThread). *)
From Verif.Lib Require Import CxxStringFacts.
From Verif.Proof Require Import RouteProof ReqProof SocketProof RouterProof ServerProof HttpSystemProof HttpsSystemProof.
From Verif.Spec Require Import SocketSpec RouterSpec SslSpec.
From Verif.Props Require Import SocketProps RouterProps ServerProps HttpSystemProps.
From Verif.Props Require HttpsSystemProps.
From Verif.Model Require Import HttpsThreads.
From Verif.Proof Require Import HttpsThreadsProof.

(** The records that the peer of [i] sends. *)
Definition records_sent (i : nat) (ls : list slab) : list bytes :=
  ls ≫= fun l => match l with LSend j bs => if decide (j = i) then [bs] else [] | _ => [] end.
Lemma records_sent_by i ls : records_sent i ls = srecs_by i ls.
Proof. done. Qed.

(** No task and no worker uses the number [f]. *)
Definition number_unused {U} (f : nat) (s : ssys U) : Prop :=
  f ∉ ss_queue s /\ forall w x, ss_workers s !! w = Some x -> swst_fd x <> Some f.
(** When connection [i] was accepted, its number was not in use. *)
Definition own_number {U} hit (ro : router U) e (s0 : ssys U) (i : nat) (ls : list slab) : Prop :=
  forall pre f post s, ls = pre ++ LAccept i f :: post -> s_run hit ro e s0 pre = Some s -> number_unused f s.

(** No step of the server is possible. *)
Definition at_rest {U} hit (ro : router U) e (s : ssys U) : Prop :=
  ss_down s = false /\ forall l, s_by_server l -> s_step hit ro e s l = None.

(** ** C216 *)

(** The peer of [i] shakes hands, sends requests and does not close; no wait for it times
    out and writing to it works; the server has nothing left to do, and no connection
    waits for a worker. *)
Definition https_threads_answer_full : Prop := forall U hit (ro : router U) e n w ls s i c texts rs,
  valid_order hit -> s_run hit ro e (s_new n w) ls = Some s -> at_rest hit ro e s -> ss_queue s = [] ->
  ss_conns s !! i = Some c -> requests texts rs -> Forall (tame ro) rs ->
  concat (records_sent i ls) = concat texts -> Forall (sstays i) ls -> scalm_run hit ro e (s_new n w) i ls ->
  Forall2 (answers ro) rs (sc_out c).

(** Missing: requests that share a record; a number that a worker still uses. *)
Theorem https_threads_answer_partial : forall U hit (ro : router U) e n w ls s i c recss rs,
  valid_order hit -> s_run hit ro e (s_new n w) ls = Some s -> at_rest hit ro e s -> ss_queue s = [] ->
  ss_conns s !! i = Some c -> requests (map (@concat ascii) recss) rs -> Forall (tame ro) rs ->
  records_sent i ls = concat recss -> Forall filled recss -> Forall (sstays i) ls ->
  scalm_run hit ro e (s_new n w) i ls -> own_number hit ro e (s_new n w) i ls ->
  Forall2 (answers ro) rs (sc_out c) /\ exists f, ss_fds s !! f = Some i.
Proof.
  intros U hit ro e n w ls s i c recss rs Hit Hrun [Hd Hrest] Hq Hc Hreq Ht Hall Hfill Hst Hcalm Hown.
  rewrite records_sent_by in Hall.
  destruct (sholds_run hit ro e n w ls s i c recss rs Hit Hreq Ht Hfill Hrun Hcalm Hst Hown) as (f & o & k & Hh); [by rewrite Hall|done|].
  split; [|exists f; by apply fr_fd, (sh_frame _ _ _ _ _ _ _ _ _ _ Hh)].
  destruct o as [|v x|].
  - exfalso. destruct (sh_uses _ _ _ _ _ _ _ _ _ _ Hh) as [(q1 & q2 & Eq & _) _]. rewrite Hq in Eq. by destruct q1.
  - eapply sall_done; [done|done|done|]. destruct (decide (sc_wire c = [])) as [|Hne]; [done|exfalso].
    destruct (can_go hit ro e 0 s v x f i c k recss rs ls Hit Hreq Ht Hfill Hd Hall Hh Hne) as (s' & Hs & _).
    by rewrite Hrest in Hs.
  - by destruct (sh_place _ _ _ _ _ _ _ _ _ _ Hh).
Qed.
Print Assumptions https_threads_answer_partial.

(** ** C217 *)

(** Number of connections accepted. *)
Definition accepted (ls : list slab) : nat :=
  sum_list_with (fun l => match l with LAccept _ _ => 1 | _ => 0 end) ls.
Lemma accepted_count ls : accepted ls = snaccepted ls.
Proof.
  unfold accepted, snaccepted. induction ls as [|l ls IH]; [done|]. destruct l; cbn; by rewrite IH.
Qed.

(** Steps of the server alone answer what the peer of [i] has asked. *)
Definition https_threads_available_full : Prop := forall U hit (ro : router U) e n w ls s i c recss rs,
  valid_order hit -> 0 < n -> s_run hit ro e (s_new n w) ls = Some s -> ss_down s = false ->
  ss_conns s !! i = Some c -> requests (map (@concat ascii) recss) rs -> Forall (tame ro) rs ->
  records_sent i ls = concat recss -> Forall filled recss -> Forall (sstays i) ls ->
  scalm_run hit ro e (s_new n w) i ls -> own_number hit ro e (s_new n w) i ls ->
  exists ls' s' c', Forall s_by_server ls' /\ s_run hit ro e s ls' = Some s' /\ ss_conns s' !! i = Some c' /\
    Forall2 (answers ro) rs (sc_out c').

(** Missing: more connections than workers. *)
Theorem https_threads_available_partial : forall U hit (ro : router U) e n w ls s i c recss rs,
  valid_order hit -> accepted ls <= n -> s_run hit ro e (s_new n w) ls = Some s -> ss_down s = false ->
  ss_conns s !! i = Some c -> requests (map (@concat ascii) recss) rs -> Forall (tame ro) rs ->
  records_sent i ls = concat recss -> Forall filled recss -> Forall (sstays i) ls ->
  scalm_run hit ro e (s_new n w) i ls -> own_number hit ro e (s_new n w) i ls ->
  exists ls' s' c', Forall s_by_server ls' /\ s_run hit ro e s ls' = Some s' /\ ss_conns s' !! i = Some c' /\
    Forall2 (answers ro) rs (sc_out c').
Proof.
  intros U hit ro e n w ls s i c recss rs Hit Hacc Hrun Hd Hc Hreq Ht Hall Hfill Hst Hcalm Hown.
  rewrite records_sent_by in Hall. rewrite accepted_count in Hacc.
  destruct (sholds_run hit ro e n w ls s i c recss rs Hit Hreq Ht Hfill Hrun Hcalm Hst Hown) as (f & o & k & Hh); [by rewrite Hall|done|].
  destruct (sload_run _ _ _ _ _ _ _ Hrun) as [L1 L2].
  eapply (serve_all hit ro e i recss rs f Hit Hreq Ht Hfill _ ls s o c k); try done; [by eapply ssane_run|lia|].
  intros ->. by destruct (sh_place _ _ _ _ _ _ _ _ _ _ Hh).
Qed.
Print Assumptions https_threads_available_partial.

(** ** C218 *)

(** A worker that waits in the middle of a request holds a session that is alive, the
    number still stands for the connection, and nobody else uses the number. *)
Definition https_session_safe_full : Prop := forall U hit (ro : router U) e n w ls s v f i c,
  s_run hit ro e (s_new n w) ls = Some s -> ss_workers s !! v = Some (SRead f i) -> ss_conns s !! i = Some c ->
  sc_sess c = Live /\ ss_fds s !! f = Some i /\ ss_map s !! f = Some i /\
  forall v' x, v' <> v -> ss_workers s !! v' = Some x -> swst_fd x <> Some f.

(** Missing: a number that a worker still used when the connection was accepted. *)
Theorem https_session_safe_partial : forall U hit (ro : router U) e n w ls s v f i c,
  s_run hit ro e (s_new n w) ls = Some s -> ss_workers s !! v = Some (SRead f i) -> ss_conns s !! i = Some c ->
  own_number hit ro e (s_new n w) i ls ->
  sc_sess c = Live /\ ss_fds s !! f = Some i /\ ss_map s !! f = Some i /\
  forall v' x, v' <> v -> ss_workers s !! v' = Some x -> swst_fd x <> Some f.
Proof.
  intros U hit ro e n w ls s v f i c Hrun Hv Hc Hown.
  destruct (life_run hit ro e n w ls s i Hrun Hown c Hc) as [(g & o & F & Hu & Hh)|(_ & Hx & _)]; [|by destruct (Hx v f)].
  pose proof (fr_read _ _ _ F v f Hv) as ->.
  destruct o as [|v1 x1|]; [by apply (proj2 Hu) in Hv| |by apply (proj2 Hu) in Hv].
  destruct Hu as (Hq & Hw & Hf & Hu). assert (v = v1) as <- by (by eapply Hu). rewrite Hv in Hw. injection Hw as <-.
  destruct Hh as (_ & Hl & Hm). split; [done|]. split; [by apply fr_fd|]. split; [done|].
  intros v' x Hne Hx Hxf. by eapply Hne, Hu.
Qed.
Print Assumptions https_session_safe_partial.

(** ** C219 *)

(** A connection whose session has been freed keeps its number. *)
Theorem https_threads_numbers_kept : forall U hit (ro : router U) e n w ls s i c,
  s_run hit ro e (s_new n w) ls = Some s -> own_number hit ro e (s_new n w) i ls ->
  ss_conns s !! i = Some c -> sc_sess c = Freed ->
  exists f, forall ls' s', s_run hit ro e s ls' = Some s' -> ss_fds s' !! f = Some i.
Proof.
  intros U hit ro e n w ls s i c Hrun Hown Hc Hfr.
  destruct (life_run hit ro e n w ls s i Hrun Hown c Hc) as [(f & o & F & Hu & Hh)|(_ & _ & [Hx|Hx])]; [|congruence..].
  assert (o = Nobody) as ->.
  { destruct o as [|v x|]; [by cbn in Hh; congruence| |done]. destruct x; cbn in Hh; naive_solver congruence. }
  exists f. pose proof (ssane_run _ _ _ _ _ _ _ Hrun) as Hsane. clear Hrun Hown Hc Hh.
  intros ls'. revert s Hsane F Hu. induction ls' as [|l ls' IH]; intros s Hsane F Hu s' Hs'.
  { injection Hs' as <-. by apply fr_fd. }
  cbn [s_run] in Hs'. destruct (s_step hit ro e s l) as [s1|] eqn:Hl; [|done]. cbn [mbind option_bind] in Hs'.
  assert (HF : frame f i s1 /\ uses f s1 Nobody); [|by eapply (IH s1); [eapply ssane_step|apply HF..|]].
  assert (Hno : ~ ours f i s l -> frame f i s1 /\ uses f s1 Nobody).
  { intros Hno. by destruct (frame_step _ _ _ _ _ _ _ _ _ Hsane Hl F Hu Hno) as (? & ? & _). }
  assert (Hput : forall j d, s1 = sconn_put s j d -> frame f i s1 /\ uses f s1 Nobody).
  { intros j d ->. by destruct F. }
  destruct l as [j g|j b|j bs|j|v|v wr|v wr].
  - apply Hno. cbn. tauto.
  - unfold s_step in Hl. destruct (ss_down s); [done|]. destruct (ss_conns s !! j); [|done]. cbn [mbind option_bind] in Hl.
    destruct (decide _); [|done]. injection Hl as Hl. by eapply Hput.
  - unfold s_step in Hl. destruct (ss_down s); [done|]. destruct (ss_conns s !! j); [|done]. cbn [mbind option_bind] in Hl.
    destruct (decide _); [|done]. injection Hl as Hl. by eapply Hput.
  - unfold s_step in Hl. destruct (ss_down s); [done|]. destruct (ss_conns s !! j); [|done]. cbn [mbind option_bind] in Hl.
    injection Hl as Hl. by eapply Hput.
  - apply Hno. intros [q Hq]. apply (proj1 Hu). rewrite Hq. left.
  - apply Hno. intros (x & Hx & Hf). by apply (proj2 Hu) in Hx.
  - apply Hno. intros (x & Hx & Hf). by apply (proj2 Hu) in Hx.
Qed.
Print Assumptions https_threads_numbers_kept.

(** ** C220 *)

(** Bytes that have arrived and are not yet part of a request. *)
Definition unread (c : sconn) : bytes := sc_buf c ++ concat (sc_wire c).
Definition write_result (l : slab) : option wres := match l with LGo _ wr | LTime _ wr => Some wr | _ => None end.
(** The step [l] is made by a worker that serves connection [i]. *)
Definition serves {U} (s : ssys U) (l : slab) (i : nat) : Prop :=
  exists v wr x f, (l = LGo v wr \/ l = LTime v wr) /\ ss_workers s !! v = Some x /\ swst_fd x = Some f /\ ss_fds s !! f = Some i.
(** Handlers that do not fail, and peers that read: the process stays up. *)
Definition https_threads_stay_up_full : Prop := forall U hit (ro : router U) e n w ls s,
  valid_order hit -> (forall p c w, ascii_only p -> is_ok (dispatch ro p c w)) ->
  s_run hit ro e (s_new n w) ls = Some s -> (forall i, own_number hit ro e (s_new n w) i ls) ->
  Forall (fun l => write_result l <> Some WSig) ls -> ss_down s = false.

(** As C162; in particular no session is used after it has been freed, and none by two
    workers at the same time. *)
Theorem https_threads_stay_up_partial : forall U hit (ro : router U) e n w ls s,
  s_run hit ro e (s_new n w) ls = Some s -> (forall i, own_number hit ro e (s_new n w) i ls) -> ss_down s = true ->
  exists ls1 l ls2 s1 i c, ls = ls1 ++ l :: ls2 /\ s_run hit ro e (s_new n w) ls1 = Some s1 /\
    serves s1 l i /\ ss_conns s1 !! i = Some c /\
    (~ short (unread c) \/ LF ∈ take 3 (unread c) \/ write_result l = Some WSig \/ handlers_fail ro (ss_world s1) (unread c)).
Proof.
  intros U hit ro e n w ls. induction ls as [|l ls IH] using rev_ind; intros s H Hown Hd; [by injection H as <-|].
  apply s_run_snoc in H as (s1 & H1 & Hl).
  assert (Hown1 : forall i, own_number hit ro e (s_new n w) i ls) by (intros i; exact (s_own_number_snoc _ _ _ _ _ _ _ (Hown i))).
  destruct (ss_down s1) eqn:Hd1; [unfold s_step in Hl; by rewrite Hd1 in Hl|].
  destruct (down_call hit ro e n w ls s1 l s H1 Hown1 Hl Hd) as (v & wr & more & f & i & c & Hcase & (x & Hx & Hxf) & Hf & Hc & Hcall).
  exists ls, l, [], s1, i, c. split; [done|]. split; [done|].
  split; [exists v, wr, x, f; split; [destruct Hcase as [[-> _]|[-> _]]; by auto|done]|]. split; [done|].
  destruct (decide (short (unread c))) as [Hs|]; [right|by left].
  unfold s_call in Hcall. rewrite bool_decide_eq_true_2 in Hcall by done. set (t := Tls _ _ _) in Hcall.
  assert (Hst : tls_stream t = Stream (map Byte (unread c) ++ flat more) (if sc_fin c then Eof else Wait)).
  { unfold t, tls_stream, unread. cbn [tl_buf tl_items tl_tail]. f_equal. unfold flat at 1. rewrite bind_app.
    change (Rec <$> sc_wire c ≫= _) with (flat (Rec <$> sc_wire c)). rewrite flat_recs, map_app. by rewrite <- app_assoc. }
  assert (Hm : flat more = [] \/ flat more = [Gap]) by (destruct Hcase as [[_ ->]|[_ ->]]; [by left|by right]).
  assert (Hw : write_result l = Some wr) by (by destruct Hcase as [[-> _]|[-> _]]).
  destruct (HttpsSystemProps.handle_read_tls_cases hit wr ro e (ss_world s1) (unread c) (flat more) _ t Hs Hm Hst) as [[[v' t'] E]|[E|Hy]].
  - exfalso. rewrite E in Hcall. injection Hcall as <-. by destruct (sv_closed v').
  - exfalso. rewrite E in Hcall. destruct (decide _); [done|]. injection Hcall as <-. cbn in Hd. congruence.
  - rewrite Hw. destruct Hy as [?|[->|?]]; [by left|right; by left|right; by right].
Qed.
Print Assumptions https_threads_stay_up_partial.

(** ** Examples and refutations *)

Local Notation wn := HttpSystemProps.wn.

Lemma s_run_view {U A} hit (ro : router U) e s ls (g : ssys U -> A) v :
  match s_run hit ro e s ls with Some s' => Some (g s') | None => None end = Some v ->
  exists s', s_run hit ro e s ls = Some s' /\ g s' = v.
Proof. destruct (s_run hit ro e s ls) as [s'|]; [|done]. intros [= <-]. by exists s'. Qed.
(** What is looked at: a connection, the queue, the workers and the numbers. *)
Definition view (i : nat) (s : ssys nat) : option sconn * list nat * list swst * bool * list (nat * nat) :=
  (ss_conns s !! i, ss_queue s, ss_workers s, ss_down s, map_to_list (ss_fds s)).

Definition unused_ok {U} (f : nat) (s : ssys U) : bool :=
  forallb (fun g => negb (g =? f)) (ss_queue s) &&
  forallb (fun x => match swst_fd x with Some g => negb (g =? f) | None => true end) (ss_workers s).
Lemma unused_by {U} f (s : ssys U) : unused_ok f s = true -> number_unused f s.
Proof.
  intros H. apply andb_true_iff in H as [Hq Hw]. rewrite forallb_forall in Hq. rewrite forallb_forall in Hw. split.
  - intros Hf. apply elem_of_list_In, Hq, negb_true_iff in Hf. by apply Nat.eqb_neq in Hf.
  - intros w x Hx Hf. apply elem_of_list_lookup_2, elem_of_list_In, Hw in Hx. rewrite Hf in Hx.
    apply negb_true_iff, Nat.eqb_neq in Hx. done.
Qed.
Fixpoint checks {U} (p : ssys U -> slab -> bool) hit (ro : router U) e (s : ssys U) (ls : list slab) : bool :=
  match ls with
  | [] => true
  | l :: ls' => p s l && match s_step hit ro e s l with Some s' => checks p hit ro e s' ls' | None => true end
  end.
Lemma checks_at {U} p hit (ro : router U) e s0 pre l post s :
  checks p hit ro e s0 (pre ++ l :: post) = true -> s_run hit ro e s0 pre = Some s -> p s l = true.
Proof.
  revert s0. induction pre as [|l0 pre IH]; intros s0 H Hrun; cbn in H.
  - injection Hrun as ->. by apply andb_true_iff in H as [? _].
  - apply andb_true_iff in H as [_ H]. cbn in Hrun. destruct (s_step hit ro e s0 l0) as [s1|]; [|done]. by eapply IH.
Qed.
Lemma own_by {U} hit (ro : router U) e s0 i ls :
  checks (fun s l => match l with LAccept j f => negb (j =? i) || unused_ok f s | _ => true end) hit ro e s0 ls = true ->
  own_number hit ro e s0 i ls.
Proof.
  intros H pre f post s -> Hrun. apply unused_by. pose proof (checks_at _ _ _ _ _ _ _ _ _ H Hrun) as Hc. cbn in Hc.
  by rewrite Nat.eqb_refl in Hc.
Qed.
(** Checking that no wait for the peer of [i] times out, and writing to it works. *)
Definition elsewhere_ok {U} (i : nat) (s : ssys U) (w : nat) : bool :=
  match ss_workers s !! w with
  | Some x => match swst_fd x with
      | Some f => match ss_fds s !! f with Some j => negb (j =? i) | None => true end
      | None => true end
  | None => true end.
Lemma elsewhere_by {U} i (s : ssys U) w : elsewhere_ok i s w = true -> elsewhere i s w.
Proof.
  unfold elsewhere_ok. intros H x f Hx Hf Hi. rewrite Hx, Hf, Hi in H. by rewrite Nat.eqb_refl in H.
Qed.
Lemma calm_by {U} hit (ro : router U) e s0 i ls :
  checks (fun s l => match l with LTime w _ => elsewhere_ok i s w
    | LGo w wr => match wr with WTake _ => true | _ => elsewhere_ok i s w end | _ => true end) hit ro e s0 ls = true ->
  scalm_run hit ro e s0 i ls.
Proof.
  intros H pre l post s -> Hrun. pose proof (checks_at _ _ _ _ _ _ _ _ _ H Hrun) as Hc. destruct l; try done; cbn in *.
  - destruct wr; [left; by eexists|right; by apply elsewhere_by..].
  - by apply elsewhere_by.
Qed.
Lemma rest_threads {U} hit (ro : router U) e (s : ssys U) : ss_down s = false -> ss_queue s = [] ->
  Forall (fun x => x = SFree \/ exists f j c, x = SPeek f /\ ss_fds s !! f = Some j /\ ss_conns s !! j = Some c /\
    raw c = false /\ sc_fin c = false) (ss_workers s) -> at_rest hit ro e s.
Proof.
  intros Hd Hq HF. split; [done|]. intros l Hl. unfold s_step. rewrite Hd. destruct l; try done.
  - rewrite Hq. by destruct (ss_workers s !! w) as [[]|].
  - destruct (ss_workers s !! w) as [x|] eqn:Ex; [|done]. cbn [mbind option_bind].
    destruct (proj1 (Forall_lookup _ _) HF w x Ex) as [->|(f & j & c & -> & E1 & E2 & E3 & E4)]; [done|].
    cbn [s_go]. rewrite E1, E2. cbn [mbind option_bind]. by rewrite E3, E4.
Qed.

Definition G (w : nat) : slab := LGo w (WTake 99).
(** A peer whose text is not a request: the server closes its number, which worker 0
    still uses. *)
Definition bad_peer : list slab :=
  [LAccept 0 5; LHello 0 true; LPop 0; G 0; LSend 0 (B "xxxx" ++ CRLFCRLF); G 0; G 0; G 0].
(** The kernel gives the number to the next peer; worker 0 frees its session. *)
Definition stale : list slab :=
  bad_peer ++ [LAccept 1 5; LHello 1 true; LPop 1; G 1; G 0; LSend 1 hi; G 1; G 1; G 1].
Lemma stale_end : exists s, s_run map_to_list echo_ro [] (s_new 2 wn) stale = Some s /\
  view 1 s = (Some (SConn [] [hi] 0 false (Some true) Freed [] []), [], [SFree; SFree], false, []).
Proof. apply s_run_view. by vm_compute. Qed.
Theorem https_threads_answer_refuted : ~ https_threads_answer_full.
Proof.
  intros H. destruct stale_end as (s & Hrun & [= Hc Hq Hw Hd _]).
  assert (E : Forall2 (answers echo_ro) [ex_req (B "hi")] []); [|inversion E].
  apply (H nat map_to_list echo_ro [] 2 wn stale s 1 (SConn [] [hi] 0 false (Some true) Freed [] []) [hi] [ex_req (B "hi")]);
    [apply valid_order_sorted|exact Hrun| |exact Hq|exact Hc|..].
  - apply rest_threads; [exact Hd|exact Hq|]. rewrite Hw. repeat constructor.
  - split; [|split]; repeat constructor; [apply hi_req|by_compute].
  - repeat constructor. apply echo_tame; [by_compute|by vm_compute].
  - by vm_compute.
  - repeat constructor; done.
  - apply calm_by. by vm_compute.
Qed.
Print Assumptions https_threads_answer_refuted.

(** The same with a fresh number; a third peer connects and says nothing, until its
    handshake times out. *)
Definition fresh : list slab :=
  bad_peer ++ [LAccept 1 6; LHello 1 true; LPop 1; G 1; G 0; LAccept 2 7; LPop 0; LSend 1 (take 10 hi); G 1; G 1; LTime 0 WFail;
    LSend 1 (drop 10 hi); G 0; G 1; LSend 1 yo; G 1; G 1].
Definition hi_yo_recs : list (list bytes) := [[take 10 hi; drop 10 hi]; [yo]].
Definition done1 : sconn :=
  SConn [] [] 0 false (Some true) Live [ok_text (B "hi"); ok_text (B "yo")] (ok_text (B "hi") ++ ok_text (B "yo")).
Lemma fresh_end : exists s, s_run map_to_list echo_ro [] (s_new 2 wn) fresh = Some s /\
  view 1 s = (Some done1, [], [SFree; SPeek 6], false, [(6, 1)]).
Proof. apply s_run_view. by vm_compute. Qed.
Example https_threads_answer_ex :
  Forall2 (answers echo_ro) [ex_req (B "hi"); ex_req (B "yo")] [ok_text (B "hi"); ok_text (B "yo")].
Proof.
  destruct fresh_end as (s & Hrun & [= Hc Hq Hw Hd Hf]).
  refine (proj1 (https_threads_answer_partial nat map_to_list echo_ro [] 2 wn fresh s 1 done1 hi_yo_recs _
    valid_order_sorted Hrun _ Hq Hc _ (proj2 hi_yo) ltac:(by vm_compute) _ _ _ _)).
  - apply rest_threads; [exact Hd|exact Hq|]. rewrite Hw. constructor; [by left|]. constructor; [|constructor]. right.
    clear Hrun. exists 6, 1, done1. split; [reflexivity|]. split; [|split; [exact Hc|split; vm_compute; reflexivity]].
    apply elem_of_map_to_list. rewrite Hf. left.
  - replace (map (@concat ascii) hi_yo_recs) with [hi; yo] by (by vm_compute). exact (proj1 hi_yo).
  - clear Hrun. repeat constructor; by vm_compute.
  - clear Hrun. repeat constructor; done.
  - clear Hrun. apply calm_by. by vm_compute.
  - clear Hrun. apply own_by. by vm_compute.
Qed.

(** Two threads, one of which waits for a peer that says nothing. *)
Definition mute : list slab := [LAccept 0 5; LPop 0; LAccept 1 6; LHello 1 true; LSend 1 hi].
Definition waiting1 : sconn := SConn [] [hi] 0 false (Some true) NoSess [] [].
Lemma mute_end n ws : (n = 1 /\ ws = [SAcc 5]) \/ (n = 2 /\ ws = [SAcc 5; SFree]) ->
  exists s, s_run map_to_list echo_ro [] (s_new n wn) mute = Some s /\
    (view 1 s, ss_conns s !! 0, ss_fds s !! 5) = (Some waiting1, [6], ws, false, [(5, 0); (6, 1)], Some sconn_new, Some 0).
Proof. intros [[-> ->]|[-> ->]]; apply (s_run_view map_to_list echo_ro [] _ mute (fun s => (view 1 s, ss_conns s !! 0, ss_fds s !! 5))); by vm_compute. Qed.
Example https_threads_available_ex : exists s ls' s' c', s_run map_to_list echo_ro [] (s_new 2 wn) mute = Some s /\
  Forall s_by_server ls' /\ s_run map_to_list echo_ro [] s ls' = Some s' /\ ss_conns s' !! 1 = Some c' /\
  Forall2 (answers echo_ro) [ex_req (B "hi")] (sc_out c').
Proof.
  destruct (mute_end 2 _ (or_intror (conj eq_refl eq_refl))) as (s & Hrun & [= Hc Hq Hw Hd Hf _ _]). exists s.
  destruct (https_threads_available_partial nat map_to_list echo_ro [] 2 wn mute s 1 waiting1 [[hi]] [ex_req (B "hi")]
    valid_order_sorted ltac:(by vm_compute) Hrun Hd Hc) as (ls' & s' & c' & H).
  - replace (map (@concat ascii) [[hi]]) with [hi] by (by vm_compute).
    split; [|split]; repeat constructor; [apply hi_req|by_compute].
  - repeat constructor. apply echo_tame; [by_compute|by vm_compute].
  - by vm_compute.
  - repeat constructor. by vm_compute.
  - repeat constructor; done.
  - apply calm_by. by vm_compute.
  - apply own_by. by vm_compute.
  - exists ls', s', c'. exact (conj Hrun H).
Qed.
Theorem https_threads_available_refuted : ~ https_threads_available_full.
Proof.
  intros H. destruct (mute_end 1 _ (or_introl (conj eq_refl eq_refl))) as (s & Hrun & [= Hc Hq Hw Hd Hf H0 H5]).
  destruct (H nat map_to_list echo_ro [] 1 wn mute s 1 waiting1 [[hi]] [ex_req (B "hi")]
    valid_order_sorted ltac:(lia) Hrun Hd Hc) as (ls' & s' & c' & Hby & Hrun' & Hc' & Ha).
  - replace (map (@concat ascii) [[hi]]) with [hi] by (by vm_compute).
    split; [|split]; repeat constructor; [apply hi_req|by_compute].
  - repeat constructor. apply echo_tame; [by_compute|by vm_compute].
  - by vm_compute.
  - repeat constructor. by vm_compute.
  - repeat constructor; done.
  - apply calm_by. by vm_compute.
  - apply own_by. by vm_compute.
  - clear Hrun H. destruct Hby as [|l ls' Hl _].
    + injection Hrun' as <-. rewrite Hc in Hc'. injection Hc' as <-. inversion Ha.
    + cbn [s_run] in Hrun'. unfold s_step at 1 in Hrun'. rewrite Hd in Hrun'. destruct l as [| | | |v|v wr|]; try done.
      * rewrite Hw in Hrun'. destruct v as [|[]]; done.
      * rewrite Hw in Hrun'. destruct v as [|[]]; try done. cbn [lookup list_lookup mbind option_bind s_go] in Hrun'.
        rewrite H5, H0 in Hrun'. done.
Qed.
Print Assumptions https_threads_available_refuted.

(** Worker 1 waits for the rest of a request with a session that worker 0 frees. *)
Definition freed : list slab :=
  bad_peer ++ [LAccept 1 5; LHello 1 true; LPop 1; G 1; LSend 1 (take 10 hi); G 1; G 1; G 0].
Lemma freed_end : exists s, s_run map_to_list echo_ro [] (s_new 2 wn) freed = Some s /\
  view 1 s = (Some (SConn [] [take 10 hi] 1 false (Some true) Freed [] []), [], [SFree; SRead 5 1], false, [(5, 1)]).
Proof. apply s_run_view. by vm_compute. Qed.
Theorem https_session_safe_refuted : ~ https_session_safe_full.
Proof.
  intros H. destruct freed_end as (s & Hrun & [= Hc _ Hw _ _]).
  destruct (H nat map_to_list echo_ro [] 2 wn freed s 1 5 1 _ Hrun ltac:(by rewrite Hw) Hc) as [Hl _]. done.
Qed.
Print Assumptions https_session_safe_refuted.
(** With numbers of their own, a worker waits while another one frees the session of a
    peer that has gone. *)
Definition apart : list slab :=
  [LAccept 0 5; LHello 0 true; LPop 0; G 0; LAccept 1 6; LHello 1 true; LPop 1; G 1; LSend 1 (take 10 hi); G 1; G 1;
   LFin 0; G 0; G 0].
Lemma apart_end : exists s, s_run map_to_list echo_ro [] (s_new 2 wn) apart = Some s /\
  (view 1 s, ss_conns s !! 0) =
  (Some (SConn [] [take 10 hi] 1 false (Some true) Live [] []), [], [SFree; SRead 6 1], false, [(5, 0); (6, 1)],
   Some (SConn [] [] 0 true (Some true) Freed [] [])).
Proof. apply (s_run_view map_to_list echo_ro [] _ apart (fun s => (view 1 s, ss_conns s !! 0))). by vm_compute. Qed.
Example https_session_safe_ex : exists s, s_run map_to_list echo_ro [] (s_new 2 wn) apart = Some s /\
  ss_fds s !! 6 = Some 1 /\ ss_map s !! 6 = Some 1.
Proof.
  destruct apart_end as (s & Hrun & [= Hc _ Hw _ _ _]). exists s. split; [exact Hrun|].
  destruct (https_session_safe_partial nat map_to_list echo_ro [] 2 wn apart s 1 6 1 _ Hrun ltac:(by rewrite Hw) Hc) as (_ & H1 & H2 & _).
  - apply own_by. by vm_compute.
  - exact (conj H1 H2).
Qed.
Example https_threads_numbers_kept_ex : exists s f, s_run map_to_list echo_ro [] (s_new 2 wn) apart = Some s /\
  forall ls' s', s_run map_to_list echo_ro [] s ls' = Some s' -> ss_fds s' !! f = Some 0.
Proof.
  destruct apart_end as (s & Hrun & [= _ _ _ _ _ H0]). exists s.
  destruct (https_threads_numbers_kept nat map_to_list echo_ro [] 2 wn apart s 0 (SConn [] [] 0 true (Some true) Freed [] []) Hrun) as [f Hf].
  - apply own_by. by vm_compute.
  - exact H0.
  - reflexivity.
  - exists f. exact (conj Hrun Hf).
Qed.

(** A peer that has shaken hands and sends a line feed. *)
Definition line_feed : list slab := [LAccept 0 5; LHello 0 true; LPop 0; G 0; LSend 0 (CRLF ++ hi); G 0; G 0].
Lemma line_feed_end : exists s, s_run map_to_list echo_ro [] (s_new 2 wn) line_feed = Some s /\ ss_down s = true.
Proof. apply (s_run_view map_to_list echo_ro [] _ line_feed ss_down). by vm_compute. Qed.
Lemma line_feed_own i : own_number map_to_list echo_ro [] (s_new 2 wn) i line_feed.
Proof.
  destruct (decide (i = 0)) as [->|Hi]; [apply own_by; by vm_compute|].
  intros pre f post s E _. exfalso. assert (Hin : LAccept i f ∈ line_feed) by (rewrite E; apply elem_of_app; right; left).
  clear E. unfold line_feed, G in Hin. repeat (apply elem_of_cons in Hin as [Hin|Hin]; [congruence|]). by apply elem_of_nil in Hin.
Qed.
Theorem https_threads_stay_up_refuted : ~ https_threads_stay_up_full.
Proof.
  intros H. destruct line_feed_end as (s & Hrun & Hd).
  assert (E : ss_down s = false); [|rewrite Hd in E; done].
  eapply (H nat map_to_list echo_ro [] 2 wn line_feed s); [apply valid_order_sorted|intros p c w Hp; rewrite echo_dispatch by exact Hp; eexists; reflexivity|exact Hrun|exact line_feed_own|].
  repeat constructor; done.
Qed.
Print Assumptions https_threads_stay_up_refuted.
Example https_threads_stay_up_ex : exists ls1 l ls2 s1 i c, line_feed = ls1 ++ l :: ls2 /\
  s_run map_to_list echo_ro [] (s_new 2 wn) ls1 = Some s1 /\ serves s1 l i /\ ss_conns s1 !! i = Some c /\
  (~ short (unread c) \/ LF ∈ take 3 (unread c) \/ write_result l = Some WSig \/ handlers_fail echo_ro (ss_world s1) (unread c)).
Proof.
  destruct line_feed_end as (s & Hrun & Hd).
  exact (https_threads_stay_up_partial nat map_to_list echo_ro [] 2 wn line_feed s Hrun line_feed_own Hd).
Qed.
(** Where a number has been given away, the process may end although no peer of the four
    kinds is there: worker 1 goes on with the session that worker 0 has freed. *)
Example freed_session_is_used : exists s, s_run map_to_list echo_ro [] (s_new 2 wn) (freed ++ [G 1]) = Some s /\ ss_down s = true.
Proof. apply (s_run_view map_to_list echo_ro [] _ (freed ++ [G 1]) ss_down). by vm_compute. Qed.
