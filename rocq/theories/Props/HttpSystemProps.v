(** C119-C124: an HTTP server with all its connections
    (src/cppnet/http/server/http_server.cpp on src/cppnet/server/tcp_server.cpp in
    mode kIOMultiplexing). *)
From Verif.Lib Require Import CxxStringFacts.
From Verif.Proof Require Import RouteProof ReqProof SocketProof RouterProof ServerProof HttpSystemProof.
From Verif.Spec Require Import SocketSpec RouterSpec.
From Verif.Props Require Import SocketProps RouterProps ServerProps.
From Verif.Model Require Import HttpSystem.

(** ** C119 *)

(** Two outcomes of handlers that leave the same context and the server running. *)
Definition same_answer {U} (o1 o2 : outcome (ctx * world U)) : Prop :=
  match o1, o2 with
  | Ok (c1, w1), Ok (c2, w2) => c1 = c2 /\ w_running w1 = true /\ w_running w2 = true
  | Throw e1, Throw e2 => e1 = e2
  | UB, UB | Diverge, Diverge | Blocked, Blocked | Terminate, Terminate => True
  | _, _ => False
  end.
(** What the handlers answer depends on the request, not on the application's state;
    no handler stops the server. *)
Definition stateless {U} (ro : router U) : Prop := forall p c w1 w2,
  w_running w1 = true -> w_running w2 = true -> same_answer (dispatch ro p c w1) (dispatch ro p c w2).

(** A server all of whose handlers are like this is. *)
Definition stateless_entry {U} (x : entry U) : Prop := forall h c w1 w2,
  e_callback x = Some h -> w_running w1 = true -> w_running w2 = true -> same_answer (h c w1) (h c w2).

Definition same_step {U} (o1 o2 : outcome (ctx * world U * bool)) : Prop :=
  same_answer (ofmap fst o1) (ofmap fst o2) /\ ofmap snd o1 = ofmap snd o2.

Lemma run_vector_stateless {U} (v : list (entry U)) is_end : Forall stateless_entry v ->
  forall c w1 w2, w_running w1 = true -> w_running w2 = true ->
  same_step (run_vector v is_end (c, w1)) (run_vector v is_end (c, w2)).
Proof.
  induction 1 as [|x v Hx HF IH]; intros c w1 w2 H1 H2; [done|]. cbn [run_vector fst snd].
  destruct (negb is_end && e_exact x); [by apply IH|].
  destruct (accepts x (cx_req c)); [|by apply IH].
  destruct (e_callback x) as [h|] eqn:E; [|by apply IH].
  specialize (Hx h c w1 w2 E H1 H2). unfold same_answer in Hx.
  destruct (h c w1) as [[c1 x1]| | | | |], (h c w2) as [[c2 x2]| | | | |]; try done; cbn [mbind outcome_bind].
  - destruct Hx as (<- & Hr1 & Hr2). cbn [fst snd]. rewrite Hr1, Hr2. by apply IH.
  - subst. done.
Qed.

Lemma dispatch_cb_stateless {U} (heap : list (list (entry U))) i is_end c w1 w2 :
  Forall (Forall stateless_entry) heap -> w_running w1 = true -> w_running w2 = true ->
  same_step (dispatch_cb heap (c, w1) i is_end) (dispatch_cb heap (c, w2) i is_end).
Proof.
  intros H H1 H2. unfold dispatch_cb. destruct (heap !! i) as [v|] eqn:E; [|done].
  apply run_vector_stateless; [|done..]. by eapply Forall_lookup_1 in E.
Qed.

Lemma stateless_router {U} (ro : router U) : Forall (Forall stateless_entry) (ro_heap ro) -> stateless ro.
Proof.
  intros H. set (S0 := fun o1 o2 : outcome (ctx * world U) => same_answer o1 o2).
  assert (Hv : forall nd is_end (f g : ctx * world U -> outcome (ctx * world U)) c w1 w2,
    w_running w1 = true -> w_running w2 = true ->
    (forall c w1 w2, w_running w1 = true -> w_running w2 = true -> same_answer (f (c, w1)) (f (c, w2))) ->
    (forall c w1 w2, w_running w1 = true -> w_running w2 = true -> same_answer (g (c, w1)) (g (c, w2))) ->
    same_answer (r ← visit (dispatch_cb (ro_heap ro)) (c, w1) nd is_end; if r.2 : bool then f r.1 else g r.1)
                (r ← visit (dispatch_cb (ro_heap ro)) (c, w2) nd is_end; if r.2 : bool then f r.1 else g r.1)).
  { intros nd is_end f g c w1 w2 H1 H2 Hf Hg. unfold visit.
    destruct (n_data nd) as [i|]; [|done].
    pose proof (dispatch_cb_stateless (ro_heap ro) i is_end c w1 w2 H H1 H2) as [Ha Hb].
    destruct (dispatch_cb (ro_heap ro) (c, w1) i is_end) as [[[c1 x1] b1]| | | | |],
             (dispatch_cb (ro_heap ro) (c, w2) i is_end) as [[[c2 x2] b2]| | | | |];
      cbn [ofmap mbind outcome_bind fst snd same_answer] in *; try done.
    destruct Ha as (-> & Hr1 & Hr2). injection Hb as ->. destruct b2; [by apply Hf|by apply Hg]. }
  assert (Hok : forall c (w1 w2 : world U), w_running w1 = true -> w_running w2 = true ->
    same_answer (Ok (c, w1)) (Ok (c, w2))) by done.
  assert (Hloop : forall k nd pos c w1 w2, w_running w1 = true -> w_running w2 = true ->
    same_answer (search_loop (dispatch_cb (ro_heap ro)) k nd pos (c, w1))
                (search_loop (dispatch_cb (ro_heap ro)) k nd pos (c, w2))).
  { induction k as [|ch k IH]; intros nd pos c w1 w2 H1 H2; cbn [search_loop].
    - destruct (n_stop nd && (pos =? length (n_key nd))); [|done].
      pose proof (Hv nd true (fun x => Ok x) (fun x => Ok x) c w1 w2 H1 H2 Hok Hok) as Hx.
      destruct (visit _ (c, w1) nd true) as [[? []]| | | | |], (visit _ (c, w2) nd true) as [[? []]| | | | |]; exact Hx.
    - destruct (pos <? length (n_key nd)).
      + destruct (n_key nd !! pos) as [d|]; [|done]. destruct (Ascii.eqb d ch); [by apply IH|done].
      + assert (Hdesc : forall c w1 w2, w_running w1 = true -> w_running w2 = true ->
          same_answer (s ← slot nd ch; match s with None => Ok (c, w1) | Some x => search_loop (dispatch_cb (ro_heap ro)) k x 1 (c, w1) end)
                      (s ← slot nd ch; match s with None => Ok (c, w2) | Some x => search_loop (dispatch_cb (ro_heap ro)) k x 1 (c, w2) end)).
        { intros c' x1 x2 Hx1 Hx2. destruct (slot nd ch) as [[x|]| | | | |]; cbn [mbind outcome_bind]; try done. by apply IH. }
        destruct (n_stop nd); [|by apply Hdesc].
        apply (Hv nd false (fun st => s ← slot nd ch; match s with None => Ok st | Some x => search_loop (dispatch_cb (ro_heap ro)) k x 1 st end)
                  (fun st => Ok st)); done. }
  intros p c w1 w2 H1 H2. unfold dispatch, search_node.
  assert (Hrest : forall c w1 w2, w_running w1 = true -> w_running w2 = true ->
    same_answer (match p with [] => Ok (c, w1) | ch :: _ => s ← slot (ro_trie ro) ch;
                   match s with None => Ok (c, w1) | Some x => search_loop (dispatch_cb (ro_heap ro)) p x 0 (c, w1) end end)
                (match p with [] => Ok (c, w2) | ch :: _ => s ← slot (ro_trie ro) ch;
                   match s with None => Ok (c, w2) | Some x => search_loop (dispatch_cb (ro_heap ro)) p x 0 (c, w2) end end)).
  { intros c' x1 x2 Hx1 Hx2. destruct p as [|ch p]; [done|].
    destruct (slot (ro_trie ro) ch) as [[x|]| | | | |]; cbn [mbind outcome_bind]; try done. by apply Hloop. }
  destruct (n_stop (ro_trie ro)); [|by apply Hrest].
  apply (Hv (ro_trie ro) _ (fun st => match p with [] => Ok st | ch :: _ => s ← slot (ro_trie ro) ch;
            match s with None => Ok st | Some x => search_loop (dispatch_cb (ro_heap ro)) p x 0 st end end) (fun st => Ok st)); done.
Qed.

(** What can be seen of two calls of HandleRead is the same. *)
Definition same_served {U} (o1 o2 : outcome (served U)) : Prop :=
  match o1, o2 with
  | Ok v1, Ok v2 => sv_rest v1 = sv_rest v2 /\ sv_wrote v1 = sv_wrote v2 /\ sv_sent v1 = sv_sent v2 /\
      sv_closed v1 = sv_closed v2 /\ w_running (sv_world v1) = true /\ w_running (sv_world v2) = true
  | Throw e1, Throw e2 => e1 = e2
  | UB, UB | Diverge, Diverge | Blocked, Blocked | Terminate, Terminate => True
  | _, _ => False
  end.

Lemma answer_stateless {U} hit wr (ro : router U) r e w1 w2 s : stateless ro ->
  w_running w1 = true -> w_running w2 = true ->
  same_served (answer hit wr ro r e w1 s) (answer hit wr ro r e w2 s).
Proof.
  intros H H1 H2. unfold answer. specialize (H (rt_path (rq_route r)) (ctx_new r resp_new) w1 w2 H1 H2).
  destruct (dispatch _ _ _ w1) as [[c1 x1]| | | | |], (dispatch _ _ _ w2) as [[c2 x2]| | | | |];
    cbn [mbind outcome_bind fst snd same_answer] in *; try done.
  destruct H as (<- & Hr1 & Hr2). unfold respond. destruct (resp_build hit _ []) as [[rc p2] buf].
  destruct (negb (rc =? kSuccess)%Z).
  - destruct (resp_build hit _ buf) as [[rc' p3] buf3]. by destruct (sock_write wr buf3) as [[len sent]| | | | |].
  - by destruct (sock_write wr buf) as [[len sent]| | | | |].
Qed.

Lemma handle_read_stateless {U} hit wr (ro : router U) e w1 w2 s : stateless ro ->
  w_running w1 = true -> w_running w2 = true ->
  same_served (handle_read hit wr ro e w1 s) (handle_read hit wr ro e w2 s).
Proof.
  intros H H1 H2. unfold handle_read.
  destruct (read_until [] CRLFCRLF s) as [[[len buf] s1]| | | | |]; cbn [mbind outcome_bind]; try done.
  destruct (len <=? 0)%Z; [done|].
  destruct (req_parse req_new buf) as [[rc r]| | | | |]; cbn [mbind outcome_bind]; try done.
  destruct (negb (rc =? kSuccess)%Z).
  { destruct (resp_build hit _ []) as [[rc' p] rb]. by destruct (sock_write wr rb) as [[z sent]| | | | |]. }
  destruct (0 <? header_get_content_length (rq_header r))%Z; [|by apply answer_stateless].
  destruct (read_string _ _ _ _) as [[[rc' b] s2]| | | | |]; cbn [mbind outcome_bind]; try done.
  destruct (rc' <=? 0)%Z; [done|]. by apply answer_stateless.
Qed.

(** The system [s'] in which only [i] exists, beside [s]. *)
Definition alone {U} (i : nat) (s s' : hsys U) : Prop :=
  (sy_conns s' !! i = sy_conns s !! i /\ w_running (sy_world s) = true /\ w_running (sy_world s') = true) /\
  (sy_thr s <> TDown -> sy_thr s' = if decide (sy_thr s = TIn i) then TIn i else TFree).

Lemma read_event_running {U} hit (ro : router U) e wr m i c s :
  stateless ro -> w_running (sy_world s) = true -> w_running (sy_world (read_event hit ro e wr m i c s)) = true.
Proof.
  intros H Hw. unfold read_event.
  pose proof (handle_read_stateless hit wr ro e (sy_world s) (sy_world s)
    (Stream (map Byte (hn_in c) ++ m) (if hn_fin c then Eof else Wait)) H Hw Hw) as E.
  destruct (handle_read _ _ _ _ _ _) as [v| | | | |]; cbn [same_served] in E; try done. apply E.
Qed.

Lemma read_event_alone {U} hit (ro : router U) e wr m i c s s' :
  stateless ro -> sy_conns s' !! i = sy_conns s !! i -> w_running (sy_world s) = true -> w_running (sy_world s') = true ->
  let t := read_event hit ro e wr m i c s in let t' := read_event hit ro e wr m i c s' in
  alone i t t' /\ (sy_thr t' = TIn i <-> sy_thr t = TIn i).
Proof.
  intros H Hc Hw Hw' t t'.
  pose proof (read_event_running hit ro e wr m i c s H Hw) as Hr.
  pose proof (read_event_running hit ro e wr m i c s' H Hw') as Hr'.
  unfold t, t', read_event in *.
  pose proof (handle_read_stateless hit wr ro e (sy_world s) (sy_world s')
    (Stream (map Byte (hn_in c) ++ m) (if hn_fin c then Eof else Wait)) H Hw Hw') as E.
  destruct (handle_read _ _ _ _ (sy_world s) _) as [v| | | | |],
           (handle_read _ _ _ _ (sy_world s') _) as [v'| | | | |]; cbn [same_served] in E; try done;
    unfold alone; cbn [sy_conns sy_thr sy_world] in *.
  - destruct E as (E1 & E2 & E3 & E4 & _). rewrite !lookup_insert, E1, E2, E3, E4.
    rewrite decide_False by done. done.
  - rewrite decide_True by done. done.
Qed.

Lemma step_running {U} hit (ro : router U) e s t l :
  stateless ro -> w_running (sy_world s) = true -> sys_step hit ro e s l = Some t -> w_running (sy_world t) = true.
Proof.
  intros Hro Hw Hl.
  destruct l as [j|j bs|j|j lv wr|j wr|j wr]; cbn [sys_step] in *;
    try (destruct (sy_conns s !! j) as [c|]; [|done]; cbn [mbind option_bind] in Hl).
  - destruct (decide (_ ∧ _)); [|done]. by injection Hl as <-.
  - destruct (_ && _); [|done]. by injection Hl as <-.
  - destruct (hn_open c); [|done]. by injection Hl as <-.
  - destruct (decide (_ ∧ _)) as [[Hg _]|]; [|done]. destruct lv.
    + destruct (hn_fin c); [|done]. by injection Hl as <-.
    + injection Hl as <-. by apply read_event_running.
  - destruct (decide (sy_thr s = TIn j)) as [Hg|]; [|done]. destruct (decide (_ = TIn j)); [done|].
    injection Hl as <-. by apply read_event_running.
  - destruct (decide (sy_thr s = TIn j)) as [Hg|]; [|done]. injection Hl as <-. by apply read_event_running.
Qed.

Lemma step_alone_other {U} hit (ro : router U) e s t s' i l :
  stateless ro -> sys_step hit ro e s l = Some t -> about l <> i -> alone i s s' -> alone i t s'.
Proof.
  intros Hro Hl Hi [(Hc & Hw & Hw') Ht]. split.
  { split; [by rewrite (step_other _ _ _ _ _ _ _ Hl Hi)|]. split; [|done]. exact (step_running _ _ _ _ _ _ Hro Hw Hl). }
  intros Hd.
  assert (Hre : forall wr m j c, j <> i -> sy_thr s = TFree \/ sy_thr s = TIn j ->
    sy_thr s' = if decide (sy_thr (read_event hit ro e wr m j c s) = TIn i) then TIn i else TFree).
  { intros wr m j c Hj Hs. rewrite Ht by (by destruct Hs as [-> | ->]).
    rewrite (decide_False (P := sy_thr s = TIn i)) by (destruct Hs as [-> | ->]; congruence).
    rewrite decide_False; [done|]. unfold read_event. destruct (handle_read _ _ _ _ _ _); cbn; congruence. }
  destruct l as [j|j bs|j|j lv wr|j wr|j wr]; cbn [about sys_step] in *;
    try (destruct (sy_conns s !! j) as [c|]; [|done]; cbn [mbind option_bind] in Hl).
  - destruct (decide (_ ∧ _)); [|done]. injection Hl as <-. by apply Ht.
  - destruct (_ && _); [|done]. injection Hl as <-. by apply Ht.
  - destruct (hn_open c); [|done]. injection Hl as <-. by apply Ht.
  - destruct (decide (_ ∧ _)) as [[Hg _]|]; [|done]. destruct lv.
    + destruct (hn_fin c); [|done]. injection Hl as <-. by apply Ht.
    + injection Hl as <-. apply Hre; auto.
  - destruct (decide (sy_thr s = TIn j)) as [Hg|]; [|done]. destruct (decide (sy_thr (read_event _ _ _ _ _ _ _ _) = _)); [done|]. injection Hl as <-. apply Hre; auto.
  - destruct (decide (sy_thr s = TIn j)) as [Hg|]; [|done]. injection Hl as <-. apply Hre; auto.
Qed.

Lemma step_alone_own {U} hit (ro : router U) e s t s' i l :
  stateless ro -> sys_step hit ro e s l = Some t -> about l = i -> alone i s s' ->
  exists t', sys_step hit ro e s' l = Some t' /\ alone i t t'.
Proof.
  intros Hro Hl Hi [(Hc & Hw & Hw') Ht].
  destruct l as [j|j bs|j|j lv wr|j wr|j wr]; cbn [about] in Hi; subst j; cbn [sys_step] in *; rewrite ?Hc;
    try (destruct (sy_conns s !! i) as [c|] eqn:Ec; [|done]; cbn [mbind option_bind] in *).
  - destruct (decide (sy_thr s = TFree ∧ _)) as [[Hg1 Hg2]|]; [|done]. injection Hl as <-.
    rewrite decide_True by (split; [|done]; rewrite Ht by (by rewrite Hg1); by rewrite Hg1).
    eexists. split; [done|]. unfold alone, with_conn. cbn. by rewrite !lookup_insert.
  - destruct (_ && _); [|done]. injection Hl as <-.
    eexists. split; [done|]. unfold alone, with_conn. cbn. by rewrite !lookup_insert.
  - destruct (hn_open c); [|done]. injection Hl as <-.
    eexists. split; [done|]. unfold alone, with_conn. cbn. by rewrite !lookup_insert.
  - destruct (decide (sy_thr s = TFree ∧ _)) as [(Hg1 & Hg2 & Hg3)|]; [|done].
    rewrite decide_True by (split; [|done]; rewrite Ht by (by rewrite Hg1); by rewrite Hg1).
    destruct lv.
    + destruct (hn_fin c); [|done]. injection Hl as <-.
      eexists. split; [done|]. unfold alone, with_conn. cbn. by rewrite !lookup_insert.
    + injection Hl as <-. eexists. split; [done|].
      by destruct (read_event_alone hit ro e wr [] i c s s' Hro) as (Ha & _); [congruence|done..|].
  - destruct (decide (sy_thr s = TIn i)) as [Hg|]; [|done].
    rewrite decide_True by (apply Ht; by rewrite Hg).
    destruct (read_event_alone hit ro e wr [] i c s s' Hro) as (Ha & Hb); [congruence|done..|].
    destruct (decide (sy_thr (read_event _ _ _ _ _ _ _ s) = TIn i)) as [Hd|Hd]; [done|]. injection Hl as <-. eexists. rewrite decide_False by tauto. split; [done|]. done.
  - destruct (decide (sy_thr s = TIn i)) as [Hg|]; [|done].
    rewrite decide_True by (apply Ht; by rewrite Hg).
    injection Hl as <-. eexists. split; [done|].
    by destruct (read_event_alone hit ro e wr [Gap] i c s s' Hro) as (Ha & _); [congruence|done..|].
Qed.

(** The events that concern connection [i]. *)
Definition only (i : nat) (ls : list hlab) : list hlab := filter (fun l => about l = i) ls.

(** Whatever the other peers do, and in whatever order events are handled, a
    connection is served as if it were the only one. *)
Theorem connections_are_isolated : forall U hit (ro : router U) e w ls s i c,
  stateless ro -> w_running w = true -> sys_run hit ro e (sys_new w) ls = Some s -> sy_conns s !! i = Some c ->
  exists s', sys_run hit ro e (sys_new w) (only i ls) = Some s' /\ sy_conns s' !! i = Some c.
Proof.
  intros U hit ro e w ls s i c Hro Hrun H Hi.
  assert (Hgen : forall ls s0 s0' s1, sys_run hit ro e s0 ls = Some s1 -> alone i s0 s0' ->
    exists s1', sys_run hit ro e s0' (only i ls) = Some s1' /\ alone i s1 s1').
  { clear -Hro. induction ls as [|l ls IH]; intros s0 s0' s1 H Ha.
    - injection H as <-. by exists s0'.
    - cbn [sys_run] in H. destruct (sys_step hit ro e s0 l) as [s2|] eqn:E; [|done]. cbn [mbind option_bind] in H.
      unfold only. rewrite filter_cons. destruct (decide (about l = i)) as [Hi|Hi].
      + destruct (step_alone_own _ _ _ _ _ _ _ _ Hro E Hi Ha) as (t' & Ht' & Ha').
        cbn [sys_run]. rewrite Ht'. cbn [mbind option_bind]. by eapply IH.
      + eapply IH; [done|]. by eapply step_alone_other. }
  destruct (Hgen ls (sys_new w) (sys_new w) s H) as (s' & Hs' & (Hc & _) & _).
  { split; [done|]. intros _. done. }
  exists s'. split; [done|]. by rewrite Hc.
Qed.
Print Assumptions connections_are_isolated.

(** ** C120 *)

(** The thread waits in epoll_wait and no event is pending. *)
Definition idle {U} (s : hsys U) : Prop :=
  sy_thr s = TFree /\
  forall i c, sy_conns s !! i = Some c -> hn_open c = true -> hn_in c = [] /\ hn_fin c = false.

(** send(2) takes something. *)
Definition writes_go_through (l : hlab) : Prop :=
  match l with LServe _ _ wr | LResume _ wr | LTimeout _ wr => exists k, wr = WTake k | _ => True end.

Definition all_answered_full : Prop := forall U hit (ro : router U) e w ls s i c texts rs,
  valid_order hit -> sys_run hit ro e (sys_new w) ls = Some s -> idle s -> sy_conns s !! i = Some c ->
  requests texts rs -> Forall (tame ro) rs -> sent_by i ls = concat texts ->
  Forall writes_go_through ls -> Forall2 (answers ro) rs (hn_out c).

Lemma concat_take_all (texts : list bytes) (k : nat) :
  Forall (fun t => t <> []) texts -> concat (take k texts) = concat texts -> take k texts = texts.
Proof.
  intros H E. assert (E2 : concat texts = concat (take k texts) ++ concat (drop k texts)) by (by rewrite <- concat_app, take_drop).
  rewrite E in E2. rewrite <- (app_nil_r (concat texts)) in E2 at 1. apply app_inv_head in E2.
  destruct (drop k texts) as [|t l] eqn:Ed.
  - rewrite <- (take_drop k texts) at 2. by rewrite Ed, app_nil_r.
  - exfalso. assert (Ht : Forall (fun t => t <> []) (drop k texts)) by (by apply Forall_drop). rewrite Ed in Ht.
    apply Forall_cons in Ht as [Ht _]. cbn in E2. symmetry in E2. by apply app_eq_nil in E2 as [? _].
Qed.

Lemma requests_nonempty texts rs : requests texts rs -> Forall (fun t => t <> []) texts.
Proof.
  intros (HF & _). induction HF as [|t r texts rs H HF IH]; constructor; [|done]. by eapply request_text_nonempty.
Qed.

(** The peer of [i] neither closes its side nor runs into the read time-out. *)
Definition stays (i : nat) (l : hlab) : Prop :=
  match l with LFin j | LTimeout j _ => j <> i | _ => True end.
Lemma calm_of i ls : Forall writes_go_through ls -> Forall (stays i) ls -> Forall (calm i) ls.
Proof.
  rewrite !Forall_forall. intros H1 H2 l Hl. specialize (H1 l Hl). specialize (H2 l Hl).
  destruct l; cbn in *; try done; by intros _.
Qed.

(** Missing: peers that close their writing side after the last request (the rest
    of what they sent is thrown away, C68), and read time-outs (a body cut off by
    one is handled, C47). *)
Theorem all_answered_partial : forall U hit (ro : router U) e w ls s i c texts rs,
  valid_order hit -> sys_run hit ro e (sys_new w) ls = Some s -> idle s -> sy_conns s !! i = Some c ->
  requests texts rs -> Forall (tame ro) rs -> sent_by i ls = concat texts ->
  Forall writes_go_through ls -> Forall (stays i) ls ->
  Forall2 (answers ro) rs (hn_out c) /\ hn_open c = true.
Proof.
  intros U hit ro e w ls s i c texts rs Hit H [_ Hidle] Hi Hreq Ht Hsent Hw Hst.
  destruct (run_progress hit ro e w s ls i c texts rs Hit H Hi (calm_of _ _ Hw Hst) Hreq Ht) as (k & [Ho Hf Hk Hin Hout] & _).
  { rewrite Hsent. done. }
  split; [|done]. destruct (Hidle i c Hi Ho) as [Hnil _]. rewrite Hnil, app_nil_r, Hsent in Hin.
  assert (E : take k texts = texts) by (apply concat_take_all; [by eapply requests_nonempty|done]).
  assert (Hl : length texts <= k) by (rewrite <- E; rewrite take_length; lia).
  destruct Hreq as (HF & _). rewrite take_ge in Hout; [done|]. by rewrite <- (Forall2_length _ _ _ HF).
Qed.
Print Assumptions all_answered_partial.

(** ** C121 *)

(** Steps of the server alone, without time-outs. *)
Definition by_server (l : hlab) : Prop :=
  match l with LServe _ _ _ | LResume _ _ => True | _ => False end.

(** A whole request is waiting on connection [i]; the server gets to answer it. *)
Definition available_full : Prop := forall U hit (ro : router U) e w ls s i c texts rs,
  valid_order hit -> sys_run hit ro e (sys_new w) ls = Some s -> sy_thr s <> TDown -> sy_conns s !! i = Some c ->
  hn_in c <> [] -> requests texts rs -> Forall (tame ro) rs -> sent_by i ls = concat texts ->
  Forall writes_go_through ls -> Forall (stays i) ls ->
  exists ls' s' c', Forall by_server ls' /\ sys_run hit ro e s ls' = Some s' /\
    sy_conns s' !! i = Some c' /\ length (hn_out c) < length (hn_out c').

(** All peers send whole requests and stay. *)
Definition good_peers {U} (ro : router U) (s : hsys U) (ls : list hlab) : Prop := forall j c,
  sy_conns s !! j = Some c -> Forall (stays j) ls /\
  exists texts rs, requests texts rs /\ Forall (tame ro) rs /\ sent_by j ls = concat texts.

Lemma prefix_same_length (p l : bytes) : p `prefix_of` l -> length l <= length p -> p = l.
Proof. intros [q ->] H. rewrite app_length in H. destruct q; [by rewrite app_nil_r|]. simpl in H. lia. Qed.

(** The thread is at most waiting for a connection that exists. *)
Lemma thr_has_conn {U} hit (ro : router U) e w ls s i :
  sys_run hit ro e (sys_new w) ls = Some s -> sy_thr s = TIn i -> exists c, sy_conns s !! i = Some c.
Proof.
  revert s. induction ls as [|l ls IH] using rev_ind; intros s H Ht; [by injection H as <-|].
  apply sys_run_snoc in H as (s1 & H1 & Hl).
  assert (Hre : forall wr m j c1, sy_conns s1 !! j = Some c1 -> sy_thr (read_event hit ro e wr m j c1 s1) = TIn i ->
    exists c, sy_conns (read_event hit ro e wr m j c1 s1) !! i = Some c).
  { intros wr m j c1 Hj Hx. unfold read_event in *. destruct (handle_read _ _ _ _ _ _); cbn in *; try done.
    injection Hx as ->. by exists c1. }
  destruct l as [j|j bs|j|j lv wr|j wr|j wr]; cbn [sys_step] in Hl;
    try (destruct (sy_conns s1 !! j) as [c1|] eqn:Ec; [|done]; cbn [mbind option_bind] in Hl).
  - destruct (decide (_ ∧ _)) as [[Hg _]|]; [|done]. injection Hl as <-. cbn in Ht. congruence.
  - destruct (_ && _); [|done]. injection Hl as <-. cbn in Ht |- *. destruct (IH s1 H1 Ht) as [c Hc].
    destruct (decide (j = i)) as [->|]; [rewrite lookup_insert; by eexists|rewrite lookup_insert_ne by done; by exists c].
  - destruct (hn_open c1); [|done]. injection Hl as <-. cbn in Ht |- *. destruct (IH s1 H1 Ht) as [c Hc].
    destruct (decide (j = i)) as [->|]; [rewrite lookup_insert; by eexists|rewrite lookup_insert_ne by done; by exists c].
  - destruct (decide (_ ∧ _)) as [[Hg _]|]; [|done]. destruct lv.
    + destruct (hn_fin c1); [|done]. injection Hl as <-. cbn in Ht. congruence.
    + injection Hl as <-. by eapply Hre.
  - destruct (decide (sy_thr s1 = TIn j)); [|done]. destruct (decide (_ = TIn j)); [done|]. injection Hl as <-. by eapply Hre.
  - destruct (decide (sy_thr s1 = TIn j)); [|done]. injection Hl as <-. by eapply Hre.
Qed.

(** With only whole requests pending, reading does not wait. *)
Lemma whole_served {U} hit (ro : router U) e (s : hsys U) i c texts rs ls k :
  valid_order hit -> requests texts rs -> Forall (tame ro) rs -> progress ro i texts rs ls c k ->
  sent_by i ls = concat texts -> hn_in c <> [] -> sy_conns s !! i = Some c ->
  exists w' c', read_event hit ro e (WTake 0) [] i c s = HSys w' TFree (<[i := c']> (sy_conns s)) /\
    progress ro i texts rs ls c' (S k).
Proof.
  intros Hit Hreq Ht Hk Hs Hne Hi.
  destruct (read_progress hit ro e 0 s i c texts rs ls k Hit Hreq Ht Hk) as [(text & rest & Hd & Hp & Hn & _)|H];
    [by rewrite Hs|done|done| |done].
  exfalso. destruct Hk as [_ _ _ Hin _]. rewrite Hs in Hin.
  assert (E : concat texts = concat (take k texts) ++ concat (drop k texts)) by (by rewrite <- concat_app, take_drop).
  rewrite E in Hin. apply app_inv_head in Hin. rewrite Hd in Hin. cbn in Hin.
  apply Hn, prefix_same_length; [done|]. rewrite <- Hin, app_length. lia.
Qed.

(** Missing: a peer that stops in the middle of a request holds the only thread. *)
Theorem available_partial : forall U hit (ro : router U) e w ls s i c,
  valid_order hit -> sys_run hit ro e (sys_new w) ls = Some s -> sy_thr s <> TDown -> sy_conns s !! i = Some c ->
  hn_in c <> [] -> Forall writes_go_through ls -> good_peers ro s ls ->
  exists ls' s' c', Forall by_server ls' /\ Forall writes_go_through ls' /\ sys_run hit ro e s ls' = Some s' /\
    sy_conns s' !! i = Some c' /\ length (hn_out c) < length (hn_out c').
Proof.
  intros U hit ro e w ls s i c Hit H Hd Hi Hne Hw Hgood.
  assert (Hprog : forall j cj, sy_conns s !! j = Some cj ->
    exists texts rs k, requests texts rs /\ Forall (tame ro) rs /\ sent_by j ls = concat texts /\
      progress ro j texts rs ls cj k /\ (sy_thr s = TIn j -> hn_in cj <> [])).
  { intros j cj Hj. destruct (Hgood j cj Hj) as (Hst & texts & rs & Hreq & Ht & Hs).
    destruct (run_progress hit ro e w s ls j cj texts rs Hit H Hj (calm_of _ _ Hw Hst) Hreq Ht) as (k & Hk & Hx).
    { by rewrite Hs. }
    by exists texts, rs, k. }
  destruct (Hprog i c Hi) as (texts & rs & k & Hreq & Ht & Hs & Hk & _).
  assert (Hlen : forall c' , progress ro i texts rs ls c' (S k) -> length (hn_out c) < length (hn_out c')).
  { intros c' [_ _ [-> _] _ _]. destruct Hk as [_ _ [-> _] _ _]. lia. }
  assert (Hserve : forall s0, sy_thr s0 = TFree -> sy_conns s0 !! i = Some c ->
    exists s' c', sys_run hit ro e s0 [LServe i false (WTake 0)] = Some s' /\
      sy_conns s' !! i = Some c' /\ length (hn_out c) < length (hn_out c')).
  { intros s0 Hf H0. destruct (whole_served hit ro e s0 i c texts rs ls k Hit Hreq Ht Hk Hs Hne H0) as (w' & c' & E & Hk').
    exists (HSys w' TFree (<[i := c']> (sy_conns s0))), c'.
    cbn [sys_run sys_step]. rewrite H0. cbn [mbind option_bind].
    rewrite decide_True by (split; [done|]; split; [by destruct Hk|by left]). rewrite E. cbn [sy_conns].
    rewrite lookup_insert. split; [done|]. split; [done|]. by apply Hlen. }
  destruct (sy_thr s) as [|j|] eqn:Ethr; [| |done].
  - destruct (Hserve s Ethr Hi) as (s' & c' & Hr & Hc & Hl).
    exists [LServe i false (WTake 0)], s', c'. split; [by repeat constructor|]. split; [|done]. constructor; [by exists 0|constructor].
  - destruct (thr_has_conn _ _ _ _ _ _ _ H Ethr) as [cj Hj].
    destruct (Hprog j cj Hj) as (tj & rj & kj & Hrj & Htj & Hsj & Hkj & Hnj).
    destruct (whole_served hit ro e s j cj tj rj ls kj Hit Hrj Htj Hkj Hsj (Hnj eq_refl) Hj) as (w' & cj' & E & Hk').
    assert (Hres : sys_step hit ro e s (LResume j (WTake 0)) = Some (HSys w' TFree (<[j := cj']> (sy_conns s)))).
    { cbn [sys_step]. rewrite Hj. cbn [mbind option_bind]. rewrite decide_True by done. rewrite E. by rewrite decide_False. }
    destruct (decide (j = i)) as [->|Hji].
    + exists [LResume i (WTake 0)]. do 2 eexists. split; [by repeat constructor|]. split; [constructor; [by exists 0|constructor]|].
      cbn [sys_run]. rewrite Hres. cbn [mbind option_bind]. split; [done|]. cbn [sy_conns]. rewrite lookup_insert.
      split; [done|]. rewrite Hi in Hj. injection Hj as <-. destruct Hkj as [_ _ [-> _] _ _], Hk' as [_ _ [-> _] _ _]. lia.
    + destruct (Hserve (HSys w' TFree (<[j := cj']> (sy_conns s)))) as (s' & c' & Hr & Hc & Hl); [done|by cbn; rewrite lookup_insert_ne|].
      exists [LResume j (WTake 0); LServe i false (WTake 0)], s', c'. split; [by repeat constructor|].
      split; [constructor; [by exists 0|constructor; [by exists 0|constructor]]|].
      split; [|done]. cbn [sys_run] in *. rewrite Hres. exact Hr.
Qed.
Print Assumptions available_partial.

(** ** C122 *)

(** A time-out while a request is being read closes the connection; no handler runs. *)
Definition timeout_closes_full : Prop := forall U hit (ro : router U) e w ls s i c wr s',
  valid_order hit -> sys_run hit ro e (sys_new w) ls = Some s -> sy_conns s !! i = Some c ->
  sys_step hit ro e s (LTimeout i wr) = Some s' ->
  sy_thr s' = TFree /\ sy_world s' = sy_world s /\
  exists c', sy_conns s' !! i = Some c' /\ hn_open c' = false /\ hn_out c' = hn_out c /\ hn_sent c' = hn_sent c.

Lemma early_end_lf s : early_end CRLFCRLF s <-> LF ∈ take 3 s.
Proof.
  split.
  - intros (i & c & [= <-] & Hi & Hlt). simpl in Hlt. apply elem_of_list_lookup. exists i.
    rewrite lookup_take by lia. done.
  - intros H. apply elem_of_list_lookup in H as [i Hi].
    assert (i < 3) by (apply lookup_lt_Some in Hi; rewrite take_length in Hi; lia).
    rewrite lookup_take in Hi by done. exists i, LF. repeat split; [done|]. simpl. lia.
Qed.
Lemma blank_line_delim : good_delim CRLFCRLF.
Proof. exists LF. repeat split; by vm_compute. Qed.

(** Missing: a time-out in the body (handlers get the part that came, C47); a line
    feed among the first three bytes (C32). *)
Theorem timeout_closes_partial : forall U hit (ro : router U) e w ls s i c wr s',
  sys_run hit ro e (sys_new w) ls = Some s -> sy_conns s !! i = Some c ->
  sys_step hit ro e s (LTimeout i wr) = Some s' ->
  short (hn_in c) -> LF ∉ take 3 (hn_in c) -> ~ contains CRLFCRLF (hn_in c) ->
  sy_thr s' = TFree /\ sy_world s' = sy_world s /\
  (exists c', sy_conns s' !! i = Some c' /\ hn_open c' = false /\ hn_out c' = hn_out c /\ hn_sent c' = hn_sent c) /\
  (forall j, j <> i -> sy_conns s' !! j = sy_conns s !! j).
Proof.
  intros U hit ro e w ls s i c wr s' H Hi Hst Hs Hlf Hnc.
  pose proof (step_other _ _ _ _ _ _ i Hst) as _.
  assert (Hoth : forall j, j <> i -> sy_conns s' !! j = sy_conns s !! j) by (intros j Hj; by eapply step_other).
  cbn [sys_step] in Hst. rewrite Hi in Hst. cbn [mbind option_bind] in Hst.
  destruct (decide (sy_thr s = TIn i)); [|done]. injection Hst as <-.
  assert (E : handle_read hit wr ro e (sy_world s) (Stream (map Byte (hn_in c) ++ [Gap]) (if hn_fin c then Eof else Wait))
    = Ok (Served (sy_world s) (Stream [] (if hn_fin c then Eof else Wait)) [] [] true)).
  { unfold handle_read.
    destruct (read_until_unfinished_partial CRLFCRLF (hn_in c) (if hn_fin c then Eof else Wait)) as (Hg & _);
      [exact blank_line_delim|by apply short_fits|by rewrite early_end_lf|done|].
    by rewrite Hg. }
  unfold read_event in *. rewrite E in *. cbn [sy_thr sy_world sy_conns sv_world sv_rest sv_wrote sv_sent sv_closed] in *.
  split; [done|]. split; [done|]. split; [|done]. rewrite lookup_insert. eexists. split; [done|]. cbn.
  by rewrite !app_nil_r.
Qed.

(** Whatever the peer has sent, the time-out ends the waiting. *)
Lemma shortest_exists d s : contains d s -> exists pre rest, shortest_until d s pre rest.
Proof.
  intros Hc. apply find_idx_contains in Hc. destruct (find_idx d s) as [i|] eqn:Hi; [|done].
  exists (take (i + length d) s), (drop (i + length d) s). by apply find_shortest.
Qed.

Lemma read_until_cases s l t : short s -> l = [] \/ l = [Gap] ->
  (LF ∈ take 3 s /\ exists x, read_until [] CRLFCRLF (Stream (map Byte s ++ l) t) = Throw x) \/
  (exists pre rest, pre `prefix_of` s /\
     read_until [] CRLFCRLF (Stream (map Byte s ++ l) t) = Ok (Z.of_nat (length pre), pre, Stream (map Byte rest ++ l) t)) \/
  (exists rc, (rc <= 0)%Z /\ exists l', read_until [] CRLFCRLF (Stream (map Byte s ++ l) t) = Ok (rc, s, Stream l' t)) \/
  (l = [] /\ t = Wait /\ read_until [] CRLFCRLF (Stream (map Byte s ++ l) t) = Blocked).
Proof.
  intros Hs Hl. pose proof (short_fits _ Hs) as Hf.
  destruct (decide (LF ∈ take 3 s)) as [Hlf|Hlf].
  { left. split; [done|]. apply read_until_throws_iff; [exact blank_line_delim|done| |by apply early_end_lf].
    destruct Hl as [->| ->]; [by left|right; by eexists]. }
  right. rewrite <- early_end_lf in Hlf.
  destruct (find_idx CRLFCRLF s) as [i|] eqn:Ei.
  - left. destruct (shortest_exists CRLFCRLF s) as (pre & rest & Hsh).
    { apply find_idx_contains. by rewrite Ei. }
    exists pre, rest. assert (Hpre : pre `prefix_of` s) by (destruct Hsh as [-> _]; by exists rest).
    split; [done|].
    destruct (read_until_first_occurrence_partial CRLFCRLF s pre rest l t blank_line_delim Hf Hlf Hsh) as [H1 H2].
    rewrite H1. apply prefix_length in Hpre. unfold short in Hs. destruct H2 as [-> _]; [lia|done].
  - right. assert (Hnc : ~ contains CRLFCRLF s) by (by apply find_idx_None_contains).
    destruct (read_until_unfinished_partial CRLFCRLF s t blank_line_delim Hf Hlf Hnc) as (H1 & H2 & H3 & H4).
    destruct Hl as [->| ->].
    + rewrite app_nil_r. unfold of_bytes in *. destruct t.
      * left. exists 0%Z. split; [lia|]. by eexists.
      * left. exists (-1)%Z. split; [lia|]. by eexists.
      * by right.
    + left. exists (-1)%Z. split; [lia|]. eexists. apply H1.
Qed.

Lemma grab_gap n : forall l, Gap ∈ l -> length (grab n l).1.1 = n \/ (grab n l).2 = true.
Proof.
  induction n as [|n IH]; intros l Hg; [by left|]. destruct l as [|[c|] l]; [by apply elem_of_nil in Hg| |by right].
  apply elem_of_cons in Hg as [?|Hg]; [done|]. cbn [grab]. specialize (IH l Hg).
  destruct (grab n l) as [[b r] g]. cbn in *. destruct IH as [<-|]; auto.
Qed.
Lemma recv_all_gap n s : Gap ∈ sm_items s -> recv_all n s <> Blocked.
Proof.
  intros Hg. unfold recv_all. destruct (grab_gap n _ Hg) as [H|H]; destruct (grab n (sm_items s)) as [[b r] g]; cbn in H; subst.
  - by rewrite Nat.eqb_refl.
  - by destruct (_ =? _).
Qed.
Lemma recv_all_ok_or_blocked n s : recv_all n s = Blocked \/ is_ok (recv_all n s).
Proof.
  unfold recv_all. destruct (grab n (sm_items s)) as [[b r] g]. destruct (_ =? _); [right; by eexists|].
  destruct g; [right; by eexists|]. destruct (sm_tail s); [right; by eexists|right; by eexists|by left].
Qed.

(** The handlers fail (an exception leaves them, undefined behaviour) on [r]; on the
    request that stands at the beginning of [s]. *)
Definition fails_on {U} (ro : router U) (w : world U) (r : req) : Prop :=
  let o := dispatch ro (rt_path (rq_route r)) (ctx_new r resp_new) w in o <> Blocked /\ ~ is_ok o.
Definition handlers_fail {U} (ro : router U) (w : world U) (s : bytes) : Prop := exists pre r body,
  pre `prefix_of` s /\ req_parse req_new pre = Ok (kSuccess, r) /\
  fails_on ro w (Req (rq_method r) (rq_version r) (rq_header r) (rq_route r) body).
Definition handlers_block {U} (ro : router U) (w : world U) : Prop := exists r,
  dispatch ro (rt_path (rq_route r)) (ctx_new r resp_new) w = Blocked.

Lemma answer_cases {U} hit wr (ro : router U) r e w s1 :
  is_ok (answer hit wr ro r e w s1) \/
  (answer hit wr ro r e w s1 = Blocked /\ handlers_block ro w) \/
  (answer hit wr ro r e w s1 <> Blocked /\ (wr = WSig \/ fails_on ro w r)).
Proof.
  unfold answer. destruct (dispatch ro (rt_path (rq_route r)) (ctx_new r resp_new) w) as [cw| | | | |] eqn:E;
    cbn [mbind outcome_bind].
  - unfold respond. destruct (resp_build hit _ []) as [[rc p2] buf].
    destruct (negb (rc =? kSuccess)%Z); [destruct (resp_build hit _ buf) as [[? ?] ?]|];
      (destruct wr; [left; by eexists|left; by eexists|right; right; split; [done|by left]]).
  - right; right. split; [done|]. right. unfold fails_on. rewrite E. split; [done|]. by intros [].
  - right; right. split; [done|]. right. unfold fails_on. rewrite E. split; [done|]. by intros [].
  - right; right. split; [done|]. right. unfold fails_on. rewrite E. split; [done|]. by intros [].
  - right; left. split; [done|]. by exists r.
  - right; right. split; [done|]. right. unfold fails_on. rewrite E. split; [done|]. by intros [].
Qed.

Lemma handle_read_cases {U} hit wr (ro : router U) e w s l t : short s -> l = [] \/ l = [Gap] ->
  let o := handle_read hit wr ro e w (Stream (map Byte s ++ l) t) in
  is_ok o \/
  (o = Blocked /\ (l = [] \/ handlers_block ro w)) \/
  (o <> Blocked /\ (LF ∈ take 3 s \/ wr = WSig \/ handlers_fail ro w s)).
Proof.
  intros Hs Hl o. unfold o, handle_read. clear o.
  destruct (read_until_cases s l t Hs Hl) as [[Hlf [x ->]]|[(pre & rest & Hp & ->)|[(rc & Hrc & l' & ->)|(-> & -> & ->)]]];
    cbn [mbind outcome_bind].
  - right; right. split; [done|by left].
  - destruct (Z.leb_spec (Z.of_nat (length pre)) 0); [left; by eexists|].
    destruct (req_parse_total req_new pre) as (rc & r' & Hpr & _).
    { apply prefix_length in Hp. unfold short in *. lia. }
    rewrite Hpr. cbn [mbind outcome_bind].
    destruct (Z.eqb_spec rc kSuccess) as [-> |]; cbn [negb].
    2: { destruct (resp_build hit _ []) as [[? ?] ?]. destruct wr; [left; by eexists|left; by eexists|].
      right; right. split; [done|]. by right; left. }
    assert (Hans : forall r s1, (exists b, r = Req (rq_method r') (rq_version r') (rq_header r') (rq_route r') b) -> is_ok (answer hit wr ro r e w s1) \/
      (answer hit wr ro r e w s1 = Blocked /\ (l = [] \/ handlers_block ro w)) \/
      (answer hit wr ro r e w s1 <> Blocked /\ (LF ∈ take 3 s \/ wr = WSig \/ handlers_fail ro w s))).
    { intros r s1 [b Hr]. destruct (answer_cases hit wr ro r e w s1) as [?|[[? ?]|[? [?|Hx]]]]; [by left|by right; left; auto|by right; right; auto|].
      right; right. split; [done|]. right; right. exists pre, r', b. split; [done|]. split; [done|]. by rewrite <- Hr. }
    destruct (0 <? _)%Z; [|apply Hans; exists (rq_body r'); by destruct r']. unfold read_string.
    set (s1 := Stream (map Byte rest ++ l) t). set (n := Z.to_nat _).
    destruct (recv_all_ok_or_blocked n s1) as [Hb|[[[rc' b] s2] Hok]].
    + rewrite Hb. cbn [mbind outcome_bind]. right; left. split; [done|]. left.
      destruct Hl as [->| ->]; [done|]. exfalso. apply (recv_all_gap n s1); [|done].
      apply elem_of_app. right. by apply elem_of_list_singleton.
    + rewrite Hok. cbn [mbind outcome_bind]. destruct (rc' <=? 0)%Z; [left; by eexists|apply Hans; by eexists].
  - destruct (Z.leb_spec rc 0); [left; by eexists|lia].
  - right; left. split; [done|by left].
Qed.

(** Handlers that do not wait. *)
Definition entry_never_blocks {U} (x : entry U) : Prop := forall h c w, e_callback x = Some h -> h c w <> Blocked.
Lemma dispatch_never_blocks {U} (ro : router U) : Forall (Forall entry_never_blocks) (ro_heap ro) ->
  forall p c w, dispatch ro p c w <> Blocked.
Proof.
  intros H.
  assert (Hrun : forall (v : list (entry U)) is_end st, Forall entry_never_blocks v -> run_vector v is_end st <> Blocked).
  { induction v as [|x v IH]; intros is_end [c w] Hv; [done|]. apply Forall_cons in Hv as [Hx Hv]. cbn [run_vector].
    destruct (negb is_end && e_exact x); [by apply IH|]. destruct (accepts x _); [|by apply IH].
    destruct (e_callback x) as [h|] eqn:E; [|by apply IH]. specialize (Hx h c w E).
    cbn [fst snd]. destruct (h c w) as [[c1 w1]| | | | |]; cbn [mbind outcome_bind]; try done.
    destruct (w_running _); [by apply IH|done]. }
  assert (Hv : forall nd is_end st (k : ctx * world U * bool -> outcome (ctx * world U)),
    (forall r, k r <> Blocked) -> (r ← visit (dispatch_cb (ro_heap ro)) st nd is_end; k r) <> Blocked).
  { intros nd is_end st k Hk. unfold visit. destruct (n_data nd) as [i|]; [|done]. unfold dispatch_cb.
    destruct (ro_heap ro !! i) as [v|] eqn:E; [|done].
    specialize (Hrun v is_end st ltac:(by eapply Forall_lookup_1 in E)).
    destruct (run_vector v is_end st); cbn [mbind outcome_bind]; first [done|apply Hk]. }
  assert (Hslot : forall (nd : node nat) ch (k : option (node nat) -> outcome (ctx * world U)), (forall x, k x <> Blocked) ->
    (x ← slot nd ch; k x) <> Blocked).
  { intros nd ch k Hk. unfold slot. destruct (is_ascii ch); cbn [mbind outcome_bind]; [apply Hk|done]. }
  assert (Hloop : forall k nd pos st, search_loop (dispatch_cb (ro_heap ro)) k nd pos st <> Blocked).
  { induction k as [|ch k IH]; intros nd pos st; cbn [search_loop].
    - destruct (n_stop nd && _); [|done]. apply Hv. done.
    - destruct (pos <? length (n_key nd)).
      + destruct (n_key nd !! pos) as [d|]; [|done]. destruct (Ascii.eqb d ch); [by apply IH|done].
      + destruct (n_stop nd).
        * apply Hv. intros [st' []]; cbn [fst snd]; [|done]. apply Hslot. intros [x|]; [apply IH|done].
        * apply Hslot. intros [x|]; [apply IH|done]. }
  intros p c w. unfold dispatch, search_node.
  assert (Hrest : forall st, match p with [] => Ok st | ch :: _ => s ← slot (ro_trie ro) ch;
    match s with None => Ok st | Some x => search_loop (dispatch_cb (ro_heap ro)) p x 0 st end end <> Blocked).
  { intros st. destruct p as [|ch p]; [done|]. apply Hslot. intros [x|]; [apply Hloop|done]. }
  destruct (n_stop (ro_trie ro)); [|apply Hrest]. apply Hv. intros [st []]; cbn [fst snd]; [apply Hrest|done].
Qed.

Theorem timeout_frees_thread : forall U hit (ro : router U) e s i c wr,
  short (hn_in c) -> ~ handlers_block ro (sy_world s) -> sy_conns s !! i = Some c -> sy_thr s = TIn i ->
  exists s', sys_step hit ro e s (LTimeout i wr) = Some s' /\ (sy_thr s' = TFree \/ sy_thr s' = TDown) /\
    (forall j, j <> i -> sy_conns s' !! j = sy_conns s !! j).
Proof.
  intros U hit ro e s i c wr Hs Hd Hi Ht.
  exists (read_event hit ro e wr [Gap] i c s). split.
  { cbn [sys_step]. rewrite Hi. cbn [mbind option_bind]. by rewrite decide_True. }
  split; [|intros j Hj; by apply read_event_other].
  pose proof (handle_read_cases hit wr ro e (sy_world s) (hn_in c) [Gap] (if hn_fin c then Eof else Wait) Hs (or_intror eq_refl)) as H.
  unfold read_event. destruct H as [[v ->]|[[_ [?|?]]|[Hn _]]]; [by left|done|done|].
  destruct (handle_read _ _ _ _ _ _); cbn; first [done|by auto].
Qed.

(** ** C123 *)

(** Handlers that do not fail, and a peer that reads: the process stays up. *)
Definition process_stays_up_full : Prop := forall U hit (ro : router U) e w ls s,
  valid_order hit -> (forall p c w, ascii_only p -> is_ok (dispatch ro p c w)) ->
  sys_run hit ro e (sys_new w) ls = Some s -> Forall writes_go_through ls -> sy_thr s <> TDown.

Lemma read_event_down {U} hit (ro : router U) e wr m i c s :
  m = [] \/ m = [Gap] -> sy_thr (read_event hit ro e wr m i c s) = TDown ->
  ~ short (hn_in c) \/ LF ∈ take 3 (hn_in c) \/ wr = WSig \/ handlers_fail ro (sy_world s) (hn_in c).
Proof.
  intros Hm Hd. destruct (decide (short (hn_in c))) as [Hs|]; [right|by left].
  pose proof (handle_read_cases hit wr ro e (sy_world s) (hn_in c) m (if hn_fin c then Eof else Wait) Hs Hm) as H.
  unfold read_event in Hd. destruct H as [[v E]|[[E _]|[_ H]]]; [rewrite E in Hd; done|rewrite E in Hd; done|done].
Qed.

Definition writes (l : hlab) : option wres :=
  match l with LServe _ _ wr | LResume _ wr | LTimeout _ wr => Some wr | _ => None end.

(** The process only goes down while it reads what a peer sent, and for one of
    these reasons.  Missing: the first two (C32, C4), the third (a peer that is gone
    when the server writes, C49), and handlers called with paths that are not ASCII
    (C40). *)
Theorem process_stays_up_partial : forall U hit (ro : router U) e w ls s,
  sys_run hit ro e (sys_new w) ls = Some s -> sy_thr s = TDown ->
  exists ls1 l ls2 s1 c, ls = ls1 ++ l :: ls2 /\ sys_run hit ro e (sys_new w) ls1 = Some s1 /\
    sy_conns s1 !! about l = Some c /\
    (~ short (hn_in c) \/ LF ∈ take 3 (hn_in c) \/ writes l = Some WSig \/ handlers_fail ro (sy_world s1) (hn_in c)).
Proof.
  intros U hit ro e w ls. induction ls as [|l ls IH] using rev_ind; intros s H Hd; [by injection H as <-|].
  apply sys_run_snoc in H as (s1 & H1 & Hl).
  destruct (decide (sy_thr s1 = TDown)) as [Hd1|Hd1].
  { destruct (IH s1 H1 Hd1) as (ls1 & l1 & ls2 & s2 & c & -> & Hx). exists ls1, l1, (ls2 ++ [l]), s2, c.
    split; [by rewrite <- app_assoc|done]. }
  assert (Hc : exists c, sy_conns s1 !! about l = Some c /\
    (~ short (hn_in c) \/ LF ∈ take 3 (hn_in c) \/ writes l = Some WSig \/ handlers_fail ro (sy_world s1) (hn_in c))).
  { destruct l as [j|j bs|j|j lv wr|j wr|j wr]; cbn [sys_step about writes] in *;
      try (destruct (sy_conns s1 !! j) as [c|]; [|done]; cbn [mbind option_bind] in Hl).
    - destruct (decide (_ ∧ _)); [|done]. by injection Hl as <-.
    - destruct (_ && _); [|done]. by injection Hl as <-.
    - destruct (hn_open c); [|done]. by injection Hl as <-.
    - destruct (decide (_ ∧ _)) as [[Hg _]|]; [|done]. destruct lv.
      + destruct (hn_fin c); [|done]. by injection Hl as <-.
      + injection Hl as <-. exists c. split; [done|]. apply read_event_down in Hd; naive_solver.
    - destruct (decide (sy_thr s1 = TIn j)) as [Hg|]; [|done]. destruct (decide (_ = TIn j)); [done|].
      injection Hl as <-. exists c. split; [done|]. apply read_event_down in Hd; naive_solver.
    - destruct (decide (sy_thr s1 = TIn j)) as [Hg|]; [|done]. injection Hl as <-.
      exists c. split; [done|]. apply read_event_down in Hd; naive_solver. }
  destruct Hc as (c & Hc & Hx). by exists ls, l, [], s1, c.
Qed.

(** ** C124 *)

(** The peer gets what was given to Write, in that order. *)
Definition all_bytes_sent_full : Prop := forall U hit (ro : router U) e w ls s i c,
  sys_run hit ro e (sys_new w) ls = Some s -> sy_conns s !! i = Some c -> Forall writes_go_through ls ->
  hn_sent c = concat (hn_out c).

(** send(2) takes [n] bytes at once. *)
Definition takes (n : nat) (i : nat) (l : hlab) : Prop :=
  match l with
  | LServe j _ wr | LResume j wr | LTimeout j wr => j = i -> exists k, wr = WTake k /\ n <= k
  | _ => True
  end.

Lemma answer_sent {U} hit k (ro : router U) r e w s v :
  answer hit (WTake k) ro r e w s = Ok v -> exists out, sv_wrote v = [out] /\ sv_sent v = take k out.
Proof.
  unfold answer. destruct (dispatch _ _ _ _) as [cw| | | | |]; cbn [mbind outcome_bind]; try done.
  unfold respond. destruct (resp_build hit _ []) as [[rc p2] buf].
  destruct (negb (rc =? kSuccess)%Z); [destruct (resp_build hit _ buf) as [[? ?] ?]|]; intros [= <-]; by eexists.
Qed.
Lemma handle_read_sent {U} hit k (ro : router U) e w s v :
  handle_read hit (WTake k) ro e w s = Ok v ->
  (sv_wrote v = [] /\ sv_sent v = []) \/ exists out, sv_wrote v = [out] /\ sv_sent v = take k out.
Proof.
  unfold handle_read. destruct (read_until [] CRLFCRLF s) as [[[len buf] s1]| | | | |]; cbn [mbind outcome_bind]; try done.
  destruct (len <=? 0)%Z; [intros [= <-]; by left|].
  destruct (req_parse req_new buf) as [[rc r]| | | | |]; cbn [mbind outcome_bind]; try done.
  destruct (negb (rc =? kSuccess)%Z).
  { destruct (resp_build hit _ []) as [[? ?] out]. intros [= <-]. right. by exists out. }
  destruct (0 <? _)%Z; [|intros H; right; by eapply answer_sent].
  destruct (read_string _ _ _ _) as [[[rc' b] s2]| | | | |]; cbn [mbind outcome_bind]; try done.
  destruct (rc' <=? 0)%Z; [intros [= <-]; by left|]. intros H; right; by eapply answer_sent.
Qed.

(** Missing: answers of which send(2) takes a part only; the rest is not sent (C50). *)
Theorem all_bytes_sent_partial : forall U hit (ro : router U) e w ls s i c n,
  sys_run hit ro e (sys_new w) ls = Some s -> sy_conns s !! i = Some c ->
  Forall (takes n i) ls -> Forall (fun out => length out <= n) (hn_out c) ->
  hn_sent c = concat (hn_out c).
Proof.
  intros U hit ro e w ls. induction ls as [|l ls IH] using rev_ind; intros s i c n H Hi Ht Ho.
  { injection H as <-. unfold sys_new in Hi. cbn [sy_conns] in Hi. by rewrite lookup_empty in Hi. }
  apply sys_run_snoc in H as (s1 & H1 & Hl). apply Forall_app in Ht as [Ht Htl]. apply Forall_cons in Htl as [Htl _].
  destruct (decide (about l = i)) as [E|E].
  2:{ rewrite (step_other _ _ _ _ _ _ _ Hl E) in Hi. by eapply IH. }
  assert (Hre : forall m c1 k, sy_conns s1 !! i = Some c1 -> n <= k ->
    sy_conns (read_event hit ro e (WTake k) m i c1 s1) !! i = Some c -> hn_sent c = concat (hn_out c)).
  { intros m c1 k H0 Hk Hx. unfold read_event in Hx.
    destruct (handle_read _ _ _ _ _ _) as [v| | | | |] eqn:Ev; cbn [sy_conns] in Hx;
      try (by rewrite H0 in Hx; injection Hx as <-; eapply IH).
    rewrite lookup_insert in Hx. injection Hx as <-. cbn [hn_out hn_sent] in *.
    apply Forall_app in Ho as [Ho1 Ho2]. rewrite (IH s1 i c1 n H1 H0 Ht Ho1), concat_app. f_equal.
    apply handle_read_sent in Ev as [[-> ->]|(out & Ew & ->)]; [done|]. rewrite Ew in *.
    apply Forall_cons in Ho2 as [Ho2 _]. cbn. rewrite app_nil_r. apply take_ge. lia. }
  destruct l as [j|j bs|j|j lv wr|j wr|j wr]; cbn [sys_step about takes] in *; subst j;
    try (destruct (sy_conns s1 !! i) as [c1|] eqn:Ec; [|done]; cbn [mbind option_bind] in Hl).
  - destruct (decide (_ ∧ _)); [|done]. injection Hl as <-. cbn in Hi. rewrite lookup_insert in Hi. by injection Hi as <-.
  - destruct (_ && _); [|done]. injection Hl as <-. cbn in Hi. rewrite lookup_insert in Hi. injection Hi as <-. cbn. by eapply IH.
  - destruct (hn_open c1); [|done]. injection Hl as <-. cbn in Hi. rewrite lookup_insert in Hi. injection Hi as <-. cbn. by eapply IH.
  - destruct (Htl eq_refl) as (k & -> & Hk). destruct (decide (_ ∧ _)); [|done]. destruct lv.
    + destruct (hn_fin c1); [|done]. injection Hl as <-. cbn in Hi. rewrite lookup_insert in Hi. injection Hi as <-. cbn. by eapply IH.
    + injection Hl as <-. by eapply Hre.
  - destruct (Htl eq_refl) as (k & -> & Hk). destruct (decide (sy_thr s1 = TIn i)) as [Hg|]; [|done].
    destruct (decide (_ = TIn i)); [done|]. injection Hl as <-. by eapply Hre.
  - destruct (Htl eq_refl) as (k & -> & Hk). destruct (decide (sy_thr s1 = TIn i)) as [Hg|]; [|done].
    injection Hl as <-. by eapply Hre.
Qed.

(** ** Examples and refutations *)

(** A handler that answers with the body of the request, and counts. *)
Definition echo : handler nat := fun c w =>
  Ok (ctx_set_resp c (Resp sOK v1_1 ∅ (rq_body (cx_req c))),
      World (w_running w) (w_fs w) (w_opened w) (w_custom w) (S (w_user w))).
Definition echo_entry : entry nat := Entry (Some echo) false [].
Definition echo_ro : router nat :=
  match register [] [] echo_entry router_new with Ok (_, ro) => ro | _ => router_new end.
Definition wn : world nat := World true (fun _ => Absent true) [] ∅ 0.

Lemma echo_dispatch p c w : ascii_only p -> dispatch echo_ro p c w = echo c w.
Proof.
  intros Hp. destruct (single_registration [] [] echo_entry p c w) as (ro' & Hr' & Hch); [constructor|constructor|done|].
  assert (ro' = echo_ro) as -> by (unfold echo_ro; by rewrite Hr'). cbn [app] in Hch.
  assert (Hc : chain [echo_entry] (c, w) (dispatch echo_ro p c w)).
  { destruct (decide (p = [])); [done|]. by rewrite decide_True in Hch by apply prefix_nil. }
  apply (chain_det _ _ _ _ Hc). destruct (w_running w) eqn:Hw.
  - eapply chain_called; [done| |done|exact Hw|apply chain_done]. intros f Hf. by apply elem_of_nil in Hf.
  - eapply chain_stopped; [done| |done|exact Hw]. intros f Hf. by apply elem_of_nil in Hf.
Qed.
Lemma echo_stateless : stateless echo_ro.
Proof.
  apply stateless_router. repeat constructor. intros h c w1 w2 [= <-] H1 H2. done.
Qed.
Lemma echo_tame r : ascii_only (rt_path (rq_route r)) -> short (rq_body r) -> tame echo_ro r.
Proof.
  intros Ha Hs w. rewrite echo_dispatch by done. do 2 eexists. split; [done|]. split; [|done].
  intros k v Hx. cbn in Hx. by rewrite lookup_empty in Hx.
Qed.

Definition hi : bytes := ex_text_of (B "hi").
Definition yo : bytes := ex_text_of (B "yo").
Definition ok_text (body : bytes) : bytes := B "HTTP/1.1 200 OK" ++ CRLF ++ B "Content-Length: 2" ++ CRLF ++ CRLF ++ body.
Lemma hi_req : request_text exact_name hi (ex_req (B "hi")).
Proof. apply ex_good. Qed.
Lemma yo_req : request_text exact_name yo (ex_req (B "yo")).
Proof. ex_text. Qed.
Lemma hi_yo : requests [hi; yo] [ex_req (B "hi"); ex_req (B "yo")] /\
  Forall (tame echo_ro) [ex_req (B "hi"); ex_req (B "yo")].
Proof.
  split; [split; [|split]|].
  - constructor; [apply hi_req|]. constructor; [apply yo_req|constructor].
  - repeat constructor; by vm_compute.
  - repeat constructor; by_compute.
  - repeat constructor; apply echo_tame; first [by_compute|by vm_compute].
Qed.

Lemma run_to {U} hit (ro : router U) e s ls w' t l :
  match sys_run hit ro e s ls with Some s' => Some (sy_world s', sy_thr s', map_to_list (sy_conns s')) | None => None end
    = Some (w', t, l) ->
  sys_run hit ro e s ls = Some (HSys w' t (list_to_map l)).
Proof.
  destruct (sys_run hit ro e s ls) as [[w1 t1 m1]|]; [|done]. cbn. intros [= -> -> <-]. by rewrite list_to_map_to_list.
Qed.
Ltac run := apply run_to; by vm_compute.

(** Two peers, one of which sends its two requests in pieces. *)
Definition two_peers : list hlab :=
  [LOpen 0; LOpen 1; LSend 0 (take 10 hi); LServe 0 false (WTake 99); LSend 1 yo; LSend 0 (drop 10 hi ++ take 30 yo);
   LResume 0 (WTake 99); LServe 1 false (WTake 99); LServe 0 false (WTake 99); LSend 0 (drop 30 yo); LResume 0 (WTake 99)].
Definition two_peers_end : hsys nat :=
  HSys (World true (fun _ => Absent true) [] ∅ 3) TFree
    (list_to_map [(0, HConn [] false true [ok_text (B "hi"); ok_text (B "yo")] (ok_text (B "hi") ++ ok_text (B "yo")));
                  (1, HConn [] false true [ok_text (B "yo")] (ok_text (B "yo")))]).
Lemma two_peers_run : sys_run map_to_list echo_ro [] (sys_new wn) two_peers = Some two_peers_end.
Proof. run. Qed.
Lemma two_peers_idle : idle two_peers_end.
Proof.
  split; [done|]. intros i c Hi _. unfold two_peers_end in Hi. cbn [sy_conns] in Hi.
  apply elem_of_list_to_map_2 in Hi. repeat (apply elem_of_cons in Hi as [Hi|Hi]; [by injection Hi as _ ->|]).
  by apply elem_of_nil in Hi.
Qed.

Example isolated_ex : exists s',
  sys_run map_to_list echo_ro [] (sys_new wn) [LOpen 1; LSend 1 yo; LServe 1 false (WTake 99)] = Some s' /\
  sy_conns s' !! 1 = Some (HConn [] false true [ok_text (B "yo")] (ok_text (B "yo"))).
Proof.
  exact (connections_are_isolated nat map_to_list echo_ro [] wn two_peers two_peers_end 1 _ echo_stateless eq_refl
    two_peers_run ltac:(by vm_compute)).
Qed.

Example all_answered_ex :
  Forall2 (answers echo_ro) [ex_req (B "hi"); ex_req (B "yo")] [ok_text (B "hi"); ok_text (B "yo")].
Proof.
  refine (proj1 (all_answered_partial nat map_to_list echo_ro [] wn two_peers two_peers_end 0 _ [hi; yo] _
    valid_order_sorted two_peers_run two_peers_idle ltac:(by vm_compute) (proj1 hi_yo) (proj2 hi_yo) ltac:(by vm_compute) _ _)).
  - repeat constructor; by eexists.
  - repeat constructor; done.
Qed.

(** The peer sends a request and closes its writing side; the server throws the
    request away. *)
Theorem all_answered_refuted : ~ all_answered_full.
Proof.
  intros H.
  specialize (H nat map_to_list echo_ro [] wn [LOpen 0; LSend 0 hi; LFin 0; LServe 0 true (WTake 0)]
    (HSys wn TFree (list_to_map [(0, HConn hi true false [] [])])) 0 (HConn hi true false [] []) [hi] [ex_req (B "hi")]
    valid_order_sorted).
  assert (E : Forall2 (answers echo_ro) [ex_req (B "hi")] []); [|by inversion E].
  apply H.
  - run.
  - split; [done|]. intros i c Hi Ho. cbn [sy_conns] in Hi.
    apply elem_of_list_to_map_2, elem_of_list_singleton in Hi. by injection Hi as _ ->.
  - done.
  - split; [|split]; repeat constructor; [apply hi_req|by_compute].
  - repeat constructor. apply echo_tame; [by_compute|by vm_compute].
  - by vm_compute.
  - repeat constructor. by eexists.
Qed.

(** The thread waits in the middle of a request of 0, whose rest has arrived;
    another one of 1 is waiting. *)
Definition busy : list hlab :=
  [LOpen 0; LOpen 1; LSend 0 (take 10 hi); LServe 0 false (WTake 99); LSend 1 yo; LSend 0 (drop 10 hi)].
Definition busy_end : hsys nat :=
  HSys wn (TIn 0) (list_to_map [(0, HConn hi false true [] []); (1, HConn yo false true [] [])]).
Example available_ex : exists ls' s' c', Forall by_server ls' /\ Forall writes_go_through ls' /\
  sys_run map_to_list echo_ro [] busy_end ls' = Some s' /\ sy_conns s' !! 1 = Some c' /\ 0 < length (hn_out c').
Proof.
  apply (available_partial nat map_to_list echo_ro [] wn busy busy_end 1 (HConn yo false true [] []) valid_order_sorted).
  - run.
  - done.
  - by vm_compute.
  - done.
  - repeat constructor; by eexists.
  - intros j c Hj. split; [repeat constructor; done|]. unfold busy_end in Hj. cbn [sy_conns] in Hj.
    destruct hi_yo as [(HF & Hs & Hn) Ht].
    apply elem_of_list_to_map_2, elem_of_cons in Hj as [[= -> _]|Hj].
    { exists [hi], [ex_req (B "hi")]. split; [|split; [|by vm_compute]].
      - split; [|split]; repeat constructor; [apply hi_req|by_compute].
      - repeat constructor. apply echo_tame; [by_compute|by vm_compute]. }
    apply elem_of_list_singleton in Hj as [= -> _].
    exists [yo], [ex_req (B "yo")]. split; [|split; [|by vm_compute]].
    + split; [|split]; repeat constructor; [apply yo_req|by_compute].
    + repeat constructor. apply echo_tame; [by_compute|by vm_compute].
Qed.

(** One peer sends "G" and nothing more. *)
Theorem available_refuted : ~ available_full.
Proof.
  intros H.
  set (s := HSys wn (TIn 0) (list_to_map [(0, HConn (B "G") false true [] []); (1, HConn hi false true [] [])]) : hsys nat).
  destruct (H nat map_to_list echo_ro [] wn [LOpen 0; LOpen 1; LSend 0 (B "G"); LServe 0 false (WTake 0); LSend 1 hi]
    s 1 (HConn hi false true [] []) [hi] [ex_req (B "hi")] valid_order_sorted) as (ls' & s' & c' & Hby & Hrun & Hc & Hl).
  - run.
  - done.
  - by vm_compute.
  - done.
  - split; [|split]; repeat constructor; [apply hi_req|by_compute].
  - repeat constructor. apply echo_tame; [by_compute|by vm_compute].
  - by vm_compute.
  - repeat constructor. by eexists.
  - repeat constructor; done.
  - assert (E : s' = s).
    { destruct Hby as [|l ls' Hl' _]; [by injection Hrun as <-|exfalso]. cbn [sys_run] in Hrun.
      assert (sys_step map_to_list echo_ro [] s l = None) as E; [|by rewrite E in Hrun].
      destruct l as [j|j bs|j|j lv wr|j wr|j wr]; try done; cbn [sys_step].
      - destruct (sy_conns s !! j) as [c|]; [|done]. cbn [mbind option_bind]. rewrite decide_False; [done|]. by intros [? _].
      - destruct (sy_conns s !! j) as [c|] eqn:Ec; [|done]. cbn [mbind option_bind].
        destruct (decide (sy_thr s = TIn j)) as [Hj|]; [|done]. injection Hj as <-.
        cbn in Ec. injection Ec as <-. by vm_compute. }
    subst s'. vm_compute in Hc. injection Hc as <-. vm_compute in Hl. lia.
Qed.

(** A time-out in the head, while another request waits. *)
Example timeout_closes_ex :
  let s := HSys wn (TIn 0) (list_to_map [(0, HConn (B "GET /") false true [] []); (1, HConn hi false true [] [])]) in
  exists s', sys_step map_to_list echo_ro [] s (LTimeout 0 (WTake 0)) = Some s' /\ sy_thr s' = TFree /\
    exists c', sy_conns s' !! 0 = Some c' /\ hn_open c' = false.
Proof.
  intros s.
  assert (Hrun : sys_run map_to_list echo_ro [] (sys_new wn)
    [LOpen 0; LOpen 1; LSend 0 (B "GET /"); LServe 0 false (WTake 0); LSend 1 hi] = Some s) by run.
  destruct (timeout_frees_thread nat map_to_list echo_ro [] s 0 (HConn (B "GET /") false true [] []) (WTake 0))
    as (s' & Hs' & _); [by vm_compute| |by vm_compute|done|].
  { intros [r Hr]. revert Hr. apply dispatch_never_blocks. repeat constructor. by intros h c w [= <-]. }
  exists s'. split; [done|].
  destruct (timeout_closes_partial nat map_to_list echo_ro [] wn _ s 0 (HConn (B "GET /") false true [] []) (WTake 0) s'
    Hrun ltac:(by vm_compute) Hs') as (H1 & _ & (c' & H2 & H3 & _) & _); [by vm_compute|by_compute|no_match|].
  split; [done|]. by exists c'.
Qed.

(** The time-out comes in the body: the handler gets "h", and answers. *)
Theorem timeout_closes_refuted : ~ timeout_closes_full.
Proof.
  intros H.
  set (c := HConn (ex_text_of (B "h")) false true [] []).
  assert (Hrun : sys_run map_to_list echo_ro [] (sys_new wn) [LOpen 0; LSend 0 (ex_text_of (B "h")); LServe 0 false (WTake 0)]
    = Some (HSys wn (TIn 0) (list_to_map [(0, c)]))) by run.
  destruct (sys_step map_to_list echo_ro [] (HSys wn (TIn 0) (list_to_map [(0, c)])) (LTimeout 0 (WTake 0))) as [s'|] eqn:E;
    [|by vm_compute in E].
  destruct (H nat map_to_list echo_ro [] wn _ _ 0 c (WTake 0) s' valid_order_sorted Hrun ltac:(by vm_compute) E) as (_ & Hw & _).
  vm_compute in E. injection E as <-. by vm_compute in Hw.
Qed.

(** A peer whose first byte is a line feed. *)
Theorem process_stays_up_refuted : ~ process_stays_up_full.
Proof.
  intros H.
  destruct (sys_run map_to_list echo_ro [] (sys_new wn) [LOpen 0; LSend 0 [LF]; LServe 0 false (WTake 0)]) as [s|] eqn:E;
    [|by vm_compute in E].
  apply (H nat map_to_list echo_ro [] wn _ s valid_order_sorted) in E as Hs.
  - vm_compute in E. injection E as <-. by apply Hs.
  - intros p c w Hp. rewrite echo_dispatch by done. by eexists.
  - repeat constructor. by eexists.
Qed.

Example process_stays_up_ex : exists ls1 l ls2 s1 c,
  [LOpen 0; LSend 0 [LF]; LServe 0 false (WTake 0)] = ls1 ++ l :: ls2 /\
  sys_run map_to_list echo_ro [] (sys_new wn) ls1 = Some s1 /\ sy_conns s1 !! about l = Some c /\
  (~ short (hn_in c) \/ LF ∈ take 3 (hn_in c) \/ writes l = Some WSig \/ handlers_fail echo_ro (sy_world s1) (hn_in c)).
Proof.
  apply (process_stays_up_partial nat map_to_list echo_ro [] wn _ (HSys wn TDown (list_to_map [(0, HConn [LF] false true [] [])]))); [run|done].
Qed.

(** send(2) takes ten bytes of the answer; no more are sent. *)
Theorem all_bytes_sent_refuted : ~ all_bytes_sent_full.
Proof.
  intros H.
  specialize (H nat map_to_list echo_ro [] wn [LOpen 0; LSend 0 hi; LServe 0 false (WTake 10)]
    (HSys (World true (fun _ => Absent true) [] ∅ 1) TFree (list_to_map [(0, HConn [] false true [ok_text (B "hi")] (take 10 (ok_text (B "hi"))))]))
    0 (HConn [] false true [ok_text (B "hi")] (take 10 (ok_text (B "hi")))) ltac:(run) ltac:(by vm_compute)).
  assert (E : take 10 (ok_text (B "hi")) = concat [ok_text (B "hi")]); [|by vm_compute in E].
  apply H. repeat constructor. by eexists.
Qed.

Example all_bytes_sent_ex : forall c, sy_conns two_peers_end !! 0 = Some c -> hn_sent c = concat (hn_out c) /\ length (hn_out c) = 2.
Proof.
  intros c Hc. split; [|by injection Hc as <-].
  apply (all_bytes_sent_partial nat map_to_list echo_ro [] wn two_peers two_peers_end 0 c 99 two_peers_run Hc).
  - repeat constructor; cbn [takes]; intros Hx; first [done|eexists; split; [done|lia]].
  - injection Hc as <-. repeat constructor; vm_compute; lia.
Qed.

Print Assumptions stateless_router.
Print Assumptions all_answered_refuted.
Print Assumptions available_refuted.
Print Assumptions timeout_closes_partial.
Print Assumptions timeout_closes_refuted.
Print Assumptions timeout_frees_thread.
Print Assumptions process_stays_up_partial.
Print Assumptions process_stays_up_refuted.
Print Assumptions all_bytes_sent_partial.
Print Assumptions all_bytes_sent_refuted.
