(** C175, C176, C182, C183, C184: a server and all its clients
    (src/cppnet/http/client/http_client.cpp, HttpServer on TcpServer). *)
From Verif.Lib Require Import CxxStringFacts.
From Verif.Model Require Import ClientServer.
From Verif.Proof Require Import ReqProof ServerProof HttpSystemProof StrangerProof.
From Verif.Props Require Import MessageProps RouterProps ServerProps ClientProps HttpSystemProps.

(** ** Statements *)

(** What the server sends if the handlers have made [p]. *)
Definition reply (p : resp) : resp := if decide (rs_status p = sUNKNOWN) then resp_not_found p else p.

(** Requests served one after the other, beginning in world [w0]: client, request as
    the handlers see it, reply. *)
Definition event : Type := nat * req * resp.
Inductive serial {U} (ro : router U) (w0 : world U) : list event -> world U -> Prop :=
| serial_nil : serial ro w0 [] w0
| serial_snoc log w i r c' w' :
    serial ro w0 log w -> dispatch ro (rt_path (rq_route r)) (ctx_new r resp_new) w = Ok (c', w') ->
    serial ro w0 (log ++ [(i, r, reply (cx_resp c'))]) w'.
Definition of_client (i : nat) (log : list event) : list event := filter (fun x => x.1.1 = i) log.

(** [log] explains everything that the clients have seen and the world [wo]; besides the
    clients, there are peers of any kind, the strangers [X]. *)
Definition explained_with {U} (X : nat -> Prop) (ro : router U) (w0 wo : world U) (cls : gmap nat client) (log : list event) : Prop :=
  serial ro w0 log wo /\
  Forall (fun x => X x.1.1 \/ is_Some (cls !! x.1.1)) log /\
  forall i c, cls !! i = Some c ->
    length (cl_done c) <= length (of_client i log) <= length (cl_calls c) /\
    length (cl_calls c) <= S (length (cl_done c)) /\
    Forall2 (fun q x => same_request q x.1.2) (take (length (of_client i log)) (cl_calls c)) (of_client i log) /\
    Forall2 (fun o x => exists y, o = Ok y /\ st_rc y = kSuccess /\ same_response x.2 (st_resp y))
      (cl_done c) (take (length (cl_done c)) (of_client i log)).
Definition nobody (i : nat) : Prop := False.
Definition explained {U} : router U -> world U -> world U -> gmap nat client -> list event -> Prop := explained_with nobody.
Definition explains {U} (ro : router U) (w0 : world U) (s : nsys U) (log : list event) : Prop :=
  explained ro w0 (sy_world (ns_sys s)) (ns_clients s) log.

(** A request that survives its way to the handlers (C48), and whose answer survives
    its way back (C49) and has at most [M] bytes, in all worlds with [W], which lead to
    such worlds. *)
Record good_call {U} (M : nat) (W : world U -> Prop) (ro : router U) (q : req) : Prop := {
  gc_method : rq_method q <> mUNKNOWN; gc_version : rq_version q <> vUNKNOWN;
  gc_short : forall hit rit, valid_order hit -> valid_order rit -> short (snd (req_build hit rit q []));
  gc_header : ReqProof.sendable (rq_header q);
  gc_path : plain_except (B "?") (rt_path (rq_route q));
  gc_target : rt_path (rq_route q) <> [] \/ rt_params (rq_route q) <> ∅;
  gc_params : forall k v, rt_params (rq_route q) !! k = Some v -> plain_except (B "=&") k /\ "&"%char ∉ v;
  gc_body : NUL ∉ rq_body q;
  gc_answer : forall r w, W w -> same_request q r -> exists c' w',
    dispatch ro (rt_path (rq_route r)) (ctx_new r resp_new) w = Ok (c', w') /\ W w' /\
    let p := reply (cx_resp c') in
    resp_sendable (rs_header p) /\ rs_version p <> vUNKNOWN /\ NUL ∉ rs_body p /\
    forall hit, valid_order hit -> short (snd (resp_build hit p [])) /\ length (snd (resp_build hit p [])) <= M }.

(** Good calls; send(2) of the server takes [M] bytes; no time-outs. *)
Definition big (M : nat) (wr : wres) : Prop := exists n, wr = WTake n /\ M <= n.
Definition fair_label {U} (M : nat) (W : world U -> Prop) (ro : router U) (l : nlab) : Prop :=
  match l with
  | NCall _ hit rit q => valid_order hit /\ valid_order rit /\ good_call M W ro q
  | NServer (LServe _ _ wr) | NServer (LResume _ wr) => big M wr
  | NServer _ | NOther _ => False
  | _ => True
  end.
(** The same with strangers: they send what they like, send(2) to them does what it
    likes, and the receive time-out may end the waiting for them. *)
Definition fair_with {U} (X : nat -> Prop) (M : nat) (W : world U -> Prop) (ro : router U) (l : nlab) : Prop :=
  match l with
  | NConnect i => ~ X i
  | NCall _ hit rit q => valid_order hit /\ valid_order rit /\ good_call M W ro q
  | NServer (LServe i _ wr) | NServer (LResume i wr) => X i \/ big M wr
  | NServer (LTimeout i _) | NOther (LOpen i) | NOther (LSend i _) | NOther (LFin i) => X i
  | NServer _ | NOther _ => False
  | _ => True
  end.
(** No request leads out of [W] or makes a handler wait for ever. *)
Definition keeps {U} (W : world U -> Prop) (ro : router U) : Prop :=
  forall r w, W w -> match dispatch ro (rt_path (rq_route r)) (ctx_new r resp_new) w with
    | Ok (_, w') => W w' | Blocked => False | _ => True end.

(** Steps that are neither a client that comes or goes nor a new call. *)
Definition goes_on {U} (M : nat) (W : world U -> Prop) (ro : router U) (l : nlab) : Prop :=
  fair_label M W ro l /\ match l with NConnect _ | NClose _ | NCall _ _ _ _ => False | _ => True end.
Definition goes_on_with {U} (X : nat -> Prop) (M : nat) (W : world U -> Prop) (ro : router U) (l : nlab) : Prop :=
  fair_with X M W ro l /\ match l with NConnect _ | NClose _ | NCall _ _ _ _ | NOther _ => False | _ => True end.

(** ** Proofs *)

Definition more_sent (l' : list item) (t : tail) (x : sent) : sent :=
  Sent (st_rc x) (st_req x) (st_resp x) (more l' t (st_rest x)) (st_bytes x).

Lemma until_loop_tail d l t : forall ch buf len b s1, until_loop d l t ch buf = Ok (len, b, s1) -> sm_tail s1 = t.
Proof.
  induction l as [|[c|] l IH]; intros ch buf len b s1 E; cbn [until_loop] in E;
    destruct (until_goes_on d buf ch) as [[]| | | | |]; cbn [mbind outcome_bind] in E; try done;
    try (by injection E as _ _ <-); [|by eapply IH]. destruct t; try done; by injection E as _ _ <-.
Qed.

Lemma client_more hit rit wr q p l l' t :
  client_send true hit rit wr q p (Stream l Wait) <> Blocked ->
  client_send true hit rit wr q p (Stream (l ++ l') t) =
    ofmap (more_sent l' t) (client_send true hit rit wr q p (Stream l Wait)).
Proof.
  unfold client_send. cbn [negb]. destruct (req_build hit rit q []) as [[rc q1] msg].
  destruct (negb (rc =? kSuccess)%Z); [done|].
  destruct (sock_write wr msg) as [[len out]| | | | |]; cbn [mbind outcome_bind]; try done.
  destruct (len <=? 0)%Z; [done|].
  intros H.
  assert (Hu : read_until [] CRLFCRLF (Stream (l ++ l') t) = ofmap (more3 l' t) (read_until [] CRLFCRLF (Stream l Wait))).
  { unfold read_until in *. change CRLFCRLF with (CR :: drop 1 CRLFCRLF) in *. cbv iota beta in *. cbn [sm_items sm_tail] in *.
    apply until_loop_more. intros E. by rewrite E in H. }
  rewrite Hu. clear Hu.
  destruct (read_until [] CRLFCRLF (Stream l Wait)) as [[[len2 buf] s1]| | | | |] eqn:E1; cbn [mbind outcome_bind ofmap more3] in *; try done.
  assert (Ht : sm_tail s1 = Wait).
  { unfold read_until in E1. change CRLFCRLF with (CR :: drop 1 CRLFCRLF) in E1. cbv iota beta in E1. by apply until_loop_tail in E1. }
  cbn [fst snd] in *. destruct (len2 <=? 0)%Z; [done|].
  destruct (resp_parse p buf) as [[rc2 p1]| | | | |]; cbn [mbind outcome_bind] in *; try done.
  destruct (negb (rc2 =? kSuccess)%Z); [done|].
  destruct (0 <? header_get_content_length (rs_header p1))%Z; [|done].
  unfold read_string in *. destruct s1 as [l1 t1]. cbn in Ht. subst t1.
  set (n := Z.to_nat _) in *.
  assert (Hr : recv_all n (Stream l1 Wait) <> Blocked) by (intros E2; by rewrite E2 in H).
  unfold more at 1. cbn [sm_items sm_tail]. rewrite (recv_all_more _ _ _ _ Hr).
  destruct (recv_all n _) as [[[rc' b] s2]| | | | |]; cbn [mbind outcome_bind ofmap more3 fst snd] in *; try done.
  destruct (negb _); done.
Qed.

(** *** The two ends *)

Definition good_reply (p : resp) : Prop :=
  rs_status p <> sUNKNOWN /\ resp_sendable (rs_header p) /\ rs_version p <> vUNKNOWN /\ NUL ∉ rs_body p /\
  forall hit, valid_order hit -> short (snd (resp_build hit p [])).
Lemma reply_status p : rs_status (reply p) <> sUNKNOWN.
Proof. unfold reply. by case_decide. Qed.

Section ends.
Context {U : Type} (M : nat) (W : world U -> Prop) (ro : router U) (hit : iter_order) (e : bytes).
Context (Hit : valid_order hit).

Definition built_req (q : req) : req := Req (rq_method q) (rq_version q) (built_header q) (rq_route q) (rq_body q).
Definition msg_of (x : iter_order * iter_order * req) : bytes := snd (req_build x.1.1 x.1.2 x.2 []).
Definition text_of (p : resp) : bytes := snd (resp_build hit p []).

Lemma msg_built x : good_call M W ro x.2 -> req_build x.1.1 x.1.2 x.2 [] = (kSuccess, built_req x.2, msg_of x) /\ msg_of x <> [].
Proof.
  intros [Hm Hv]. unfold msg_of. rewrite req_build_ok by done. split; [done|]. cbn [snd]. intros E.
  apply (f_equal length) in E. rewrite !app_length in E. cbn in E. lia.
Qed.

Lemma server_whole x k w l t : W w -> valid_order x.1.1 -> valid_order x.1.2 -> good_call M W ro x.2 -> big M k ->
  exists c' w', dispatch ro (rt_path (rq_route (built_req x.2))) (ctx_new (built_req x.2) resp_new) w = Ok (c', w') /\ W w' /\
    good_reply (reply (cx_resp c')) /\
    handle_read hit k ro e w (Stream (map Byte (msg_of x) ++ l) t) =
      Ok (Served w' (Stream l t) [text_of (reply (cx_resp c'))] (text_of (reply (cx_resp c'))) false).
Proof.
  intros HW Hh Hr Hg (n & -> & Hn). destruct (msg_built x Hg) as [Hb _]. destruct x as [[ch cr] q]. cbn [fst snd] in *.
  destruct Hg as [Hm Hv Hs Hse Hpa Hta Hpr Hbo Han].
  destruct (Han (built_req q) w HW (built_same q)) as (c' & w' & Hd & HW' & Hp). exists c', w'. do 2 (split; [done|]).
  pose proof (reply_status (cx_resp c')) as Hst. destruct Hp as (H1 & H2 & H3 & H4).
  split; [split; [done|]; do 3 (split; [done|]); intros h Hv'; by apply H4|].
  pose proof (Hs ch cr Hh Hr) as Hs1. rewrite Hb in Hs1. cbn [snd] in Hs1.
  rewrite (built_handled ch cr hit q _ _ ro (WTake n) e w l t Hh Hr Hb Hs1 Hse Hpa Hta Hpr Hbo).
  fold (built_req q). rewrite (answer_ok _ _ _ _ _ _ _ _ _ Hd). unfold respond. fold (reply (cx_resp c')).
  destruct (H4 hit Hit) as [H4a H4b]. unfold text_of. rewrite resp_build_ok in * by done. cbn [snd] in *.
  change (negb (kSuccess =? kSuccess)%Z) with false. cbv iota. cbn [sock_write mbind outcome_bind].
  set (out := resp_built_line _ ++ _) in *. rewrite take_ge by lia.
  unfold rc_of. rewrite (proj2 (Z.ltb_ge _ _)) by lia. done.
Qed.

Lemma server_piece x k w b b' : W w -> valid_order x.1.1 -> valid_order x.1.2 -> good_call M W ro x.2 -> big M k ->
  b ++ b' = msg_of x -> b' <> [] -> handle_read hit k ro e w (Stream (map Byte b) Wait) = Blocked.
Proof.
  intros HW Hh Hr Hg Hk Hb Hne.
  destruct (server_whole x k w [] Wait HW Hh Hr Hg Hk) as (c' & w' & _ & _ & _ & H).
  rewrite <- Hb, app_nil_r, map_app in H.
  destruct (handle_read hit k ro e w (Stream (map Byte b) Wait)) as [v| | | | |] eqn:E; [| | | |done|];
    rewrite handle_read_more, E in H by (by rewrite E); try done.
  cbn [ofmap mbind outcome_bind] in H. unfold more_served in H. injection H as _ H _ _ _. destruct (sv_rest v) as [l1 t1].
  unfold more in H. cbn [sm_items sm_tail] in H. apply app_eq_nil in H as [_ H]. by apply map_Byte_nil in H.
Qed.

Lemma client_whole x p l t : good_call M W ro x.2 -> good_reply p ->
  exists y, client_send true x.1.1 x.1.2 (WTake (length (msg_of x))) x.2 resp_new (Stream (map Byte (text_of p) ++ l) t) = Ok y /\
    st_rc y = kSuccess /\ same_response p (st_resp y) /\ st_rest y = Stream l t.
Proof.
  intros Hg (Hst & Hse & Hv & Hn & Hs). destruct (msg_built x Hg) as [_ Hne]. destruct Hg as [Hm Hv' _ _ _ _ _ _ _].
  specialize (Hs hit Hit).
  assert (Hb : resp_build hit p [] = (kSuccess, Resp (rs_status p) (rs_version p) (resp_built_header p) (rs_body p), text_of p)).
  { unfold text_of. by rewrite resp_build_ok. }
  destruct (length (msg_of x)) as [|m] eqn:El; [by apply nil_length_inv in El|].
  by apply (response_arrives_partial x.1.1 x.1.2 hit x.2 p _ (text_of p) m l t Hit Hb).
Qed.
Lemma client_piece x p b b' : good_call M W ro x.2 -> good_reply p -> b ++ b' = text_of p -> b' <> [] ->
  client_send true x.1.1 x.1.2 (WTake (length (msg_of x))) x.2 resp_new (Stream (map Byte b) Wait) = Blocked.
Proof.
  intros Hg Hp Hb Hne. destruct (client_whole x p [] Wait Hg Hp) as (y & H & _ & _ & Hy).
  rewrite <- Hb, app_nil_r, map_app in H.
  destruct (client_send true x.1.1 x.1.2 (WTake (length (msg_of x))) x.2 resp_new (Stream (map Byte b) Wait))
    as [v| | | | |] eqn:E; [| | | |done|];
    rewrite client_more, E in H by (by rewrite E); try done.
  cbn [ofmap mbind outcome_bind] in H. injection H as <-. cbn [more_sent st_rest] in Hy. destruct (st_rest v) as [l1 t1].
  unfold more in Hy. cbn [sm_items sm_tail] in Hy. injection Hy as H. apply app_eq_nil in H as [_ H]. by apply map_Byte_nil in H.
Qed.
Lemma client_nothing x : good_call M W ro x.2 ->
  client_send true x.1.1 x.1.2 (WTake (length (msg_of x))) x.2 resp_new (Stream [] Wait) = Blocked.
Proof.
  intros Hg. destruct (msg_built x Hg) as [Hb Hne]. unfold client_send. cbn [negb]. rewrite Hb.
  change (negb (kSuccess =? kSuccess)%Z) with false. cbn [sock_write mbind outcome_bind]. rewrite firstn_all.
  assert ((rc_of (msg_of x) <=? 0)%Z = false) as ->.
  { apply Z.leb_gt. unfold rc_of. destruct (msg_of x); [done|]. cbn [length]. lia. }
  done.
Qed.
End ends.

(** *** Sums over maps *)

Definition msum {A} (f : A -> nat) (m : gmap nat A) : nat := map_fold (fun _ x n => f x + n) 0 m.
Lemma msum_insert_new {A} (f : A -> nat) m i y : m !! i = None -> msum f (<[i := y]> m) = f y + msum f m.
Proof. intros H. unfold msum. rewrite map_fold_insert_L; [done|intros; lia|done]. Qed.
Lemma msum_insert {A} (f : A -> nat) m i x y : m !! i = Some x -> msum f (<[i := y]> m) + f x = msum f m + f y.
Proof.
  intros H. rewrite <- insert_delete_insert. rewrite msum_insert_new by apply lookup_delete.
  rewrite <- (insert_delete m i x H) at 2. rewrite msum_insert_new by apply lookup_delete. lia.
Qed.

Lemma same_lookups {A} (m m' : gmap nat A) i y : m' !! i = Some y -> (forall j, j <> i -> m' !! j = m !! j) -> m' = <[i := y]> m.
Proof.
  intros H1 H2. apply map_eq. intros j. destruct (decide (j = i)) as [->|Hj]; [by rewrite lookup_insert|].
  rewrite lookup_insert_ne by done. by apply H2.
Qed.

(** *** Runs *)

Section runs.
Context {U : Type} (X : nat -> Prop) (M : nat) (W : world U -> Prop) (ro : router U) (hit : iter_order) (e : bytes).
Context (Hit : valid_order hit) (Hkeep : forall i, X i -> keeps W ro).
Implicit Types (c : client) (k : hconn) (s : nsys U).

(** Where a client and its connection are. *)
Inductive phase (i : nat) c k (mine : list event) : Prop :=
| PIdle :
    cl_now c = None -> cl_flight c = [] -> hn_in k = [] -> cl_read c = length (hn_sent k) ->
    length mine = length (cl_done c) -> length (cl_calls c) = length (cl_done c) -> phase i c k mine
| PAsk x qs :
    cl_now c = Some x -> valid_order x.1.1 -> valid_order x.1.2 -> good_call M W ro x.2 ->
    hn_in k ++ cl_flight c = msg_of x -> cl_read c = length (hn_sent k) ->
    length mine = length (cl_done c) -> cl_calls c = qs ++ [x.2] -> length qs = length (cl_done c) -> phase i c k mine
| PTold x before r p :
    cl_now c = Some x -> good_call M W ro x.2 -> good_reply p ->
    cl_flight c = [] -> hn_in k = [] -> cl_read c <= length (hn_sent k) -> drop (cl_read c) (hn_sent k) = text_of hit p ->
    mine = before ++ [(i, r, p)] -> length before = length (cl_done c) -> length (cl_calls c) = S (length (cl_done c)) ->
    phase i c k mine.

Definition seen_reqs c (mine : list event) : Prop :=
  Forall2 (fun q x => same_request q x.1.2) (take (length mine) (cl_calls c)) mine.
Definition seen_resps c (mine : list event) : Prop :=
  Forall2 (fun o x => exists y, o = Ok y /\ st_rc y = kSuccess /\ same_response x.2 (st_resp y))
    (cl_done c) (take (length (cl_done c)) mine).

Definition local (i : nat) (oc : option client) (ok : option hconn) (mine : list event) : Prop :=
  match oc, ok with
  | None, None => mine = []
  | None, Some k => X i
  | Some c, Some k =>
      ~ X i /\ (hn_fin k = false -> hn_open k = true) /\ (hn_fin k = true -> cl_now c = None) /\
      phase i c k mine /\ seen_reqs c mine /\ seen_resps c mine
  | _, _ => False
  end.
(** A client that has something to do has not left. *)
Lemma local_live i c k mine : local i (Some c) (Some k) mine -> is_Some (cl_now c) \/ hn_in k <> [] \/ cl_flight c <> [] ->
  hn_open k = true /\ hn_fin k = false /\ phase i c k mine /\ seen_reqs c mine /\ seen_resps c mine.
Proof.
  intros (_ & Ho & Hf & Hp & Hq & Hr) H.
  assert (Hn : is_Some (cl_now c)).
  { destruct H as [H|H]; [done|]. destruct Hp as [_ H4 H5 _ _ _|x qs H3 _ _ _ _ _ _ _ _|x bf r p H3 _ _ _ _ _ _ _ _ _]; [|by rewrite H3..].
    by destruct H. }
  destruct (hn_fin k); [rewrite Hf in Hn by done; by destruct Hn|]. split; [by apply Ho|done].
Qed.
Definition busy k : Prop := hn_in k <> [] /\ hn_open k = true.
Definition thr_ok s : Prop :=
  sy_thr (ns_sys s) = TFree \/
  (exists j k, sy_thr (ns_sys s) = TIn j /\ sy_conns (ns_sys s) !! j = Some k /\ busy k) \/
  sy_thr (ns_sys s) = TDown /\ exists i, X i.
Definition inv w0 s log : Prop :=
  (serial ro w0 log (sy_world (ns_sys s)) /\ W (sy_world (ns_sys s))) /\
  (forall i, local i (ns_clients s !! i) (sy_conns (ns_sys s) !! i) (of_client i log)) /\ thr_ok s.

Lemma of_client_snoc i log x : of_client i (log ++ [x]) = of_client i log ++ if decide (x.1.1 = i) then [x] else [].
Proof. unfold of_client. rewrite filter_app. f_equal. Qed.

Lemma of_client_other i j log log2 : Forall (fun x => x.1.1 = i) log2 -> i <> j -> of_client j (log ++ log2) = of_client j log.
Proof.
  intros Hf Hij. unfold of_client. rewrite filter_app. symmetry. rewrite <- app_nil_r at 1. f_equal. symmetry.
  induction Hf as [|x l Hx _ IH]; [done|]. rewrite filter_cons_False; [done|congruence].
Qed.

Lemma inv_explains w0 s log : inv w0 s log -> explained_with X ro w0 (sy_world (ns_sys s)) (ns_clients s) log.
Proof.
  intros ((Hs & _) & Hl & _). split; [done|]. split.
  - apply Forall_forall. intros x Hx. specialize (Hl x.1.1). destruct (ns_clients s !! x.1.1) as [c|]; [by right|].
    cbn [local] in Hl. destruct (sy_conns (ns_sys s) !! x.1.1); [by left|].
    assert (Hi : x ∈ of_client x.1.1 log) by (by apply elem_of_list_filter). rewrite Hl in Hi. by apply elem_of_nil in Hi.
  - intros i c Hc. specialize (Hl i). rewrite Hc in Hl. cbn [local] in Hl.
    destruct (sy_conns (ns_sys s) !! i) as [k|]; [|done]. destruct Hl as (_ & _ & _ & Hp & H1 & H2).
    split; [|split; [|done]].
    + destruct Hp as [H3 H4 H5 H6 H7 H8|x qs H3 H4 H5 H6 H7 H8 H9 H10 H11|x bf r p H3 H4 H5 H6 H7 H8 H9 H10 H11 H12];
        rewrite ?H10, ?app_length; cbn [length]; lia.
    + destruct Hp as [H3 H4 H5 H6 H7 H8|x qs H3 H4 H5 H6 H7 H8 H9 H10 H11|x bf r p H3 H4 H5 H6 H7 H8 H9 H10 H11 H12];
        rewrite ?H10, ?app_length; cbn [length]; lia.
Qed.

(** What the server does with a request that has arrived, in part or as a whole. *)
Lemma serve_asked w0 s log i c k wr : inv w0 s log -> big M wr ->
  ns_clients s !! i = Some c -> sy_conns (ns_sys s) !! i = Some k -> hn_in k <> [] ->
  let h := read_event hit ro e wr [] i k (ns_sys s) in
  (cl_flight c <> [] /\ h = HSys (sy_world (ns_sys s)) (TIn i) (sy_conns (ns_sys s))) \/
  (cl_flight c = [] /\ sy_thr h = TFree /\ (forall j, j <> i -> sy_conns h !! j = sy_conns (ns_sys s) !! j) /\
   (exists k', sy_conns h !! i = Some k' /\ hn_in k' = []) /\
   exists x, inv w0 (NSys h (ns_clients s)) (log ++ [x])).
Proof.
  intros ((Hser & HW) & Hl & Ht) Hwr Hc Hk Hne h. pose proof (Hl i) as Hli. rewrite Hc, Hk in Hli. assert (HX := proj1 Hli).
  apply local_live in Hli as (Ho & Hf & Hp & Hq & Hr); [|by right; left].
  destruct Hp as [_ _ H5 _ _ _|x qs H3 H4 H5 H6 H7 H8 H9 H10 H11|x bf r p _ _ _ _ H7 _ _ _ _ _]; [done| |done].
  destruct (cl_flight c) as [|ch fl] eqn:Ef.
  2: { left. split; [done|]. unfold h, read_event. rewrite Hf, app_nil_r.
    by rewrite (server_piece M W ro hit e Hit x wr _ (hn_in k) (ch :: fl) HW H4 H5 H6 Hwr H7). }
  right. split; [done|]. rewrite app_nil_r in H7.
  destruct (server_whole M W ro hit e Hit x wr (sy_world (ns_sys s)) [] Wait HW H4 H5 H6 Hwr) as (c' & w' & Hd & HW' & Hg & Hh).
  assert (Eh : h = HSys w' TFree (<[i := HConn [] false true (hn_out k ++ [text_of hit (reply (cx_resp c'))])
    (hn_sent k ++ text_of hit (reply (cx_resp c')))]> (sy_conns (ns_sys s)))).
  { unfold h, read_event. rewrite H7, Hf, Hh. done. }
  rewrite Eh. cbn [sy_thr sy_conns]. split; [done|]. split; [intros j Hj; by rewrite lookup_insert_ne|].
  split; [eexists; by rewrite lookup_insert|].
  exists (i, built_req x.2, reply (cx_resp c')). split; [split; [by eapply (serial_snoc ro w0 log (sy_world (ns_sys s)))|exact HW']|].
  split; [|by left]. intros j. cbn [ns_clients ns_sys sy_conns]. rewrite of_client_snoc. cbn [fst].
  case_decide as Hij.
  2: { rewrite app_nil_r, lookup_insert_ne by done. apply Hl. }
  subst j. rewrite Hc, lookup_insert. cbn [local hn_open hn_fin]. do 3 (split; [done|]). split.
  - apply (PTold i c _ _ x (of_client i log) (built_req x.2) (reply (cx_resp c'))); try done; cbn [hn_sent].
    + rewrite app_length. lia.
    + rewrite H8. by rewrite drop_app.
    + rewrite H10, app_length. cbn [length]. lia.
  - split.
    + unfold seen_reqs in *. rewrite app_length. cbn [length]. rewrite H10 in *. rewrite H9, <- H11 in *.
      rewrite take_app in Hq. rewrite take_ge by (rewrite app_length; cbn; lia).
      apply Forall2_app; [done|]. constructor; [|constructor]. cbn [fst snd]. apply built_same.
    + unfold seen_resps in *. rewrite take_app_le by lia. done.
Qed.

(** What it does with what a stranger sent. *)
Lemma serve_other w0 s log i k wr m : inv w0 s log -> ns_clients s !! i = None -> sy_conns (ns_sys s) !! i = Some k ->
  busy k -> m = [] \/ m = [Gap] ->
  let h := read_event hit ro e wr m i k (ns_sys s) in
  X i /\ (m = [Gap] -> sy_thr h <> TIn i) /\
  (h = HSys (sy_world (ns_sys s)) (TIn i) (sy_conns (ns_sys s)) \/
   h = HSys (sy_world (ns_sys s)) TDown (sy_conns (ns_sys s)) \/
   sy_thr h = TFree /\
   exists k', sy_conns h = <[i := k']> (sy_conns (ns_sys s)) /\ length (hn_in k') < length (hn_in k)) /\
  exists log2, inv w0 (NSys h (ns_clients s)) (log ++ log2).
Proof.
  intros ((Hser & HW) & Hl & Ht) Hc Hk [Hne Ho] Hm h. pose proof (Hl i) as HX. rewrite Hc, Hk in HX. cbn [local] in HX.
  pose proof (Hkeep i HX) as Hke. split; [done|].
  assert (Hbm : bytes_of (map Byte (hn_in k) ++ m) = hn_in k).
  { rewrite bytes_of_app. destruct Hm as [-> | ->]; cbn [bytes_of]; rewrite app_nil_r; clear; induction (hn_in k) as [|c l IH]; cbn [map bytes_of]; by rewrite ?IH. }
  unfold h, read_event. set (st := Stream _ _).
  destruct (handle_read hit wr ro e (sy_world (ns_sys s)) st) as [v| | | | |] eqn:E.
  - cbn [sy_thr sy_conns]. split; [done|]. pose proof E as E'. apply handle_read_what in E' as [Hw Hlen].
    cbn [st sm_items] in Hlen. rewrite Hbm in Hlen. split.
    + right. right. split; [done|]. eexists. split; [done|]. cbn [hn_in]. destruct (hn_in k); [done|]. cbn [map app length] in *. lia.
    + assert (Hw' : W (sv_world v) /\ exists log2, serial ro w0 (log ++ log2) (sv_world v) /\ Forall (fun x => x.1.1 = i) log2).
      { destruct Hw as [-> |(r & c' & Hd)]; [split; [done|]; exists []; by rewrite app_nil_r|].
        split; [specialize (Hke r _ HW); by rewrite Hd in Hke|]. exists [(i, r, reply (cx_resp c'))]. split; [by eapply serial_snoc|].
        by repeat constructor. }
      destruct Hw' as (HW' & log2 & Hs2 & Hf2). exists log2. split; [done|]. split; [|by left].
      intros j. cbn [ns_clients ns_sys sy_conns]. destruct (decide (i = j)) as [<-|Hij]; [by rewrite Hc, lookup_insert|].
      rewrite lookup_insert_ne by done. rewrite (of_client_other i j) by done. apply Hl.
  - split; [done|]. split; [by right; left|]. exists []. rewrite app_nil_r. split; [done|]. split; [done|]. right. right. split; [done|by exists i].
  - split; [done|]. split; [by right; left|]. exists []. rewrite app_nil_r. split; [done|]. split; [done|]. right. right. split; [done|by exists i].
  - split; [done|]. split; [by right; left|]. exists []. rewrite app_nil_r. split; [done|]. split; [done|]. right. right. split; [done|by exists i].
  - split.
    { intros ->. exfalso. revert E. apply handle_read_gives_up. intros r Hd. specialize (Hke r _ HW). by rewrite Hd in Hke. }
    split; [by left|]. exists []. rewrite app_nil_r. split; [done|]. split; [done|]. right. left. by exists i, k.
  - split; [done|]. split; [by right; left|]. exists []. rewrite app_nil_r. split; [done|]. split; [done|]. right. right. split; [done|by exists i].
Qed.

Lemma inv_step w0 s log l s' : inv w0 s log -> fair_with X M W ro l -> n_step hit ro e s l = Some s' ->
  exists log2, inv w0 s' (log ++ log2).
Proof.
  intros Hinv Hfair Hl. pose proof Hinv as (Hser & Hloc & Ht).
  assert (Hserve : forall i wr, X i \/ big M wr -> forall k, sy_conns (ns_sys s) !! i = Some k -> busy k ->
    exists log2, inv w0 (NSys (read_event hit ro e wr [] i k (ns_sys s)) (ns_clients s)) (log ++ log2)).
  { intros i wr Hwr k Hk [Hne Ho]. pose proof (Hloc i) as Hli. rewrite Hk in Hli.
    destruct (ns_clients s !! i) as [c|] eqn:Hc.
    2: { by destruct (serve_other w0 s log i k wr [] Hinv Hc Hk (conj Hne Ho) (or_introl eq_refl)) as (_ & _ & _ & ?). }
    destruct Hwr as [Hwr|Hwr]; [by destruct (proj1 Hli)|].
    destruct (serve_asked w0 s log i c k wr Hinv Hwr Hc Hk Hne) as [[_ ->]|(_ & _ & _ & _ & x & Hx)].
    - exists []. rewrite app_nil_r. split; [done|]. split; [done|]. right. left. exists i, k. split; [done|]. split; [done|]. split; [done|].
      by apply local_live in Hli as (? & _); [|right; left].
    - by exists [x]. }
  destruct l as [i|i|i chit crit q|i n|l|i n|l]; cbn [n_step] in Hl.
  - cbn [sys_step] in Hl. case_decide as Hd; [|done]. destruct Hd as [Hd1 Hd2]. cbn [mbind option_bind] in Hl. injection Hl as <-.
    exists []. rewrite app_nil_r. split; [done|]. split; [|by left].
    intros j. cbn [ns_clients ns_sys with_conn sy_conns]. destruct (decide (i = j)) as [<-|Hij].
    2: { rewrite !lookup_insert_ne by done. apply Hloc. }
    rewrite !lookup_insert. specialize (Hloc i). rewrite Hd2 in Hloc. destruct (ns_clients s !! i); [done|].
    cbn [local] in Hloc. rewrite Hloc. cbn [local]. do 3 (split; [done|]). split; [by apply PIdle|]. split; constructor.
  - destruct (ns_clients s !! i) as [c|] eqn:Hc; [|done]. cbn [mbind option_bind] in Hl. case_decide as Hd; [|done]. destruct Hd as [Hd1 Hd2].
    cbn [sys_step] in Hl. destruct (sy_conns (ns_sys s) !! i) as [k|] eqn:Hk; [|done]. cbn [mbind option_bind] in Hl.
    destruct (hn_open k) eqn:Eo; [|done]. cbn [mbind option_bind] in Hl. injection Hl as <-.
    exists []. rewrite app_nil_r. split; [done|].
    pose proof (Hloc i) as Hli. rewrite Hc, Hk in Hli. cbn [local] in Hli. destruct Hli as (HX & Ho & Hf & Hp & Hq & Hrs).
    destruct Hp as [H3 H4 H5 H6 H7 H8|x qs H3|x bf r p H3]; [|congruence..].
    split.
    + intros j. cbn [ns_clients ns_sys with_conn sy_conns]. destruct (decide (i = j)) as [<-|Hij].
      2: { rewrite !lookup_insert_ne by done. apply Hloc. }
      rewrite Hc, !lookup_insert. cbn [local hn_open hn_fin]. do 3 (split; [done|]). split; [|done]. by apply PIdle.
    + unfold thr_ok. cbn [ns_sys with_conn sy_thr sy_conns].
      destruct Ht as [Ht|[(j & kj & Ht & Hkj & Hne)|Ht]]; [by left| |by right; right]. right. left. exists j, kj.
      destruct (decide (i = j)) as [<-|Hij]; [destruct Hne; congruence|]. by rewrite lookup_insert_ne.
  - destruct (ns_clients s !! i) as [c|] eqn:Hc; [|done]. cbn [mbind option_bind] in Hl.
    destruct (sy_conns (ns_sys s) !! i) as [k|] eqn:Hk; [|done]. cbn [mbind option_bind] in Hl.
    destruct (cl_now c) eqn:En; [done|]. destruct (hn_fin k) eqn:Efin; [done|]. destruct Hfair as (Hh & Hr & Hg).
    destruct (msg_built M W ro hit e Hit (chit, crit, q) Hg) as [Hb _]. cbn [fst snd] in Hb. rewrite Hb in Hl.
    change (kSuccess =? kSuccess)%Z with true in Hl. injection Hl as <-.
    exists []. rewrite app_nil_r. split; [done|]. split; [|done].
    intros j. cbn [ns_clients ns_sys]. destruct (decide (i = j)) as [<-|Hij].
    2: { rewrite !lookup_insert_ne by done. apply Hloc. }
    specialize (Hloc i). rewrite Hc, Hk in Hloc. rewrite lookup_insert, Hk. cbn [local] in *.
    destruct Hloc as (HX & Ho & Hf & Hp & Hq & Hrs).
    destruct Hp as [_ H4 H5 H6 H7 H8|x qs H3|x bf r p H3]; [|congruence..].
    do 2 (split; [done|]). split; [by rewrite Efin|]. split; [|split].
    + apply (PAsk i _ k _ (chit, crit, q) (cl_calls c)); try done. cbn [cl_flight]. by rewrite H4, H5.
    + unfold seen_reqs in *. cbn [cl_calls]. rewrite take_app_le by lia. done.
    + exact Hrs.
  - destruct (ns_clients s !! i) as [c|] eqn:Hc; [|done]. cbn [mbind option_bind] in Hl. case_decide as Hn; [|done].
    cbn [sys_step] in Hl. destruct (sy_conns (ns_sys s) !! i) as [k|] eqn:Hk; [|done]. cbn [mbind option_bind] in Hl.
    destruct (hn_open k && negb (hn_fin k)) eqn:Eo; [|done]. cbn [mbind option_bind] in Hl. injection Hl as <-.
    exists []. rewrite app_nil_r. split; [done|].
    pose proof (Hloc i) as Hli. rewrite Hc, Hk in Hli. assert (HX := proj1 Hli).
    apply local_live in Hli as (Ho & Hf & Hp & Hq & Hrs); [|right; right; intros E; rewrite E in Hn; cbn in Hn; lia].
    destruct Hp as [_ H4 _ _ _ _|x qs H3 H4 H5 H6 H7 H8 H9 H10 H11|x bf r p _ _ _ H6 _ _ _ _ _ _];
      [rewrite H4 in Hn; cbn in Hn; lia| |rewrite H6 in Hn; cbn in Hn; lia].
    split.
    + intros j. cbn [ns_clients ns_sys with_conn sy_conns]. destruct (decide (i = j)) as [<-|Hij].
      2: { rewrite !lookup_insert_ne by done. apply Hloc. }
      rewrite !lookup_insert. cbn [local hn_open hn_fin]. do 2 (split; [done|]). split; [by rewrite Hf|]. split; [|done].
      apply (PAsk i _ _ _ x qs); try done. cbn [hn_in cl_flight]. rewrite <- app_assoc, take_drop. done.
    + unfold thr_ok. cbn [ns_sys with_conn sy_thr sy_conns].
      destruct Ht as [Ht|[(j & kj & Ht & Hkj & Hne)|Ht]]; [by left| |by right; right]. right. left. exists j.
      destruct (decide (i = j)) as [<-|Hij].
      * eexists. rewrite lookup_insert. split; [done|]. split; [done|]. cbn [hn_in].
        rewrite Hk in Hkj. injection Hkj as <-. split; [|by apply Hne]. intros E. by apply app_eq_nil in E as [? _]; destruct Hne.
      * exists kj. by rewrite lookup_insert_ne.
  - destruct l as [j|j bs|j|j lv wr|j wr|j wr]; try done; cbn [fair_with] in Hfair.
    + cbn [sys_step] in Hl. destruct (sy_conns (ns_sys s) !! j) as [k|] eqn:Hk; [|done]. cbn [mbind option_bind] in Hl.
      case_decide as Hd; [|done]. destruct Hd as (Hd1 & Hd2 & Hd3).
      pose proof (Hloc j) as Hlj. rewrite Hk in Hlj.
      destruct lv.
      * destruct (hn_fin k) eqn:Hfin; [|done]. cbn [mbind option_bind] in Hl. injection Hl as <-.
        exists []. rewrite app_nil_r. split; [done|]. split; [|by left].
        intros j'. cbn [ns_clients ns_sys with_conn sy_conns]. destruct (decide (j = j')) as [<-|Hij].
        2: { rewrite !lookup_insert_ne by done. apply Hloc. }
        rewrite lookup_insert. destruct (ns_clients s !! j) as [c|] eqn:Hc; [|done]. cbn [local hn_open hn_fin] in *.
        destruct Hlj as (HX & Ho & Hf & Hp & Hq & Hrs). do 2 (split; [done|]). split; [intros _; by apply Hf|]. split; [|done].
        destruct Hp as [H3 H4 H5 H6 H7 H8|x qs H3|x bf r p H3]; [|rewrite (Hf Hfin) in H3; done..]. by apply PIdle.
      * cbn [mbind option_bind] in Hl. injection Hl as <-. destruct (decide (hn_in k = [])) as [Hin|Hne]; [|by apply Hserve].
        destruct Hd3 as [|Hfin]; [done|].
        assert (Hnone : handle_read hit wr ro e (sy_world (ns_sys s)) (Stream (map Byte [] ++ []) Eof) =
          Ok (Served (sy_world (ns_sys s)) (Stream [] Eof) [] [] true)) by reflexivity.
        unfold read_event. rewrite Hin, Hfin, Hnone. cbn [sv_rest sv_world sv_closed sv_wrote sv_sent sm_items bytes_of negb].
        exists []. rewrite (app_nil_r log). split; [exact Hser|]. split; [|by left].
        intros j'. cbn [ns_clients ns_sys sy_conns]. destruct (decide (j = j')) as [<-|Hij].
        2: { rewrite !lookup_insert_ne by done. apply Hloc. }
        rewrite lookup_insert. destruct (ns_clients s !! j) as [c|] eqn:Hc; [|done]. cbn [local hn_open hn_fin] in *.
        destruct Hlj as (HX & Ho & Hf & Hp & Hq & Hrs). do 2 (split; [done|]). split; [intros _; by apply Hf|]. split; [|done].
        destruct Hp as [H3 H4 H5 H6 H7 H8|x qs H3|x bf r p H3]; [|rewrite (Hf Hfin) in H3; done..].
        apply PIdle; cbn [hn_in hn_sent]; try done. by rewrite app_nil_r.
    + cbn [sys_step] in Hl. destruct (sy_conns (ns_sys s) !! j) as [k|] eqn:Hk; [|done]. cbn [mbind option_bind] in Hl.
      case_decide as Hd; [|done]. cbv zeta in Hl. case_decide; [done|]. cbn [mbind option_bind] in Hl. injection Hl as <-.
      apply Hserve; [done..|]. destruct Ht as [Ht|[(j' & kj & Ht & Hkj & Hne)|[Ht _]]]; [congruence| |congruence].
      assert (j' = j) as -> by congruence. rewrite Hk in Hkj. injection Hkj as <-. by apply Hne.
    + cbn [sys_step] in Hl. destruct (sy_conns (ns_sys s) !! j) as [k|] eqn:Hk; [|done]. cbn [mbind option_bind] in Hl.
      case_decide as Hd; [|done]. cbn [mbind option_bind] in Hl. injection Hl as <-.
      assert (Hne : busy k).
      { destruct Ht as [Ht|[(j' & kj & Ht & Hkj & Hne)|[Ht _]]]; [congruence| |congruence].
        assert (j' = j) as -> by congruence. rewrite Hk in Hkj. injection Hkj as <-. by apply Hne. }
      pose proof (Hloc j) as Hlj. rewrite Hk in Hlj. destruct (ns_clients s !! j) as [c|] eqn:Hc; [by destruct (proj1 Hlj)|].
      by destruct (serve_other w0 s log j k wr [Gap] Hinv Hc Hk Hne (or_intror eq_refl)) as (_ & _ & _ & ?).
  - destruct (ns_clients s !! i) as [c|] eqn:Hc; [|done]. cbn [mbind option_bind] in Hl.
    destruct (cl_now c) as [x|] eqn:En; [|done]. cbn [mbind option_bind] in Hl.
    destruct (sy_conns (ns_sys s) !! i) as [k|] eqn:Hk; [|done]. cbn [mbind option_bind] in Hl.
    pose proof (Hloc i) as Hli. rewrite Hc, Hk in Hli. assert (HX := proj1 Hli).
    apply local_live in Hli as (Ho & Hf & Hp & Hq & Hrs); [|left; by rewrite En].
    destruct x as [[chit crit] q]. rewrite Ho in Hl. cbn [orb] in Hl.
    change (snd (req_build chit crit q [])) with (msg_of (chit, crit, q)) in Hl.
    set (got := take n (drop (cl_read c) (hn_sent k))) in *.
    destruct Hp as [H3|x qs H3 H4 H5 H6 H7 H8 H9 H10 H11|x bf r p H3 H4 H5 H6 H7 H8 H9 H10 H11 H12]; [congruence| |].
    + assert (E : got = []) by (unfold got; rewrite H8, drop_all; by destruct n).
      rewrite E in Hl. cbn [map] in Hl. rewrite En in H3. injection H3 as <-.
      pose proof (client_nothing M W ro hit e Hit (chit, crit, q) H6) as Hx. cbn [fst snd] in Hx. by rewrite Hx in Hl.
    + rewrite En in H3. injection H3 as <-. unfold got in Hl. rewrite H9 in Hl. clear got.
      destruct (decide (drop n (text_of hit p) = [])) as [Hd|Hd].
      2: { pose proof (client_piece M W ro hit e Hit (chit, crit, q) p (take n (text_of hit p)) (drop n (text_of hit p)) H4 H5
             (take_drop _ _) Hd) as Hx. cbn [fst snd] in Hx. by rewrite Hx in Hl. }
      assert (Htk : take n (text_of hit p) = text_of hit p).
      { rewrite <- (take_drop n (text_of hit p)) at 2. by rewrite Hd, app_nil_r. }
      rewrite Htk in Hl. destruct (client_whole M W ro hit e Hit (chit, crit, q) p [] Wait H4 H5) as (y & Hy & Hrc & Hsame & Hrest).
      cbn [fst snd] in Hy. rewrite app_nil_r in Hy. rewrite Hy, Hrest in Hl. cbn [sm_items bytes_of length] in Hl.
      injection Hl as <-. exists []. rewrite app_nil_r. split; [done|]. split; [|done].
      intros j. cbn [ns_clients ns_sys]. destruct (decide (i = j)) as [<-|Hij].
      2: { rewrite !lookup_insert_ne by done. apply Hloc. }
      rewrite lookup_insert, Hk. cbn [local]. do 3 (split; [done|]). split; [|split].
      * apply PIdle; cbn [cl_now cl_flight cl_read cl_done cl_calls]; try done.
        -- rewrite Nat.sub_0_r. rewrite <- H9, drop_length. lia.
        -- rewrite H10, !app_length. cbn [length]. lia.
        -- rewrite app_length. cbn [length]. lia.
      * done.
      * unfold seen_resps in *. cbn [cl_done]. rewrite app_length. cbn [length]. rewrite H10 in *. rewrite <- H11 in *.
        rewrite take_app in Hrs. rewrite take_ge by (rewrite app_length; cbn; lia).
        apply Forall2_app; [done|]. constructor; [|constructor]. by exists y.
  - assert (Hother : forall i k', X i -> ns_clients s !! i = None ->
      (forall k, sy_conns (ns_sys s) !! i = Some k -> busy k -> busy k') ->
      exists log2, inv w0 (NSys (with_conn (ns_sys s) i k') (ns_clients s)) (log ++ log2)).
    { intros i k' HX Hc Hne. exists []. rewrite app_nil_r. split; [done|]. split.
      - intros j. cbn [ns_clients ns_sys with_conn sy_conns]. destruct (decide (i = j)) as [<-|Hij].
        + rewrite Hc, lookup_insert. exact HX.
        + rewrite lookup_insert_ne by done. apply Hloc.
      - unfold thr_ok. cbn [ns_sys with_conn sy_thr sy_conns].
        destruct Ht as [Ht|[(j & kj & Ht & Hkj & Hn)|Ht]]; [by left| |by right; right]. right. left. exists j.
        destruct (decide (i = j)) as [<-|Hij].
        + exists k'. rewrite lookup_insert. split; [done|]. split; [done|]. by apply (Hne kj).
        + exists kj. by rewrite lookup_insert_ne. }
    destruct l as [i|i bs|i|i lv wr|i wr|i wr]; try done; cbn [fair_with mbind option_bind] in *;
      (destruct (ns_clients s !! i) as [c|] eqn:Hc; [done|]); cbn [sys_step] in Hl.
    + case_decide as Hd; [|done]. cbn [mbind option_bind] in Hl. injection Hl as <-. apply Hother; [done..|].
      intros k Hk. by rewrite (proj2 Hd) in Hk.
    + destruct (sy_conns (ns_sys s) !! i) as [k|] eqn:Hk; [|done]. cbn [mbind option_bind] in Hl. destruct (_ && _); [|done].
      cbn [mbind option_bind] in Hl. injection Hl as <-. apply Hother; [done..|].
      intros k0 E0 [Hn Ho]. rewrite Hk in E0. injection E0 as <-. split; [|done]. intros E. by apply app_eq_nil in E as [? _].
    + destruct (sy_conns (ns_sys s) !! i) as [k|] eqn:Hk; [|done]. cbn [mbind option_bind] in Hl. destruct (hn_open k); [|done].
      cbn [mbind option_bind] in Hl. injection Hl as <-. apply Hother; [done..|].
      intros k0 E0 [Hn _]. rewrite Hk in E0. by injection E0 as <-.
Qed.

Lemma inv_new w0 : W w0 -> inv w0 (n_new w0) [].
Proof.
  intros HW. split; [split; [constructor|exact HW]|]. split; [|by left]. intros i. cbn. by rewrite !lookup_empty.
Qed.
Lemma inv_run w0 ls : forall s log s', inv w0 s log -> Forall (fair_with X M W ro) ls -> n_run hit ro e s ls = Some s' ->
  exists log2, inv w0 s' (log ++ log2).
Proof.
  induction ls as [|l ls IH]; intros s log s' Hi Hf H; cbn [n_run] in H.
  - injection H as <-. exists []. by rewrite app_nil_r.
  - apply Forall_cons in Hf as [Hfl Hf]. destruct (n_step hit ro e s l) as [s1|] eqn:E; [|done]. cbn [mbind option_bind] in H.
    destruct (inv_step _ _ _ _ _ Hi Hfl E) as (l1 & H1). destruct (IH _ _ _ H1 Hf H) as (l2 & H2).
    exists (l1 ++ l2). by rewrite app_assoc.
Qed.

(** *** Every call comes back *)

Definition left_to_do s : nat :=
  3 * msum (fun c => length (cl_flight c)) (ns_clients s) + 2 * msum (fun k => length (hn_in k)) (sy_conns (ns_sys s)) +
  match sy_thr (ns_sys s) with TFree => 2 | TIn _ => 1 | TDown => 0 end + msum (fun k => if hn_open k then 1 else 0) (sy_conns (ns_sys s)) +
  msum (fun c => if cl_now c then 1 else 0) (ns_clients s).

Lemma less_to_do w0 s log l s' : inv w0 s log -> goes_on_with X M W ro l -> n_step hit ro e s l = Some s' -> left_to_do s' < left_to_do s.
Proof.
  intros Hinv [Hfair Hgo] Hl. pose proof Hinv as (Hser & Hloc & Ht).
  assert (Hserve : forall i wr m k h, X i \/ big M wr -> sy_conns (ns_sys s) !! i = Some k -> hn_in k <> [] -> hn_open k = true ->
    m = [] \/ m = [Gap] /\ X i -> h = read_event hit ro e wr m i k (ns_sys s) ->
    sy_thr (ns_sys s) = TFree \/ sy_thr (ns_sys s) = TIn i /\ sy_thr h <> TIn i -> left_to_do (NSys h (ns_clients s)) < left_to_do s).
  { intros i wr m k h Hwr Hk Hne Ho Hm Eh Hthr. pose proof (Hloc i) as Hli. rewrite Hk in Hli.
    assert (Hw : exists n, match sy_thr (ns_sys s) with TFree => 2 | TIn _ => 1 | TDown => 0 end = n /\ 1 <= n /\ (sy_thr h = TIn i -> n = 2)).
    { destruct Hthr as [Hthr|[Hthr ?]]; rewrite Hthr; eexists; (split; [done|]); split; try lia; done. }
    destruct Hw as (n & Hn & Hn1 & Hn2). unfold left_to_do. cbn [ns_sys ns_clients]. rewrite Hn. clear Hthr.
    assert (Hread : sy_thr h = TFree -> (exists k', sy_conns h = <[i := k']> (sy_conns (ns_sys s)) /\ length (hn_in k') < length (hn_in k)) ->
      3 * msum (fun c => length (cl_flight c)) (ns_clients s) + 2 * msum (fun k => length (hn_in k)) (sy_conns h) +
      match sy_thr h with TFree => 2 | TIn _ => 1 | TDown => 0 end + msum (fun k => if hn_open k then 1 else 0) (sy_conns h) +
      msum (fun c => if cl_now c then 1 else 0) (ns_clients s) <
      3 * msum (fun c => length (cl_flight c)) (ns_clients s) + 2 * msum (fun k => length (hn_in k)) (sy_conns (ns_sys s)) + n +
      msum (fun k => if hn_open k then 1 else 0) (sy_conns (ns_sys s)) + msum (fun c => if cl_now c then 1 else 0) (ns_clients s)).
    { intros -> (k' & -> & Hlt).
      pose proof (msum_insert (fun k => length (hn_in k)) _ i k k' Hk) as Hm1. cbn beta in Hm1.
      pose proof (msum_insert (fun k => if hn_open k then 1 else 0) _ i k k' Hk) as Hm2. cbn beta in Hm2. rewrite Ho in Hm2.
      assert ((if hn_open k' then 1 else 0) <= 1) by (destruct (hn_open k'); lia). lia. }
    destruct (ns_clients s !! i) as [c|] eqn:Hc.
    - assert (HX := proj1 Hli). destruct Hwr as [Hwr|Hwr]; [done|]. destruct Hm as [-> |[_ ?]]; [|done].
      destruct (serve_asked w0 s log i c k wr Hinv Hwr Hc Hk Hne) as [[_ E]|(_ & E & Hoth & (k' & Hk' & Hin) & _)]; rewrite <- Eh in *.
      + rewrite E in *. cbn [sy_thr sy_conns] in *. specialize (Hn2 eq_refl). lia.
      + apply Hread; [done|]. exists k'. split; [by apply same_lookups|]. rewrite Hin. destruct (hn_in k); [done|]. cbn; lia.
    - destruct (serve_other w0 s log i k wr m Hinv Hc Hk (conj Hne Ho)) as (_ & _ & H & _); [naive_solver|]. rewrite <- Eh in H.
      destruct H as [E|[E|[E H]]]; [rewrite E in *; cbn [sy_thr sy_conns] in *..|by apply Hread]; [specialize (Hn2 eq_refl)|]; lia. }
  destruct l as [i|i|i chit crit q|i n|l|i n|l]; cbn [n_step] in Hl; try done.
  - destruct (ns_clients s !! i) as [c|] eqn:Hc; [|done]. cbn [mbind option_bind] in Hl. case_decide as Hn; [|done].
    cbn [sys_step] in Hl. destruct (sy_conns (ns_sys s) !! i) as [k|] eqn:Hk; [|done]. cbn [mbind option_bind] in Hl.
    destruct (hn_open k && negb (hn_fin k)) eqn:Eo; [|done]. cbn [mbind option_bind] in Hl. injection Hl as <-.
    unfold left_to_do. cbn [ns_sys ns_clients with_conn sy_thr sy_conns].
    match goal with |- context [<[i := ?c']> (ns_clients s)] =>
      pose proof (msum_insert (fun c => length (cl_flight c)) _ i c c' Hc) as H1;
      pose proof (msum_insert (fun c => if cl_now c then 1 else 0) _ i c c' Hc) as H2 end.
    match goal with |- context [<[i := ?k']> (sy_conns (ns_sys s))] =>
      pose proof (msum_insert (fun k => length (hn_in k)) _ i k k' Hk) as H3;
      pose proof (msum_insert (fun k => if hn_open k then 1 else 0) _ i k k' Hk) as H4 end.
    cbn [cl_flight cl_now hn_in hn_open] in H1, H2, H3, H4. rewrite drop_length in H1. rewrite app_length, take_length in H3. lia.
  - assert (Hshut : forall j k k', sy_conns (ns_sys s) !! j = Some k -> hn_open k = true -> hn_in k' = hn_in k -> hn_open k' = false ->
      left_to_do (NSys (with_conn (ns_sys s) j k') (ns_clients s)) < left_to_do s).
    { intros j k k' Hk Ho Hi Ho'. unfold left_to_do. cbn [ns_sys ns_clients with_conn sy_thr sy_conns].
      pose proof (msum_insert (fun k => length (hn_in k)) _ j k k' Hk) as H3.
      pose proof (msum_insert (fun k => if hn_open k then 1 else 0) _ j k k' Hk) as H4. cbn beta in H3, H4.
      rewrite Hi in H3. rewrite Ho, Ho' in H4. lia. }
    assert (Hin : forall j k, sy_thr (ns_sys s) = TIn j -> sy_conns (ns_sys s) !! j = Some k -> busy k).
    { intros j k Hd Hk. destruct Ht as [Ht|[(j' & kj & Ht & Hkj & Hne)|[Ht _]]]; [congruence| |congruence].
      assert (j' = j) as -> by congruence. rewrite Hk in Hkj. by injection Hkj as <-. }
    destruct l as [j|j bs|j|j lv wr|j wr|j wr]; try done; cbn [fair_with] in Hfair; cbn [sys_step] in Hl;
      (destruct (sy_conns (ns_sys s) !! j) as [k|] eqn:Hk; [|done]); cbn [mbind option_bind] in Hl.
    + case_decide as Hd; [|done]. destruct Hd as (Hd1 & Hd2 & Hd3). destruct lv.
      * destruct (hn_fin k); [|done]. cbn [mbind option_bind] in Hl. injection Hl as <-. by eapply Hshut.
      * cbn [mbind option_bind] in Hl. injection Hl as <-. destruct (decide (hn_in k = [])) as [Hin0|Hne].
        2: { eapply (Hserve j wr []); [done..|by left|done|by left]. }
        destruct Hd3 as [|Hfin]; [done|].
        assert (Hnone : handle_read hit wr ro e (sy_world (ns_sys s)) (Stream (map Byte [] ++ []) Eof) =
          Ok (Served (sy_world (ns_sys s)) (Stream [] Eof) [] [] true)) by reflexivity.
        unfold read_event. rewrite Hin0, Hfin, Hnone. rewrite <- Hd1. by eapply Hshut.
    + case_decide as Hd; [|done]. cbv zeta in Hl. case_decide; [done|]. cbn [mbind option_bind] in Hl. injection Hl as <-.
      destruct (Hin j k Hd Hk). eapply (Hserve j wr []); [done..|by left|done|by right].
    + case_decide as Hd; [|done]. cbn [mbind option_bind] in Hl. injection Hl as <-.
      destruct (Hin j k Hd Hk) as [Hne Ho]. eapply (Hserve j wr [Gap]); [by left|done..|by right|done|right; split; [done|]].
      pose proof (Hloc j) as Hlj. rewrite Hk in Hlj. destruct (ns_clients s !! j) as [c|] eqn:Hc; [by destruct (proj1 Hlj)|].
      by destruct (serve_other w0 s log j k wr [Gap] Hinv Hc Hk (conj Hne Ho) (or_intror eq_refl)) as (_ & H & _); apply H.
  - destruct (ns_clients s !! i) as [c|] eqn:Hc; [|done]. cbn [mbind option_bind] in Hl.
    destruct (cl_now c) as [x|] eqn:En; [|done]. cbn [mbind option_bind] in Hl.
    destruct (sy_conns (ns_sys s) !! i) as [k|] eqn:Hk; [|done]. cbn [mbind option_bind] in Hl.
    destruct x as [[chit crit] q].
    assert (Hs' : exists c', s' = NSys (ns_sys s) (<[i := c']> (ns_clients s)) /\ cl_flight c' = cl_flight c /\ cl_now c' = None).
    { destruct (client_send _ _ _ _ _ _ _); try done; injection Hl as <-; by eexists. }
    destruct Hs' as (c' & -> & Hfl & Hnow). unfold left_to_do. cbn [ns_sys ns_clients].
    pose proof (msum_insert (fun c => length (cl_flight c)) _ i c c' Hc) as H1.
    pose proof (msum_insert (fun c => if cl_now c then 1 else 0) _ i c c' Hc) as H2.
    cbn beta in H1, H2. rewrite Hfl in H1. rewrite En, Hnow in H2. lia.
Qed.

Lemma bounded w0 ls : forall s log s', inv w0 s log -> Forall (goes_on_with X M W ro) ls -> n_run hit ro e s ls = Some s' ->
  length ls <= left_to_do s.
Proof.
  induction ls as [|l ls IH]; intros s log s' Hi Hf H; cbn [n_run length] in *; [lia|].
  apply Forall_cons in Hf as [Hfl Hf]. destruct (n_step hit ro e s l) as [s1|] eqn:E; [|done]. cbn [mbind option_bind] in H.
  pose proof (less_to_do _ _ _ _ _ Hi Hfl E). destruct (inv_step _ _ _ _ _ Hi (proj1 Hfl) E) as (l1 & H1).
  pose proof (IH _ _ _ H1 Hf H). lia.
Qed.

Lemma huge_big : big M (WTake M).
Proof. by exists M. Qed.

Lemma stuck_none_waits w0 s log : inv w0 s log -> (forall l, goes_on_with X M W ro l -> n_step hit ro e s l = None) ->
  (sy_thr (ns_sys s) = TDown /\ exists i, X i) \/
  (forall i c, ns_clients s !! i = Some c -> cl_now c = None /\ length (cl_done c) = length (cl_calls c)) /\
  forall i k, sy_conns (ns_sys s) !! i = Some k -> hn_fin k = true -> hn_open k = false.
Proof.
  intros Hinv Hst. pose proof Hinv as (Hser & Hloc & Ht).
  assert (Hfl : forall i c, ns_clients s !! i = Some c -> cl_flight c = []).
  { intros i c Hc. destruct (cl_flight c) as [|ch fl] eqn:Ef; [done|exfalso].
    pose proof (Hloc i) as Hli. rewrite Hc in Hli.
    destruct (sy_conns (ns_sys s) !! i) as [k|] eqn:Hk; [|done].
    apply local_live in Hli as (Ho & Hf & _); [|right; right; by rewrite Ef].
    specialize (Hst (NFlow i 1)). cbn [n_step] in Hst. rewrite Hc in Hst. cbn [mbind option_bind] in Hst.
    rewrite Ef in Hst. rewrite decide_True in Hst by (cbn; lia). cbn [sys_step] in Hst. rewrite Hk in Hst.
    cbn [mbind option_bind] in Hst. rewrite Ho, Hf in Hst. by discriminate Hst. }
  assert (Hfree : sy_thr (ns_sys s) = TFree \/ sy_thr (ns_sys s) = TDown /\ exists i, X i).
  { destruct Ht as [Ht|[(j & k & Ht & Hk & Hne)|Ht]]; [by left|exfalso|by right].
    pose proof (Hloc j) as Hlj. rewrite Hk in Hlj. destruct (ns_clients s !! j) as [c|] eqn:Hc.
    - destruct (serve_asked w0 s log j c k (WTake M) Hinv huge_big Hc Hk (proj1 Hne)) as [[H _]|(_ & E & _)]; [by rewrite (Hfl j c Hc) in H|].
      specialize (Hst (NServer (LResume j (WTake M))) (conj (or_intror huge_big) I)). cbn [n_step sys_step] in Hst. rewrite Hk in Hst.
      cbn [mbind option_bind] in Hst. rewrite decide_True in Hst by done. cbv zeta in Hst.
      rewrite E in Hst. rewrite decide_False in Hst by done. by discriminate Hst.
    - specialize (Hst (NServer (LTimeout j (WTake M))) (conj Hlj I)). cbn [n_step sys_step] in Hst. rewrite Hk in Hst.
      cbn [mbind option_bind] in Hst. rewrite decide_True in Hst by done. by discriminate Hst. }
  destruct Hfree as [Hfree|Hfree]; [right|by left].
  split.
  2: { intros i k Hk Hfin. destruct (hn_open k) eqn:Eo; [exfalso|done].
    specialize (Hst (NServer (LServe i false (WTake M))) (conj (or_intror huge_big) I)). cbn [n_step sys_step] in Hst. rewrite Hk in Hst.
    cbn [mbind option_bind] in Hst. rewrite decide_True in Hst; [by discriminate Hst|]. split; [done|]. split; [done|]. by right. }
  intros i c Hc. pose proof (Hloc i) as Hli. rewrite Hc in Hli.
  destruct (sy_conns (ns_sys s) !! i) as [k|] eqn:Hk; [|done].
  destruct (cl_now c) as [x0|] eqn:En.
  2: { destruct Hli as (_ & _ & _ & Hp & _ & _). destruct Hp as [H3 H4 H5 H6 H7 H8|x qs H3|x bf r p H3]; [done|congruence..]. }
  apply local_live in Hli as (Ho & Hf & Hp & _ & _); [|left; by rewrite En].
  destruct Hp as [H3 H4 H5 H6 H7 H8|x qs H3 H4 H5 H6 H7 H8 H9 H10 H11|x bf r p H3 H4 H5 H6 H7 H8 H9 H10 H11 H12]; [congruence| |]; exfalso.
  - rewrite (Hfl i c Hc), app_nil_r in H7. destruct (msg_built M W ro hit e Hit x H6) as [_ Hne].
    specialize (Hst (NServer (LServe i false (WTake M))) (conj (or_intror huge_big) I)). cbn [n_step sys_step] in Hst. rewrite Hk in Hst.
    cbn [mbind option_bind] in Hst. rewrite decide_True in Hst; [by discriminate Hst|].
    split; [done|]. split; [done|]. left. by rewrite H7.
  - specialize (Hst (NReturn i (length (text_of hit p))) (conj I I)). cbn [n_step] in Hst. rewrite Hc in Hst. cbn [mbind option_bind] in Hst.
    rewrite H3, Hk in Hst. cbn [mbind option_bind] in Hst. rewrite Ho in Hst. cbn [orb] in Hst. rewrite H9 in Hst.
    destruct x as [[chit crit] q]. change (snd (req_build chit crit q [])) with (msg_of (chit, crit, q)) in Hst.
    rewrite firstn_all in Hst. destruct (client_whole M W ro hit e Hit (chit, crit, q) p [] Wait H4 H5) as (y & Hy & _).
    cbn [fst snd] in Hy. rewrite app_nil_r in Hy. rewrite Hy in Hst. by discriminate Hst.
Qed.

(** *** Who stops the server *)

Lemma down_step w0 s log l s' : inv w0 s log -> fair_with X M W ro l -> n_step hit ro e s l = Some s' ->
  sy_thr (ns_sys s) <> TDown -> sy_thr (ns_sys s') = TDown ->
  exists i k wr, X i /\ sy_conns (ns_sys s) !! i = Some k /\
    (l = NServer (LServe i false wr) \/ l = NServer (LResume i wr) \/ l = NServer (LTimeout i wr)) /\
    (~ short (hn_in k) \/ LF ∈ take 3 (hn_in k) \/ wr = WSig \/ handlers_fail ro (sy_world (ns_sys s)) (hn_in k)).
Proof.
  intros Hinv Hfair Hl Hup Hd. pose proof Hinv as (Hser & Hloc & Ht).
  assert (Hserve : forall i wr m k, X i \/ big M wr -> sy_conns (ns_sys s) !! i = Some k -> m = [] \/ m = [Gap] /\ X i ->
    hn_in k <> [] \/ hn_fin k = true -> sy_thr (read_event hit ro e wr m i k (ns_sys s)) = TDown ->
    X i /\ (~ short (hn_in k) \/ LF ∈ take 3 (hn_in k) \/ wr = WSig \/ handlers_fail ro (sy_world (ns_sys s)) (hn_in k))).
  { intros i wr m k Hwr Hk Hm Hin Hdn. split; [|apply (read_event_down hit ro e wr m i k (ns_sys s)); [naive_solver|done]].
    pose proof (Hloc i) as Hli. rewrite Hk in Hli. destruct (ns_clients s !! i) as [c|] eqn:Hc; [exfalso|done].
    assert (HX := proj1 Hli). destruct Hm as [-> |[_ ?]]; [|done]. destruct Hwr as [?|Hwr]; [done|].
    destruct (decide (hn_in k = [])) as [Hne|Hne].
    - destruct Hin as [?|Hfin]; [done|]. unfold read_event in Hdn. rewrite Hne, Hfin in Hdn. discriminate Hdn.
    - destruct (serve_asked w0 s log i c k wr Hinv Hwr Hc Hk Hne) as [[_ E]|(_ & E & _)]; rewrite E in Hdn; done. }
  assert (Hbusy : forall j k, sy_thr (ns_sys s) = TIn j -> sy_conns (ns_sys s) !! j = Some k -> hn_in k <> []).
  { intros j k Hj Hk. destruct Ht as [Ht|[(j' & kj & Ht & Hkj & Hne)|[Ht _]]]; [congruence| |congruence].
    assert (j' = j) as -> by congruence. rewrite Hk in Hkj. injection Hkj as <-. apply Hne. }
  destruct l as [i|i|i chit crit q|i n|l|i n|l]; cbn [n_step] in Hl.
  - cbn [sys_step] in Hl. case_decide; [|done]. injection Hl as <-. done.
  - destruct (ns_clients s !! i); [|done]. cbn [mbind option_bind] in Hl. case_decide; [|done]. cbn [sys_step] in Hl.
    destruct (sy_conns _ !! i); [|done]. cbn [mbind option_bind] in Hl. destruct (hn_open _); [|done]. injection Hl as <-. done.
  - destruct (ns_clients s !! i) as [c|]; [|done]. cbn [mbind option_bind] in Hl. destruct (sy_conns _ !! i) as [k|]; [|done].
    cbn [mbind option_bind] in Hl. destruct (cl_now c), (hn_fin k); try done. destruct (req_build _ _ _ _) as [[rc q'] msg].
    destruct (rc =? _)%Z; injection Hl as <-; done.
  - destruct (ns_clients s !! i); [|done]. cbn [mbind option_bind] in Hl. case_decide; [|done]. cbn [sys_step] in Hl.
    destruct (sy_conns _ !! i); [|done]. cbn [mbind option_bind] in Hl. destruct (_ && _); [|done]. injection Hl as <-. done.
  - destruct l as [j|j bs|j|j lv wr|j wr|j wr]; try done; cbn [fair_with] in Hfair; cbn [sys_step] in Hl;
      (destruct (sy_conns (ns_sys s) !! j) as [k|] eqn:Hk; [|done]); cbn [mbind option_bind] in Hl; exists j, k, wr.
    + case_decide as Hc; [|done]. destruct Hc as (H1 & H2 & H3). destruct lv.
      { destruct (hn_fin k); [|done]. injection Hl as <-. done. }
      injection Hl as <-. destruct (Hserve j wr [] k) as [HX Hr]; [done|done|by left|done|done|]. split; [done|]. split; [done|]. split; [by auto|done].
    + case_decide as Hc; [|done]. cbv zeta in Hl. case_decide; [done|]. injection Hl as <-.
      destruct (Hserve j wr [] k) as [HX Hr]; [done|done|by left|left; by eapply Hbusy|done|]. split; [done|]. split; [done|]. split; [by auto|done].
    + case_decide as Hc; [|done]. injection Hl as <-.
      destruct (Hserve j wr [Gap] k) as [HX Hr]; [by left|done|by right|left; by eapply Hbusy|done|]. split; [done|]. split; [done|]. split; [by auto|done].
  - destruct (ns_clients s !! i) as [c|]; [|done]. cbn [mbind option_bind] in Hl. destruct (cl_now c) as [[[ch cr] q]|]; [|done].
    cbn [mbind option_bind] in Hl. destruct (sy_conns _ !! i) as [k|]; [|done]. cbn [mbind option_bind] in Hl.
    destruct (client_send _ _ _ _ _ _ _); try done; injection Hl as <-; done.
  - destruct l as [i|i bs|i|i lv wr|i wr|i wr]; try done; cbn [mbind option_bind] in Hl; (destruct (ns_clients s !! i); [done|]);
      cbn [sys_step] in Hl.
    + case_decide; [|done]. injection Hl as <-. done.
    + destruct (sy_conns _ !! i); [|done]. cbn [mbind option_bind] in Hl. destruct (_ && _); [|done]. injection Hl as <-. done.
    + destruct (sy_conns _ !! i); [|done]. cbn [mbind option_bind] in Hl. destruct (hn_open _); [|done]. injection Hl as <-. done.
Qed.

Lemma down_run w0 ls : forall s log s', inv w0 s log -> Forall (fair_with X M W ro) ls -> n_run hit ro e s ls = Some s' ->
  sy_thr (ns_sys s) <> TDown -> sy_thr (ns_sys s') = TDown ->
  exists ls1 l ls2 s1 i k wr, ls = ls1 ++ l :: ls2 /\ n_run hit ro e s ls1 = Some s1 /\
    X i /\ sy_conns (ns_sys s1) !! i = Some k /\
    (l = NServer (LServe i false wr) \/ l = NServer (LResume i wr) \/ l = NServer (LTimeout i wr)) /\
    (~ short (hn_in k) \/ LF ∈ take 3 (hn_in k) \/ wr = WSig \/ handlers_fail ro (sy_world (ns_sys s1)) (hn_in k)).
Proof.
  induction ls as [|l ls IH]; intros s log s' Hi Hf H Hup Hd; cbn [n_run] in H; [congruence|].
  apply Forall_cons in Hf as [Hfl Hf]. destruct (n_step hit ro e s l) as [s1|] eqn:E; [|done]. cbn [mbind option_bind] in H.
  destruct (inv_step _ _ _ _ _ Hi Hfl E) as (l1 & H1).
  destruct (decide (sy_thr (ns_sys s1) = TDown)) as [Hd1|Hup1].
  - destruct (down_step _ _ _ _ _ Hi Hfl E Hup Hd1) as (i & k & wr & Hx). exists [], l, ls, s, i, k, wr. done.
  - destruct (IH _ _ _ H1 Hf H Hup1 Hd) as (ls1 & l' & ls2 & s2 & i & k & wr & -> & Hr & Hx).
    exists (l :: ls1), l', ls2, s2, i, k, wr. split; [done|]. split; [|done]. cbn [n_run]. by rewrite E.
Qed.
End runs.

Section nobody.
Context {U : Type} (M : nat) (W : world U -> Prop) (ro : router U).
Lemma nobody_keeps i : nobody i -> keeps W ro.
Proof. done. Qed.
Lemma fair_nobody l : fair_label M W ro l <-> fair_with nobody M W ro l.
Proof.
  unfold nobody. destruct l as [i|i|i h r q|i n|[i|i bs|i|i lv wr|i wr|i wr]|i n|[i|i bs|i|i lv wr|i wr|i wr]]; cbn [fair_label fair_with]; tauto.
Qed.
Lemma all_fair_nobody ls : Forall (fair_label M W ro) ls -> Forall (fair_with nobody M W ro) ls.
Proof. intros H. apply (Forall_impl _ _ _ H). intros l. apply fair_nobody. Qed.
Lemma goes_on_nobody l : goes_on M W ro l <-> goes_on_with nobody M W ro l.
Proof.
  unfold goes_on, goes_on_with. rewrite fair_nobody. unfold nobody.
  destruct l as [i|i|i h r q|i n|l|i n|[i|i bs|i|i lv wr|i wr|i wr]]; cbn [fair_with]; tauto.
Qed.
End nobody.

(** ** Theorems *)

(** C182.  Whatever strangers send, there is one order of all requests, the same for
    all clients, that grows with time and explains every answer to a client. *)
Theorem strangers_calls_are_serial : forall U (X : nat -> Prop) M (W : world U -> Prop) (ro : router U) hit e w ls1 ls2 s1 s2,
  valid_order hit -> W w -> keeps W ro -> Forall (fair_with X M W ro) ls1 -> Forall (fair_with X M W ro) ls2 ->
  n_run hit ro e (n_new w) ls1 = Some s1 -> n_run hit ro e s1 ls2 = Some s2 ->
  exists log1 log2, explained_with X ro w (sy_world (ns_sys s1)) (ns_clients s1) log1 /\
    explained_with X ro w (sy_world (ns_sys s2)) (ns_clients s2) (log1 ++ log2) /\
    forall i, X i -> ns_clients s2 !! i = None.
Proof.
  intros U X M W ro hit e w ls1 ls2 s1 s2 Hit HW Hk H1 H2 R1 R2.
  destruct (inv_run X M W ro hit e Hit (fun _ _ => Hk) w ls1 _ [] _ (inv_new X M W ro hit w HW) H1 R1) as (log1 & I1). cbn [app] in I1.
  destruct (inv_run X M W ro hit e Hit (fun _ _ => Hk) w ls2 _ log1 _ I1 H2 R2) as (log2 & I2).
  exists log1, log2. split; [by eapply inv_explains|]. split; [by eapply inv_explains|].
  intros i HX. destruct I2 as (_ & Hl & _). specialize (Hl i). destruct (ns_clients s2 !! i); [|done].
  destruct (sy_conns (ns_sys s2) !! i); [|done]. by destruct Hl.
Qed.

(** C175.  There is one order of all requests, the same for all clients, that grows
    with time and explains every answer. *)
Theorem calls_are_serial : forall U M (W : world U -> Prop) (ro : router U) hit e w ls1 ls2 s1 s2,
  valid_order hit -> W w -> Forall (fair_label M W ro) ls1 -> Forall (fair_label M W ro) ls2 ->
  n_run hit ro e (n_new w) ls1 = Some s1 -> n_run hit ro e s1 ls2 = Some s2 ->
  exists log1 log2, explains ro w s1 log1 /\ explains ro w s2 (log1 ++ log2).
Proof.
  intros U M W ro hit e w ls1 ls2 s1 s2 Hit HW H1 H2 R1 R2. apply all_fair_nobody in H1, H2.
  destruct (inv_run nobody M W ro hit e Hit (nobody_keeps W ro) w ls1 _ [] _ (inv_new nobody M W ro hit w HW) H1 R1) as (log1 & I1). cbn [app] in I1.
  destruct (inv_run nobody M W ro hit e Hit (nobody_keeps W ro) w ls2 _ log1 _ I1 H2 R2) as (log2 & I2).
  exists log1, log2. split; by eapply (inv_explains nobody).
Qed.

Lemma done_well {U} X (ro : router U) w0 w cls log i c : explained_with X ro w0 w cls log -> cls !! i = Some c ->
  Forall (fun o => exists y, o = Ok y /\ st_rc y = kSuccess) (cl_done c).
Proof.
  intros (_ & _ & Hx) Hc. destruct (Hx i c Hc) as (_ & _ & _ & Hf).
  apply Forall_forall. intros o Ho. apply elem_of_list_lookup in Ho as (n & Hn).
  destruct (Forall2_lookup_l _ _ _ _ _ Hf Hn) as (ev & _ & y & ? & ? & _). by exists y.
Qed.

(** C183.  Strangers that go silent do not make the clients wait for ever: as long as
    the server runs, every call of Send comes back, and the connection of everybody who
    has left is closed. *)
Theorem strangers_every_call_returns : forall U (X : nat -> Prop) M (W : world U -> Prop) (ro : router U) hit e w ls s,
  valid_order hit -> W w -> keeps W ro -> Forall (fair_with X M W ro) ls -> n_run hit ro e (n_new w) ls = Some s ->
  (exists n, forall ls' s', Forall (goes_on_with X M W ro) ls' -> n_run hit ro e s ls' = Some s' -> length ls' <= n) /\
  ((forall l, goes_on_with X M W ro l -> n_step hit ro e s l = None) -> sy_thr (ns_sys s) <> TDown ->
   (forall i c, ns_clients s !! i = Some c ->
     cl_now c = None /\ length (cl_done c) = length (cl_calls c) /\
     Forall (fun o => exists y, o = Ok y /\ st_rc y = kSuccess) (cl_done c)) /\
   forall i k, sy_conns (ns_sys s) !! i = Some k -> hn_fin k = true -> hn_open k = false).
Proof.
  intros U X M W ro hit e w ls s Hit HW Hk H1 R1.
  destruct (inv_run X M W ro hit e Hit (fun _ _ => Hk) w ls _ [] _ (inv_new X M W ro hit w HW) H1 R1) as (log & Hi). cbn [app] in Hi.
  split.
  - exists (left_to_do s). intros ls' s' Hg Hr. by eapply (bounded X M W ro hit e Hit (fun _ _ => Hk)).
  - intros Hst Hd. destruct (stuck_none_waits X M W ro hit e Hit (fun _ _ => Hk) w s log Hi Hst) as [[? _]|[Ha Hb]]; [done|].
    split; [|done]. intros i c Hc. destruct (Ha i c Hc). do 2 (split; [done|]).
    eapply done_well; [by eapply (inv_explains X)|done].
Qed.

(** C184.  Only strangers stop the server: with a line feed among the first three bytes
    that it reads, by closing before the answer is written (SIGPIPE), with a request that
    makes a handler fail, or with 2 GiB of input. *)
Theorem only_strangers_stop_the_server : forall U (X : nat -> Prop) M (W : world U -> Prop) (ro : router U) hit e w ls s,
  valid_order hit -> W w -> keeps W ro -> Forall (fair_with X M W ro) ls -> n_run hit ro e (n_new w) ls = Some s ->
  sy_thr (ns_sys s) = TDown ->
  exists ls1 l ls2 s1 i k wr, ls = ls1 ++ l :: ls2 /\ n_run hit ro e (n_new w) ls1 = Some s1 /\
    X i /\ sy_conns (ns_sys s1) !! i = Some k /\
    (l = NServer (LServe i false wr) \/ l = NServer (LResume i wr) \/ l = NServer (LTimeout i wr)) /\
    (~ short (hn_in k) \/ LF ∈ take 3 (hn_in k) \/ wr = WSig \/ handlers_fail ro (sy_world (ns_sys s1)) (hn_in k)).
Proof.
  intros U X M W ro hit e w ls s Hit HW Hk H1 R1 Hd.
  by eapply (down_run X M W ro hit e Hit (fun _ _ => Hk) w ls _ [] _ (inv_new X M W ro hit w HW)).
Qed.

(** C176.  Every call of Send comes back, and the connection of every client that has
    left is closed. *)
Theorem every_call_returns : forall U M (W : world U -> Prop) (ro : router U) hit e w ls s,
  valid_order hit -> W w -> Forall (fair_label M W ro) ls -> n_run hit ro e (n_new w) ls = Some s ->
  (exists n, forall ls' s', Forall (goes_on M W ro) ls' -> n_run hit ro e s ls' = Some s' -> length ls' <= n) /\
  ((forall l, goes_on M W ro l -> n_step hit ro e s l = None) ->
   forall i c, ns_clients s !! i = Some c ->
     cl_now c = None /\ length (cl_done c) = length (cl_calls c) /\
     Forall (fun o => exists y, o = Ok y /\ st_rc y = kSuccess) (cl_done c)) /\
  ((forall l, goes_on M W ro l -> n_step hit ro e s l = None) ->
   forall i k, sy_conns (ns_sys s) !! i = Some k -> hn_fin k = true -> hn_open k = false).
Proof.
  intros U M W ro hit e w ls s Hit HW H1 R1. apply all_fair_nobody in H1.
  destruct (inv_run nobody M W ro hit e Hit (nobody_keeps W ro) w ls _ [] _ (inv_new nobody M W ro hit w HW) H1 R1) as (log & Hi). cbn [app] in Hi.
  assert (Hstuck : (forall l, goes_on M W ro l -> n_step hit ro e s l = None) ->
    (forall i c, ns_clients s !! i = Some c -> cl_now c = None /\ length (cl_done c) = length (cl_calls c)) /\
    forall i k, sy_conns (ns_sys s) !! i = Some k -> hn_fin k = true -> hn_open k = false).
  { intros Hst. destruct (stuck_none_waits nobody M W ro hit e Hit (nobody_keeps W ro) w s log Hi) as [[_ [i []]]|H]; [|done].
    intros l Hl. by apply Hst, goes_on_nobody. }
  split; [|split].
  - exists (left_to_do s). intros ls' s' Hg Hr. eapply (bounded nobody M W ro hit e Hit (nobody_keeps W ro)); [done| |done].
    apply (Forall_impl _ _ _ Hg). intros l. apply goes_on_nobody.
  - intros Hst i c Hc. destruct (proj1 (Hstuck Hst) i c Hc). do 2 (split; [done|]).
    eapply done_well; [by eapply (inv_explains nobody)|done].
  - intros Hst. apply (Hstuck Hst).
Qed.

(** ** Examples *)
(** A handler that hands out tickets: a digit that counts, before the body. *)
Definition ticket : handler nat := fun c w =>
  Ok (ctx_set_resp c (Resp sOK v1_1 ∅ (ascii_of_nat (48 + w_user w mod 10) :: rq_body (cx_req c))),
      World (w_running w) (w_fs w) (w_opened w) (w_custom w) (S (w_user w))).
Definition ticket_entry : entry nat := Entry (Some ticket) false [].
Definition ticket_ro : router nat :=
  match register [] [] ticket_entry router_new with Ok (_, ro) => ro | _ => router_new end.

Lemma ticket_dispatch p c w : ascii_only p -> dispatch ticket_ro p c w = ticket c w.
Proof.
  intros Hp. destruct (single_registration [] [] ticket_entry p c w) as (ro' & Hr' & Hch); [constructor|constructor|done|].
  assert (ro' = ticket_ro) as -> by (unfold ticket_ro; by rewrite Hr'). cbn [app] in Hch.
  assert (Hc : chain [ticket_entry] (c, w) (dispatch ticket_ro p c w)).
  { destruct (decide (p = [])); [done|]. by rewrite decide_True in Hch by apply prefix_nil. }
  apply (chain_det _ _ _ _ Hc). destruct (w_running w) eqn:Hw.
  - eapply chain_called; [done| |done|exact Hw|apply chain_done]. intros f Hf. by apply elem_of_nil in Hf.
  - eapply chain_stopped; [done| |done|exact Hw]. intros f Hf. by apply elem_of_nil in Hf.
Qed.

Lemma lines_length l l' : l ≡ₚ l' -> length (crlf_lines (field_lines l)) = length (crlf_lines (field_lines l')).
Proof.
  intros H. induction H as [|x l l' _ IH|x y l|l l1 l2 _ IH1 _ IH2]; [done| | |congruence];
    unfold crlf_lines, field_lines in *; cbn [map concat]; rewrite !app_length; lia.
Qed.
Lemma no_params rit : valid_order rit -> rit ∅ = [].
Proof. intros H. specialize (H ∅). rewrite map_to_list_empty in H. by apply Permutation_nil_r in H. Qed.

Definition ask (body : bytes) : req := ex_q "/t" body.
Lemma ask_good body : length body = 2 -> NUL ∉ body -> good_call 99 (fun _ => True) ticket_ro (ask body).
Proof.
  intros Hl Hn. split; try done.
  - intros h1 h2 V1 V2. rewrite req_build_ok by done. cbn [snd]. unfold short. rewrite !app_length.
    rewrite (lines_length _ _ (V1 _)). unfold built_line, route_to_string. cbn [rq_route ask ex_q rt_params].
    rewrite (no_params _ V2). unfold built_header, size. cbn [rq_body ask ex_q]. rewrite Hl. by vm_compute.
  - apply ex_q_sendable.
  - unfold plain_except. by_compute.
  - by left.
  - intros r w _ (_ & _ & Hr & Hb & _). rewrite ticket_dispatch by (rewrite Hr; by_compute).
    do 2 eexists. do 2 (split; [done|]). cbv zeta.
    change (rq_body (ask body)) with body in Hb. cbn [cx_req ctx_new]. 
    cbn [cx_resp ctx_set_resp]. unfold reply. cbn [rs_status]. rewrite decide_False by done. rewrite Hb.
    cbn [rs_header rs_version rs_body]. split; [intros k v Hk; cbn in Hk; by rewrite lookup_empty in Hk|]. split; [done|].
    assert (Hd : w_user w mod 10 < 10) by (by apply Nat.mod_upper_bound).
    split.
    + rewrite not_elem_of_cons. split; [|done]. intros E. apply (f_equal nat_of_ascii) in E.
      generalize dependent (w_user w mod 10). intros d Hd E. rewrite nat_ascii_embedding in E by lia. by destruct d.
    + intros h V. rewrite resp_build_ok by done. cbn [snd]. unfold short. rewrite !app_length. rewrite (lines_length _ _ (V _)).
      unfold resp_built_header, size. cbn [rs_body length]. rewrite Hl. split; [by vm_compute|]. apply Nat.leb_le. by vm_compute.
Qed.

(** Two clients: the request of 0 comes in two pieces, the server waits for the second
    one; the request of 1 is complete meanwhile.  0 gets "0ab", 1 gets "1cd" and
    leaves, and 0 calls again and gets "2ef". *)
Definition two_calls : list nlab :=
  [NConnect 0; NConnect 1; NCall 0 map_to_list map_to_list (ask (B "ab")); NCall 1 map_to_list map_to_list (ask (B "cd"));
   NFlow 0 20; NServer (LServe 0 false (WTake 99)); NFlow 1 66; NFlow 0 46].
Definition two_calls' : list nlab :=
  [NServer (LResume 0 (WTake 99)); NServer (LServe 1 false (WTake 99)); NReturn 1 50; NReturn 0 50;
   NCall 0 map_to_list map_to_list (ask (B "ef")); NFlow 0 66; NClose 1; NServer (LServe 1 true (WTake 99));
   NServer (LServe 0 false (WTake 99)); NReturn 0 50].
Definition seen {U} (s : nsys U) : list (nat * list bytes) :=
  map (fun x => (x.1, map (fun o => match o with Ok y => rs_body (st_resp y) | _ => [] end) (cl_done x.2)))
    (map_to_list (ns_clients s)).

Lemma ask_fair l : Forall (fun x => match x with NCall _ _ _ q => exists b, q = ask b /\ length b = 2 /\ NUL ∉ b | _ => True end) l ->
  Forall (fun x => match x with
    | NCall _ h r _ => h = map_to_list /\ r = map_to_list
    | NServer (LServe _ _ wr) | NServer (LResume _ wr) => wr = WTake 99
    | NServer _ | NOther _ => False | _ => True end) l -> Forall (fair_label 99 (fun _ => True) ticket_ro) l.
Proof.
  intros H1 H2. apply Forall_forall. intros x Hx. apply (proj1 (Forall_forall _ _) H1) in Hx as H3.
  apply (proj1 (Forall_forall _ _) H2) in Hx as H4. clear H1 H2.
  destruct x as [i|i|i h r q|i n|l'|i n|l']; try done; cbn [fair_label].
  - destruct H4 as [-> ->], H3 as (b & -> & Hl & Hn). do 2 (split; [apply valid_order_sorted|]). by apply ask_good.
  - destruct l'; try done; rewrite H4; by exists 99.
Qed.
Lemma two_calls_fair : Forall (fair_label 99 (fun _ => True) ticket_ro) two_calls /\ Forall (fair_label 99 (fun _ => True) ticket_ro) two_calls'.
Proof.
  split; apply ask_fair; repeat constructor; try done; (eexists; split; [reflexivity|]; split; [done|by_compute]).
Qed.

Definition waiting {U} (s : nsys U) : list (nat * bool * nat) :=
  map (fun x => (x.1, match cl_now x.2 with Some _ => true | None => false end, length (cl_done x.2))) (map_to_list (ns_clients s)).

Lemma two_calls_run : exists s1 s2,
  n_run map_to_list ticket_ro [] (n_new wn) two_calls = Some s1 /\ seen s1 = [(0, []); (1, [])] /\
  waiting s1 = [(0, true, 0); (1, true, 0)] /\ is_Some (n_step map_to_list ticket_ro [] s1 (NServer (LResume 0 (WTake 99)))) /\
  n_run map_to_list ticket_ro [] s1 two_calls' = Some s2 /\ seen s2 = [(0, [B "0ab"; B "2ef"]); (1, [B "1cd"])] /\
  waiting s2 = [(0, false, 2); (1, false, 1)].
Proof.
  assert (H : match n_run map_to_list ticket_ro [] (n_new wn) two_calls with
    | Some s1 =>
        match n_run map_to_list ticket_ro [] s1 two_calls' with
        | Some s2 => Some (seen s1, waiting s1, (fun o : option (nsys nat) => match o with Some _ => true | None => false end) (n_step map_to_list ticket_ro [] s1 (NServer (LResume 0 (WTake 99)))),
                           seen s2, waiting s2)
        | None => None
        end
    | None => None
    end = Some ([(0, []); (1, [])], [(0, true, 0); (1, true, 0)], true,
                [(0, [B "0ab"; B "2ef"]); (1, [B "1cd"])], [(0, false, 2); (1, false, 1)])) by (by vm_compute).
  destruct (n_run map_to_list ticket_ro [] (n_new wn) two_calls) as [s1|]; [|discriminate].
  destruct (n_run map_to_list ticket_ro [] s1 two_calls') as [s2|] eqn:E; [|discriminate].
  exists s1, s2. apply Some_inj in H.
  assert (H1 := f_equal (fun x => x.1.1.1.1) H). assert (H2 := f_equal (fun x => x.1.1.1.2) H).
  assert (H3 := f_equal (fun x => x.1.1.2) H). assert (H4 := f_equal (fun x => x.1.2) H). assert (H5 := f_equal snd H).
  cbn [fst snd] in *. split; [reflexivity|]. split; [exact H1|]. split; [exact H2|].
  split; [|split; [exact E|split; [exact H4|exact H5]]].
  destruct (n_step _ _ _ s1 _); [by eexists|discriminate].
Qed.

Example calls_are_serial_ex : exists s1 s2 log1 log2,
  n_run map_to_list ticket_ro [] (n_new wn) two_calls = Some s1 /\ seen s1 = [(0, []); (1, [])] /\
  n_run map_to_list ticket_ro [] s1 two_calls' = Some s2 /\ seen s2 = [(0, [B "0ab"; B "2ef"]); (1, [B "1cd"])] /\
  explains ticket_ro wn s1 log1 /\ explains ticket_ro wn s2 (log1 ++ log2).
Proof.
  destruct two_calls_run as (s1 & s2 & E1 & H1 & _ & _ & E2 & H2 & _).
  destruct (calls_are_serial nat 99 (fun _ => True) ticket_ro map_to_list [] wn two_calls two_calls' s1 s2 valid_order_sorted I
    (proj1 two_calls_fair) (proj2 two_calls_fair) E1 E2) as (log1 & log2 & H3 & H4).
  exists s1, s2, log1, log2. tauto.
Qed.

(** After the first half, both calls are still going on and there is something left to
    do; at the end all are over. *)
Example every_call_returns_ex : exists s1 s2,
  n_run map_to_list ticket_ro [] (n_new wn) two_calls = Some s1 /\ waiting s1 = [(0, true, 0); (1, true, 0)] /\
  (exists l, goes_on 99 (fun _ => True) ticket_ro l /\ is_Some (n_step map_to_list ticket_ro [] s1 l)) /\
  (exists n, forall ls' s', Forall (goes_on 99 (fun _ => True) ticket_ro) ls' -> n_run map_to_list ticket_ro [] s1 ls' = Some s' -> length ls' <= n) /\
  n_run map_to_list ticket_ro [] s1 two_calls' = Some s2 /\ waiting s2 = [(0, false, 2); (1, false, 1)].
Proof.
  destruct two_calls_run as (s1 & s2 & E1 & _ & H1 & Hs & E2 & _ & H2).
  exists s1, s2. split; [exact E1|]. split; [exact H1|]. split.
  { exists (NServer (LResume 0 (WTake 99))). split; [split; [exists 99; split; [reflexivity|apply Nat.le_refl]|exact I]|exact Hs]. }
  split; [|split; [exact E2|exact H2]].
  apply (every_call_returns nat 99 (fun _ => True) ticket_ro map_to_list [] wn two_calls s1 valid_order_sorted I (proj1 two_calls_fair) E1).
Qed.

(** Strangers 7 and 8: 7 sends half a request and makes the server wait; 8 sends a
    request and draws the first ticket.  The call of client 0 gets the second one when
    the time-out has ended the waiting for 7. *)
Definition odd_peers (i : nat) : Prop := 7 <= i.
Definition among_strangers : list nlab :=
  [NOther (LOpen 7); NOther (LOpen 8); NConnect 0; NOther (LSend 7 (B "GET /")); NOther (LSend 8 (msg_of (map_to_list, map_to_list, ask (B "zz"))));
   NServer (LServe 8 false WFail); NServer (LServe 7 false (WTake 0)); NCall 0 map_to_list map_to_list (ask (B "ab")); NFlow 0 66].
Definition among_strangers' : list nlab :=
  [NServer (LTimeout 7 (WTake 0)); NServer (LServe 0 false (WTake 99)); NReturn 0 50].

Lemma ticket_keeps : keeps (fun _ => True) ticket_ro.
Proof.
  intros r w _. apply (dispatch_keeps (fun _ => True)); [|done].
  assert (E : ro_heap ticket_ro = [[ticket_entry]]) by (by vm_compute). rewrite E. repeat constructor.
  intros h [= <-] c w' _. done.
Qed.
Lemma among_fair : Forall (fair_with odd_peers 99 (fun _ => True) ticket_ro) among_strangers /\
  Forall (fair_with odd_peers 99 (fun _ => True) ticket_ro) among_strangers'.
Proof.
  assert (Hg : good_call 99 (fun _ => True) ticket_ro (ask (B "ab"))) by (apply ask_good; by_compute).
  unfold odd_peers. split; repeat (apply Forall_cons; split; [|]); try apply Forall_nil_2; cbn [fair_with];
    first [exact I|lia|(left; lia)|(right; by exists 99)|(do 2 (split; [apply valid_order_sorted|]); exact Hg)].
Qed.

Lemma among_run : exists s1 s2,
  n_run map_to_list ticket_ro [] (n_new wn) among_strangers = Some s1 /\ waiting s1 = [(0, true, 0)] /\ sy_thr (ns_sys s1) = TIn 7 /\
  n_run map_to_list ticket_ro [] s1 among_strangers' = Some s2 /\ seen s2 = [(0, [B "1ab"])] /\ sy_thr (ns_sys s2) = TFree.
Proof.
  assert (H : match n_run map_to_list ticket_ro [] (n_new wn) among_strangers with
    | Some s1 =>
        match n_run map_to_list ticket_ro [] s1 among_strangers' with
        | Some s2 => Some (waiting s1, sy_thr (ns_sys s1), seen s2, sy_thr (ns_sys s2))
        | None => None
        end
    | None => None
    end = Some ([(0, true, 0)], TIn 7, [(0, [B "1ab"])], TFree)) by (by vm_compute).
  destruct (n_run map_to_list ticket_ro [] (n_new wn) among_strangers) as [s1|]; [|discriminate].
  destruct (n_run map_to_list ticket_ro [] s1 among_strangers') as [s2|] eqn:E; [|discriminate].
  exists s1, s2. apply Some_inj in H.
  assert (H1 := f_equal (fun x => x.1.1.1) H). assert (H2 := f_equal (fun x => x.1.1.2) H).
  assert (H3 := f_equal (fun x => x.1.2) H). assert (H4 := f_equal snd H).
  cbn [fst snd] in *. split; [reflexivity|]. split; [exact H1|]. split; [exact H2|]. split; [exact E|]. split; [exact H3|exact H4].
Qed.

Example strangers_calls_are_serial_ex : exists s1 s2 log1 log2,
  n_run map_to_list ticket_ro [] (n_new wn) among_strangers = Some s1 /\
  n_run map_to_list ticket_ro [] s1 among_strangers' = Some s2 /\ seen s2 = [(0, [B "1ab"])] /\
  explained_with odd_peers ticket_ro wn (sy_world (ns_sys s1)) (ns_clients s1) log1 /\
  explained_with odd_peers ticket_ro wn (sy_world (ns_sys s2)) (ns_clients s2) (log1 ++ log2).
Proof.
  destruct among_run as (s1 & s2 & E1 & _ & _ & E2 & H2 & _).
  destruct (strangers_calls_are_serial nat odd_peers 99 (fun _ => True) ticket_ro map_to_list [] wn among_strangers among_strangers' s1 s2
    valid_order_sorted I ticket_keeps (proj1 among_fair) (proj2 among_fair) E1 E2) as (log1 & log2 & H3 & H4 & _).
  exists s1, s2, log1, log2. tauto.
Qed.

Example strangers_every_call_returns_ex : exists s1 s2,
  n_run map_to_list ticket_ro [] (n_new wn) among_strangers = Some s1 /\ waiting s1 = [(0, true, 0)] /\ sy_thr (ns_sys s1) = TIn 7 /\
  (exists n, forall ls' s', Forall (goes_on_with odd_peers 99 (fun _ => True) ticket_ro) ls' ->
    n_run map_to_list ticket_ro [] s1 ls' = Some s' -> length ls' <= n) /\
  n_run map_to_list ticket_ro [] s1 among_strangers' = Some s2 /\ Forall (goes_on_with odd_peers 99 (fun _ => True) ticket_ro) among_strangers' /\
  seen s2 = [(0, [B "1ab"])] /\ sy_thr (ns_sys s2) = TFree.
Proof.
  destruct among_run as (s1 & s2 & E1 & H1 & H2 & E2 & H3 & H4).
  exists s1, s2. split; [exact E1|]. split; [exact H1|]. split; [exact H2|]. split.
  { apply (strangers_every_call_returns nat odd_peers 99 (fun _ => True) ticket_ro map_to_list [] wn among_strangers s1 valid_order_sorted I
      ticket_keeps (proj1 among_fair) E1). }
  split; [exact E2|]. split; [|split; [exact H3|exact H4]].
  clear. destruct among_fair as [_ H]. unfold among_strangers' in *. repeat (apply Forall_cons in H as [? H]). repeat (apply Forall_cons_2; [split; [assumption|exact I]|]). apply Forall_nil_2.
Qed.

(** Without the proviso that the server still runs. *)
Definition strangers_every_call_returns_full : Prop := forall U (X : nat -> Prop) M (W : world U -> Prop) (ro : router U) hit e w ls s,
  valid_order hit -> W w -> keeps W ro -> Forall (fair_with X M W ro) ls -> n_run hit ro e (n_new w) ls = Some s ->
  (forall l, goes_on_with X M W ro l -> n_step hit ro e s l = None) ->
  forall i c, ns_clients s !! i = Some c -> cl_now c = None.

(** A stranger sends a line feed; the call of client 0 does not come back. *)
Definition line_feed : list nlab :=
  [NConnect 0; NCall 0 map_to_list map_to_list (ask (B "ab")); NFlow 0 66; NOther (LOpen 7); NOther (LSend 7 [LF]); NServer (LServe 7 false (WTake 0))].
Lemma line_feed_fair : Forall (fair_with odd_peers 99 (fun _ => True) ticket_ro) line_feed.
Proof.
  assert (Hg : good_call 99 (fun _ => True) ticket_ro (ask (B "ab"))) by (apply ask_good; by_compute).
  unfold odd_peers. repeat (apply Forall_cons; split; [|]); try apply Forall_nil_2; cbn [fair_with];
    first [exact I|lia|(left; lia)|(do 2 (split; [apply valid_order_sorted|]); exact Hg)].
Qed.
Lemma line_feed_run : exists s c k, n_run map_to_list ticket_ro [] (n_new wn) line_feed = Some s /\ sy_thr (ns_sys s) = TDown /\
  map fst (map_to_list (ns_clients s)) = [0] /\ ns_clients s !! 0 = Some c /\ cl_read c = 0 /\ cl_flight c = [] /\
  cl_now c = Some (map_to_list, map_to_list, ask (B "ab")) /\
  sy_conns (ns_sys s) !! 0 = Some k /\ hn_sent k = [] /\ hn_open k = true.
Proof.
  assert (H : match n_run map_to_list ticket_ro [] (n_new wn) line_feed with
    | Some s => match ns_clients s !! 0, sy_conns (ns_sys s) !! 0 with
                | Some c, Some k => Some (sy_thr (ns_sys s), map fst (map_to_list (ns_clients s)), cl_read c, cl_flight c, cl_now c, hn_sent k, hn_open k)
                | _, _ => None
                end
    | None => None
    end = Some (TDown, [0], 0, [], Some (map_to_list, map_to_list, ask (B "ab")), [], true)) by (by vm_compute).
  destruct (n_run map_to_list ticket_ro [] (n_new wn) line_feed) as [s|]; [|discriminate].
  destruct (ns_clients s !! 0) as [c|] eqn:Hc; [|discriminate]. destruct (sy_conns (ns_sys s) !! 0) as [k|] eqn:Hk; [|discriminate].
  exists s, c, k. apply Some_inj in H.
  assert (H1 := f_equal (fun x => x.1.1.1.1.1.1) H). assert (H2 := f_equal (fun x => x.1.1.1.1.1.2) H).
  assert (H3 := f_equal (fun x => x.1.1.1.1.2) H). assert (H4 := f_equal (fun x => x.1.1.1.2) H).
  assert (H5 := f_equal (fun x => x.1.1.2) H). assert (H6 := f_equal (fun x => x.1.2) H). assert (H7 := f_equal snd H). clear H.
  cbn [fst snd] in *. split; [reflexivity|]. split; [exact H1|]. split; [exact H2|]. split; [exact Hc|]. split; [exact H3|].
  split; [exact H4|]. split; [exact H5|]. split; [exact Hk|]. split; [exact H6|exact H7].
Qed.
Theorem strangers_every_call_returns_refuted : ~ strangers_every_call_returns_full.
Proof.
  intros H. destruct line_feed_run as (s & c & k & E & Hd & Hall & Hc & Hrd & Hfl & Hnow & Hk & Hsent & Ho).
  assert (Hst : forall l, goes_on_with odd_peers 99 (fun _ => True) ticket_ro l -> n_step map_to_list ticket_ro [] s l = None).
  { assert (Honly : forall i c', ns_clients s !! i = Some c' -> i = 0).
    { intros i c' Hi. apply elem_of_map_to_list in Hi. apply (elem_of_list_fmap_1 fst) in Hi.
      change (i ∈ map fst (map_to_list (ns_clients s))) in Hi. rewrite Hall in Hi. by apply elem_of_list_singleton in Hi. }
    intros l [_ Hg]. destruct l as [i|i|i h r q|i n|l|i n|l]; try done; cbn [n_step].
    - destruct (ns_clients s !! i) as [c'|] eqn:Hi; [|done]. assert (i = 0) as -> by exact (Honly i c' Hi). rewrite Hc in Hi. apply Some_inj in Hi. subst c'.
      cbn [mbind option_bind]. rewrite Hfl. cbn [length]. rewrite decide_False by lia. done.
    - destruct l; try done; cbn [sys_step]; (destruct (sy_conns (ns_sys s) !! i); [|done]); cbn [mbind option_bind]; rewrite Hd;
        (rewrite decide_False; [done|]); [by intros [? _]|done..].
    - destruct (ns_clients s !! i) as [c'|] eqn:Hi; [|done]. assert (i = 0) as -> by exact (Honly i c' Hi). rewrite Hc in Hi. apply Some_inj in Hi. subst c'.
      cbn [mbind option_bind]. rewrite Hnow, Hk. cbn [mbind option_bind]. rewrite Hsent, Ho, Hrd. rewrite drop_nil, take_nil. cbn [map orb length].
      pose proof (client_nothing 99 (fun _ => True) ticket_ro map_to_list [] valid_order_sorted (map_to_list, map_to_list, ask (B "ab"))
        ltac:(apply ask_good; by_compute)) as Hn. cbn [fst snd] in Hn. unfold msg_of in Hn. cbn [fst snd] in Hn. by rewrite Hn. }
  pose proof (H nat odd_peers 99 (fun _ => True) ticket_ro map_to_list [] wn line_feed s valid_order_sorted I ticket_keeps line_feed_fair E Hst 0 _ Hc) as Hx.
  congruence.
Qed.

Example only_strangers_stop_the_server_ex : exists s ls1 l ls2 s1 i k wr,
  n_run map_to_list ticket_ro [] (n_new wn) line_feed = Some s /\ sy_thr (ns_sys s) = TDown /\
  line_feed = ls1 ++ l :: ls2 /\ n_run map_to_list ticket_ro [] (n_new wn) ls1 = Some s1 /\
  odd_peers i /\ sy_conns (ns_sys s1) !! i = Some k /\
  (l = NServer (LServe i false wr) \/ l = NServer (LResume i wr) \/ l = NServer (LTimeout i wr)) /\
  (~ short (hn_in k) \/ LF ∈ take 3 (hn_in k) \/ wr = WSig \/ handlers_fail ticket_ro (sy_world (ns_sys s1)) (hn_in k)).
Proof.
  destruct line_feed_run as (s & _ & _ & E & Hd & _).
  destruct (only_strangers_stop_the_server nat odd_peers 99 (fun _ => True) ticket_ro map_to_list [] wn line_feed s valid_order_sorted I
    ticket_keeps line_feed_fair E Hd) as (ls1 & l & ls2 & s1 & i & k & wr & Hx).
  by exists s, ls1, l, ls2, s1, i, k, wr.
Qed.

Print Assumptions calls_are_serial.
Print Assumptions every_call_returns.
Print Assumptions strangers_calls_are_serial.
Print Assumptions strangers_every_call_returns.
Print Assumptions strangers_every_call_returns_refuted.
Print Assumptions only_strangers_stop_the_server.
