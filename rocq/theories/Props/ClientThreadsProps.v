(** C180, C181, C197, C198, C199: a server with worker threads and all its clients
    (src/cppnet/http/client/http_client.cpp, HttpServer on TcpServer in mode
    kMultiThread). *)
From Verif.Lib Require Import CxxStringFacts.
From Verif.Model Require Import ClientThreads.
From Verif.Proof Require Import ReqProof SocketProof ServerProof HttpSystemProof HttpThreadsProof StrangerProof.
From Verif.Props Require Import MessageProps RouterProps ServerProps ClientProps HttpThreadsProps ClientServerProps.
From Verif.Props Require HttpSystemProps.

(** ** Statements *)

(** Good calls (as in C175); send(2) of the server takes [M] bytes; no time-outs. *)
Definition xfair {U} (M : nat) (W : world U -> Prop) (ro : router U) (l : xlab) : Prop :=
  match l with
  | XCall _ hit rit q => valid_order hit /\ valid_order rit /\ good_call M W ro q
  | XServer (TRun _ wr) => big M wr
  | XServer (TTimeout _ _) | XOther _ => False
  | _ => True
  end.
(** Steps that are neither a client that comes or goes nor a new call. *)
Definition xgoes_on {U} (M : nat) (W : world U -> Prop) (ro : router U) (l : xlab) : Prop :=
  xfair M W ro l /\ match l with XConnect _ _ | XClose _ | XCall _ _ _ _ => False | _ => True end.
Definition xexplains {U} (ro : router U) (w0 : world U) (s : xsys U) (log : list event) : Prop :=
  explained ro w0 (ts_world (xs_srv s)) (xs_clients s) log.
(** The number of clients that have not left. *)
Definition present {U} (s : xsys U) : nat :=
  length (filter (fun x => (tn_fin <$> (ts_conns (xs_srv s) !! x.1)) = Some false) (map_to_list (xs_clients s))).

(** With strangers [X]: the number [f] is closed or stands for the connection of one. *)
Definition foreign {U} (X : nat -> Prop) (t : tsys U) (f : nat) : Prop := forall i, ts_fds t !! f = Some i -> X i.
(** Strangers send what they like, send(2) to them does what it likes, and the receive
    time-out may end the waiting for them.  The number that the connection of a client
    gets is not in use by a thread or a task. *)
Definition xfair_with {U} (X : nat -> Prop) (M : nat) (W : world U -> Prop) (ro : router U) (s : xsys U) (l : xlab) : Prop :=
  match l with
  | XConnect i f => ~ X i /\ unused f (xs_srv s)
  | XCall _ hit rit q => valid_order hit /\ valid_order rit /\ good_call M W ro q
  | XServer (TRun w wr) =>
      big M wr \/ exists th f st, ts_workers (xs_srv s) !! w = Some (WRead th f st) /\ foreign X (xs_srv s) f
  | XServer (TTimeout _ i) | XOther (TAccept i _ _) | XOther (TSend i _) | XOther (TFin i) => X i
  | XOther _ => False
  | _ => True
  end.
Definition xgoes_on_with {U} (X : nat -> Prop) (M : nat) (W : world U -> Prop) (ro : router U) (s : xsys U) (l : xlab) : Prop :=
  xfair_with X M W ro s l /\ match l with XConnect _ _ | XClose _ | XCall _ _ _ _ | XOther _ => False | _ => True end.
(** All steps of a run are such. *)
Fixpoint xall {U} (P : xsys U -> xlab -> Prop) (hit : iter_order) (ro : router U) (e : bytes) (s : xsys U) (ls : list xlab) : Prop :=
  match ls with
  | [] => True
  | l :: ls' => match x_step false hit ro e s l with Some s' => P s l /\ xall P hit ro e s' ls' | None => True end
  end.

(** ** Proofs *)

Lemma xall_impl {U} (P Q : xsys U -> xlab -> Prop) hit ro e ls : (forall s l, P s l -> Q s l) -> forall s, xall P hit ro e s ls -> xall Q hit ro e s ls.
Proof.
  intros H. induction ls as [|l ls IH]; intros s; [done|]. cbn [xall].
  destruct (x_step _ _ _ _ _ _); [|done]. intros [H1 H2]. split; [by apply H|by apply IH].
Qed.

(** Which byte makes HandleRead throw. *)
Lemma got_byte_ok buf c : short (buf ++ [c]) -> ~ (c = LF /\ length buf < 3) -> exists st, got_byte (RHead buf) c = Ok st.
Proof.
  intros Hs Hn. cbn [got_byte].
  assert (Hg : exists go, until_goes_on CRLFCRLF (buf ++ [c]) c = Ok go).
  { assert (Hc : until_goes_on CRLFCRLF (buf ++ [c]) c = until_goes_on CRLFCRLF (buf ++ [c]) (lastch (buf ++ [c]))) by (by rewrite lastch_snoc).
    rewrite Hc, (goes_on_spec CRLFCRLF LF) by (done || by apply short_fits).
    destruct (decide (last (buf ++ [c]) = Some LF)) as [Hl|Hl]; [|by eexists].
    rewrite last_snoc in Hl. injection Hl as ->. rewrite decide_False; [by eexists|]. rewrite app_length. cbn. intros H. apply Hn. split; [done|lia]. }
  destruct Hg as [[] ->]; cbn [mbind outcome_bind]; [by eexists|]. unfold after_head. destruct (_ <=? 0)%Z; [by eexists|].
  destruct (req_parse_total req_new _ Hs) as (rc & r & -> & _). cbn [mbind outcome_bind].
  destruct (negb _); [by eexists|]. destruct (0 <? _)%Z; by eexists.
Qed.

Section runs.
Context {U : Type} (X : nat -> Prop) (M : nat) (W : world U -> Prop) (ro : router U) (hit : iter_order) (e : bytes).
Context (Hit : valid_order hit) (Hkeep : forall i, X i -> keeps W ro).
Implicit Types (s : xsys U) (t : tsys U) (n : nsys U).

(** [xfair_with], with a number of users. *)
Definition xok s (l : xlab) : Prop :=
  match l with
  | XConnect i f => ~ X i /\ users f (xs_srv s) = 0
  | _ => xfair_with X M W ro s l
  end.
Lemma xok_fair s l : xfair_with X M W ro s l -> xok s l.
Proof. destruct l; try done. intros [H1 H2]. split; [done|]. by apply unused_users. Qed.
Definition xgo s (l : xlab) : Prop :=
  xok s l /\ match l with XConnect _ _ | XClose _ | XCall _ _ _ _ | XOther _ => False | _ => True end.

(** Connection [i] of the server with threads and the one of ClientServer.v: what a
    worker has taken out of the stream counts as not yet read there. *)
Record link t (i : nat) (k : tconn) (h : hconn) (f : nat) (eaten : bytes) : Prop := {
  li_fd : ts_fds t !! f = Some i;
  li_most : users f t <= 1;
  li_one : tn_fin k = false -> users f t = 1;
  li_fin : hn_fin h = tn_fin k;
  li_open : hn_open h = true;
  li_in : hn_in h = eaten ++ tn_in k;
  li_sent : hn_sent h = tn_sent k;
  li_read : forall w th st, ts_workers t !! w = Some (WRead th f st) -> reached ro st eaten /\ eaten ++ tn_in k <> [];
  li_none : (forall w th st, ts_workers t !! w <> Some (WRead th f st)) -> eaten = [] }.

(** The connections of strangers are not looked at. *)
Record sim s n : Prop := {
  si_clients : ns_clients n = xs_clients s;
  si_world : sy_world (ns_sys n) = ts_world (xs_srv s);
  si_thr : sy_thr (ns_sys n) = if ts_down (xs_srv s) then TDown else TFree;
  si_sane : sane false (xs_srv s);
  si_queue : forall f ok, KConn f ok ∈ ts_queue (xs_srv s) -> ok = true \/ foreign X (xs_srv s) f;
  si_users : forall f, ts_fds (xs_srv s) !! f = None -> users f (xs_srv s) = 0 \/ exists i, X i;
  si_conn : forall i c, xs_clients s !! i = Some c -> exists k h f eaten, ts_conns (xs_srv s) !! i = Some k /\
              sy_conns (ns_sys n) !! i = Some h /\ link (xs_srv s) i k h f eaten;
  si_rest : forall i k, xs_clients s !! i = None -> ts_conns (xs_srv s) !! i = Some k -> X i }.

Lemma link_ext t t' i k h f eaten : link t i k h f eaten ->
  ts_fds t' !! f = Some i -> users f t' = users f t ->
  (forall w th st, ts_workers t' !! w = Some (WRead th f st) <-> ts_workers t !! w = Some (WRead th f st)) ->
  link t' i k h f eaten.
Proof.
  intros [H1 H2 H2' H3 H3' H4 H5 H6 H7] Hf Hu Hw. split; try done.
  - by rewrite Hu.
  - by rewrite Hu.
  - intros w th st H. by apply (H6 w th), Hw.
  - intros H. apply H7. intros w th st E. by apply Hw, H in E.
Qed.

Lemma sim_open s i k h f eaten : link (xs_srv s) i k h f eaten -> still_open (xs_srv s) i = true.
Proof.
  intros H. unfold still_open. apply List.existsb_exists. exists (f, i). split; [|by apply Nat.eqb_refl].
  apply elem_of_list_In, elem_of_map_to_list. apply H.
Qed.

(** The number of a client. *)
Lemma sim_number s n f i c : sim s n -> ts_fds (xs_srv s) !! f = Some i -> xs_clients s !! i = Some c ->
  exists k h eaten, conn_of (xs_srv s) f = Some (i, k) /\ ts_conns (xs_srv s) !! i = Some k /\
    sy_conns (ns_sys n) !! i = Some h /\ link (xs_srv s) i k h f eaten.
Proof.
  intros Hsim Hf Hc. destruct (si_conn _ _ Hsim i c Hc) as (k & h & g & eaten & Hk & Hh & Hl).
  assert (g = f) as -> by (eapply (sa_inj _ _ (si_sane _ _ Hsim)); [apply Hl|done]).
  exists k, h, eaten. split; [by apply conn_of_eq|done].
Qed.
(** A worker serves a client or not. *)
Lemma sim_worker s n w x f : sim s n -> ts_workers (xs_srv s) !! w = Some x -> wst_fd x = Some f ->
  (exists i c k h eaten, xs_clients s !! i = Some c /\ conn_of (xs_srv s) f = Some (i, k) /\ ts_conns (xs_srv s) !! i = Some k /\
     sy_conns (ns_sys n) !! i = Some h /\ link (xs_srv s) i k h f eaten) \/
  foreign X (xs_srv s) f /\ (exists i, X i) /\ (forall i c, ts_fds (xs_srv s) !! f = Some i -> xs_clients s !! i = Some c -> False).
Proof.
  intros Hsim Hx Hf.
  assert (Hu : 1 <= users f (xs_srv s)).
  { pose proof (wcount_lookup f _ _ _ Hx) as H. unfold on in H. rewrite decide_True in H by done. unfold users. lia. }
  destruct (ts_fds (xs_srv s) !! f) as [i|] eqn:Ei.
  2: { right. split; [intros i H; congruence|]. split; [|congruence]. destruct (si_users _ _ Hsim f Ei) as [H|H]; [lia|done]. }
  destruct (xs_clients s !! i) as [c|] eqn:Hc.
  - left. destruct (sim_number s n f i c Hsim Ei Hc) as (k & h & eaten & H1 & H2 & H3 & H4). by exists i, c, k, h, eaten.
  - right. destruct (sa_conn _ _ (si_sane _ _ Hsim) f i Ei) as [k Hk]. pose proof (si_rest _ _ Hsim i k Hc Hk) as HX.
    split; [intros j Hj; congruence|]. split; [by exists i|]. intros j c Hj Hcj. congruence.
Qed.

(** A worker that goes from state [x], on [f], to state [y], on [f] as well. *)
Lemma same_users (ws : list wst) w x y f g : ws !! w = Some x -> wst_fd x = Some f -> wst_fd y = Some f ->
  wcount g (<[w := y]> ws) = wcount g ws.
Proof.
  intros Hx Hf Hy. pose proof (wcount_insert g ws w x y Hx) as H. unfold on in H. rewrite Hf, Hy in H. lia.
Qed.

(** The call that a byte that is read belongs to. *)
Lemma asked w0 n log i h c : inv X M W ro hit w0 n log -> ns_clients n !! i = Some c -> sy_conns (ns_sys n) !! i = Some h -> hn_in h <> [] ->
  exists x, valid_order x.1.1 /\ valid_order x.1.2 /\ good_call M W ro x.2 /\
    hn_in h ++ cl_flight c = msg_of x /\ hn_open h = true /\ hn_fin h = false /\ cl_now c = Some x.
Proof.
  intros (_ & Hl & _) Hc Hh Hne. specialize (Hl i). rewrite Hh, Hc in Hl.
  apply local_live in Hl as (Ho & Hf & Hp & _ & _); [|by right; left].
  destruct Hp as [_ _ H5 _ _ _|x qs H3 H4 H5 H6 H7 H8 H9 H10 H11|x bf r p _ _ _ _ H7 _ _ _ _ _]; [done| |done].
  by exists x.
Qed.

(** The next byte of a request is understood. *)
Lemma got_it x st eaten ch rest (w : world U) : W w -> valid_order x.1.1 -> valid_order x.1.2 -> good_call M W ro x.2 ->
  reached ro st eaten -> finishing st = false -> eaten ++ ch :: rest = msg_of x -> exists st', got_byte st ch = Ok st'.
Proof.
  intros HW H1 H2 H3 [Hl Hr] Hf Hm.
  destruct (server_whole M W ro hit e Hit x (WTake M) w [] Wait HW H1 H2 H3 (ex_intro _ M (conj eq_refl (Nat.le_refl M))))
    as (c' & w' & _ & _ & _ & Hh).
  rewrite <- Hm, map_app, <- app_assoc, <- Hr, app_nil_r in Hh. cbn [map] in Hh. rewrite resume_byte in Hh by done.
  destruct (got_byte st ch) as [st'| | | | |]; try done. by exists st'.
Qed.

(** The thread of a client that has left is at ReadPeek. *)
Lemma gone_peeks w0 s n log w x f i c k h eaten : inv X M W ro hit w0 n log -> ts_workers (xs_srv s) !! w = Some x -> wst_fd x = Some f ->
  ns_clients n !! i = Some c -> sy_conns (ns_sys n) !! i = Some h -> link (xs_srv s) i k h f eaten -> tn_in k = [] -> tn_fin k = true ->
  x = WPeek f /\ eaten = [].
Proof.
  intros Hinv Ew Ef Hc Hh [L1 L2 L2' L3 L3' L4 L5 L6 L7] Ein Ek.
  assert (Hnil : hn_in h = []).
  { destruct (decide (hn_in h = [])) as [|Hne]; [done|]. destruct (asked w0 n log i h c Hinv Hc Hh Hne) as (? & _ & _ & _ & _ & _ & Hf & _). congruence. }
  rewrite L4, Ein, app_nil_r in Hnil. split; [|done].
  destruct x as [|g|th g st]; [done|by injection Ef as ->|]. injection Ef as ->. destruct (L6 w th st Ew) as [_ Hne]. by rewrite Hnil, Ein in Hne.
Qed.

(** *** Strangers *)

Lemma inv_event w0 n log j r c' w' : inv X M W ro hit w0 n log -> X j -> sy_thr (ns_sys n) = TFree ->
  dispatch ro (rt_path (rq_route r)) (ctx_new r resp_new) (sy_world (ns_sys n)) = Ok (c', w') ->
  inv X M W ro hit w0 (NSys (HSys w' TFree (<[j := hconn_new]> (sy_conns (ns_sys n)))) (ns_clients n)) (log ++ [(j, r, reply (cx_resp c'))]).
Proof.
  intros ((Hser & HW) & Hl & Ht) HX Hthr Hd. split; [split|split].
  - by eapply serial_snoc.
  - pose proof (Hkeep j HX r _ HW) as H. by rewrite Hd in H.
  - intros i. cbn [ns_clients ns_sys sy_conns]. rewrite of_client_snoc. cbn [fst]. case_decide as Hij.
    + subst i. rewrite lookup_insert. specialize (Hl j). destruct (ns_clients n !! j) as [c|]; [|done].
      destruct (sy_conns (ns_sys n) !! j); [|done]. by destruct Hl.
    + rewrite app_nil_r, lookup_insert_ne by done. apply Hl.
  - by left.
Qed.
Lemma inv_down w0 n log : inv X M W ro hit w0 n log -> (exists i, X i) ->
  inv X M W ro hit w0 (NSys (HSys (sy_world (ns_sys n)) TDown (sy_conns (ns_sys n))) (ns_clients n)) log.
Proof. intros (H1 & H2 & H3) HX. split; [done|]. split; [done|]. right. by right. Qed.

(** A step that leaves the clients alone. *)
Lemma sim_keep s n t' n' : sim s n -> sane false t' -> ns_clients n' = xs_clients s -> sy_world (ns_sys n') = ts_world t' ->
  sy_thr (ns_sys n') = (if ts_down t' then TDown else TFree) -> (exists i, X i) ->
  (forall i c, xs_clients s !! i = Some c -> sy_conns (ns_sys n') !! i = sy_conns (ns_sys n) !! i /\ ts_conns t' !! i = ts_conns (xs_srv s) !! i) ->
  (forall i k, xs_clients s !! i = None -> ts_conns t' !! i = Some k -> X i) ->
  (forall f i c, ts_fds (xs_srv s) !! f = Some i -> xs_clients s !! i = Some c -> ts_fds t' !! f = Some i /\ users f t' = users f (xs_srv s) /\
     forall w th st, ts_workers t' !! w = Some (WRead th f st) <-> ts_workers (xs_srv s) !! w = Some (WRead th f st)) ->
  (forall f ok, KConn f ok ∈ ts_queue t' -> ok = true \/ foreign X t' f) ->
  sim (XSys t' (xs_clients s)) n'.
Proof.
  intros Hsim Hsane E1 E2 E3 HX H1 H2 H3 H4. split; cbn [xs_srv xs_clients]; try done.
  - intros f _. by right.
  - intros i c Hc. destruct (si_conn _ _ Hsim i c Hc) as (k & h & f & eaten & Hk & Hh & Hl). destruct (H1 i c Hc) as [-> ->].
    destruct (H3 f i c (li_fd _ _ _ _ _ _ Hl) Hc) as (A1 & A2 & A3). exists k, h, f, eaten. do 2 (split; [done|]). by eapply link_ext.
Qed.

(** A worker on a foreign number changes its state. *)
Lemma foreign_worker s n t' n' w x y f : sim s n -> ts_workers (xs_srv s) !! w = Some x -> wst_fd x = Some f ->
  (forall i c, ts_fds (xs_srv s) !! f = Some i -> xs_clients s !! i = Some c -> False) -> (exists i, X i) ->
  wst_fd y = Some f \/ y = WFree -> ts_workers t' = <[w := y]> (ts_workers (xs_srv s)) -> ts_queue t' = ts_queue (xs_srv s) ->
  (ts_fds t' = ts_fds (xs_srv s) \/ ts_fds t' = delete f (ts_fds (xs_srv s))) ->
  (ts_conns t' = ts_conns (xs_srv s) \/ exists i k, ts_fds (xs_srv s) !! f = Some i /\ ts_conns t' = <[i := k]> (ts_conns (xs_srv s))) ->
  sane false t' -> ns_clients n' = xs_clients s -> sy_world (ns_sys n') = ts_world t' ->
  sy_thr (ns_sys n') = (if ts_down t' then TDown else TFree) ->
  (forall i c, xs_clients s !! i = Some c -> sy_conns (ns_sys n') !! i = sy_conns (ns_sys n) !! i) ->
  sim (XSys t' (xs_clients s)) n'.
Proof.
  intros Hsim Ew Ef Hfor HX Hy Ews Eq Efd Eco Hsane E1 E2 E3 H1.
  assert (Hlook : forall g i c, ts_fds (xs_srv s) !! g = Some i -> xs_clients s !! i = Some c -> g <> f) by (intros g i c A B ->; by eapply Hfor).
  apply (sim_keep s n); try done.
  - intros i c Hc. split; [by eapply H1|]. destruct Eco as [->|(j & k & Hj & ->)]; [done|]. rewrite lookup_insert_ne; [done|].
    intros ->. by eapply Hfor.
  - intros i k Hc Hk. destruct Eco as [E|(j & k' & Hj & E)]; rewrite E in Hk; [by eapply (si_rest _ _ Hsim)|].
    destruct (decide (j = i)) as [->|Hne]; [|rewrite lookup_insert_ne in Hk by done; by eapply (si_rest _ _ Hsim)].
    destruct (sa_conn _ _ (si_sane _ _ Hsim) f i Hj) as [k0 Hk0]. by eapply (si_rest _ _ Hsim).
  - intros g i c Hg Hc. pose proof (Hlook g i c Hg Hc) as Hgf. split; [|split].
    + destruct Efd as [->| ->]; [done|]. by rewrite lookup_delete_ne.
    + unfold users. rewrite Eq, Ews. f_equal. pose proof (wcount_insert g _ _ _ y Ew) as H.
      rewrite !on_other in H; [lia| |rewrite Ef; congruence]. destruct Hy as [->| ->]; cbn; congruence.
    + rewrite Ews. apply (other_worker g _ _ x y Ew); [congruence|]. destruct Hy as [->| ->]; cbn; congruence.
  - intros g ok Hg. rewrite Eq in Hg. destruct (si_queue _ _ Hsim g ok Hg) as [->|H]; [by left|]. right. intros i Hi. apply H.
    destruct Efd as [E|E]; rewrite E in Hi; [done|]. by apply lookup_delete_Some in Hi as [_ ?].
Qed.

(** What finishing a request does to the world. *)
Lemma finish_what wr st (w : world U) v : finish hit wr ro e st w = Ok v ->
  v.1.1.1 = w \/ exists r c', st = RRun r /\ dispatch ro (rt_path (rq_route r)) (ctx_new r resp_new) w = Ok (c', v.1.1.1).
Proof.
  unfold finish. destruct st as [b|r m g|r| |]; try (intros [= <-]; by left).
  - destruct (answer hit wr ro r e w (Stream [] Eof)) as [sv| | | | |] eqn:E; cbn [mbind outcome_bind]; try done. intros [= <-].
    apply answer_what in E as (_ & c' & Hd). right. by exists r, c'.
  - destruct (resp_build _ _ _) as [[? ?] b]. destruct (sock_write wr b) as [o| | | | |]; cbn [mbind outcome_bind]; try done. intros [= <-]. by left.
Qed.

Lemma sim_same_server s n cs : sim s n -> (forall i, is_Some (cs !! i) <-> is_Some (xs_clients s !! i)) ->
  sim (XSys (xs_srv s) cs) (NSys (ns_sys n) cs).
Proof.
  intros [H1 H2 H3 H4 H5 H6 H7 H8] Hcs. split; try done; cbn [xs_clients xs_srv ns_sys].
  - intros i c Hc. destruct (proj1 (Hcs i) (ex_intro _ c Hc)) as [c0 Hc0]. by apply (H7 i c0).
  - intros i k Hc. apply H8. destruct (xs_clients s !! i) as [c0|] eqn:E; [|done]. destruct (proj2 (Hcs i) (ex_intro _ c0 E)) as [c1 Hc1]. congruence.
Qed.
Lemma same_domain (m : gmap nat client) i c c' : m !! i = Some c -> forall j, is_Some (<[i := c']> m !! j) <-> is_Some (m !! j).
Proof.
  intros H j. destruct (decide (i = j)) as [<-|Hij]; [|by rewrite lookup_insert_ne]. rewrite lookup_insert, H. split; by eexists.
Qed.

Lemma sim_step w0 s n log l s' : inv X M W ro hit w0 n log -> sim s n -> xok s l -> x_step false hit ro e s l = Some s' ->
  exists n' log2, inv X M W ro hit w0 n' (log ++ log2) /\ sim s' n'.
Proof.
  intros Hinv Hsim Hfair Hl.
  assert (Hsane : forall tl t', t_step false hit ro e (xs_srv s) tl = Some t' -> sane false t').
  { intros tl t' Ht. eapply sane_step; [apply Hsim|exact Ht]. }
  assert (Hupt : forall tl t', t_step false hit ro e (xs_srv s) tl = Some t' -> ts_down (xs_srv s) = false).
  { intros tl t' Ht. unfold t_step in Ht. by destruct (ts_down (xs_srv s)). }
  pose proof (si_thr _ _ Hsim) as Hthr. pose proof (si_clients _ _ Hsim) as Hcl. pose proof (si_conn _ _ Hsim) as Hco.
  pose proof (inv_step X M W ro hit e Hit Hkeep w0 n log) as Hstep.
  destruct l as [i f|i|i chit crit q|i m|l|i m|l]; cbn [x_step] in Hl.
  - (* connect *)
    destruct (t_step false hit ro e (xs_srv s) (TAccept i f true)) as [t'|] eqn:Et; [|done]. cbn [mbind option_bind] in Hl. injection Hl as <-.
    pose proof (Hsane _ _ Et) as Hsane'. pose proof (Hupt _ _ Et) as Hup. rewrite Hup in Hthr.
    unfold t_step in Et. rewrite Hup in Et. case_decide as Hd; [|done]. destruct Hd as [Hd1 Hd2].
    injection Et as <-. destruct Hfair as [HX Hu0].
    assert (Hnc : xs_clients s !! i = None).
    { destruct (xs_clients s !! i) as [c|] eqn:Hc; [|done]. destruct (Hco i c Hc) as (k & _ & _ & _ & Hk & _). congruence. }
    assert (Hn : sy_conns (ns_sys n) !! i = None).
    { pose proof Hinv as (_ & Hloc & _). specialize (Hloc i). rewrite Hcl, Hnc in Hloc. by destruct (sy_conns (ns_sys n) !! i). }
    assert (Hs : n_step hit ro e n (NConnect i) = Some (NSys (with_conn (ns_sys n) i hconn_new) (<[i := client_new]> (ns_clients n)))).
    { cbn [n_step sys_step]. rewrite decide_True by done. done. }
    destruct (Hstep (NConnect i) _ Hinv HX Hs) as (log2 & Hi). eexists _, log2. split; [exact Hi|].
    assert (Hus : forall g, users g (add_task (set_tconn (TSys (ts_world (xs_srv s)) (<[f := i]> (ts_fds (xs_srv s))) (ts_conns (xs_srv s))
        (ts_queue (xs_srv s)) (ts_workers (xs_srv s)) false) i tconn_new) (KConn f true)) = users g (xs_srv s) + (if decide (f = g) then 1 else 0)).
    { intros g. unfold users. cbn [add_task set_tconn ts_queue ts_workers]. rewrite qcount_app, qcount_cons. cbn [task_fd].
      change (qcount g []) with 0. lia. }
    split; cbn [xs_srv xs_clients ns_clients ns_sys with_conn sy_world sy_thr sy_conns]; cbn [add_task set_tconn ts_world ts_down ts_queue ts_fds ts_conns].
    + by rewrite Hcl.
    + apply Hsim.
    + done.
    + exact Hsane'.
    + intros g ok Hk. apply elem_of_app in Hk as [Hk|Hk]; [|apply elem_of_list_singleton in Hk; injection Hk as _ ->; by left].
      assert (Hgf : g <> f).
      { intros ->. pose proof (qcount_in f _ _ Hk eq_refl) as H. unfold users in Hu0. lia. }
      destruct (si_queue _ _ Hsim g ok Hk) as [H|H]; [by left|]. right. intros j Hj. cbn [add_task set_tconn ts_fds] in Hj.
      rewrite lookup_insert_ne in Hj by done. by apply H.
    + intros g Hg. apply lookup_insert_None in Hg as [Hg1 Hg2]. rewrite Hus, decide_False by done. rewrite Nat.add_0_r. by apply Hsim.
    + intros j c Hj. destruct (decide (i = j)) as [<-|Hij].
      * exists tconn_new, hconn_new, f, []. rewrite !lookup_insert. do 2 (split; [done|]). split; cbn [add_task set_tconn ts_fds ts_workers]; try done.
        -- by rewrite lookup_insert.
        -- rewrite Hus, Hu0, decide_True by done. lia.
        -- rewrite Hus, Hu0, decide_True by done. done.
        -- intros w th st Hw. pose proof (wcount_lookup f _ _ _ Hw) as H. rewrite on_read in H. unfold users in Hu0. lia.
      * rewrite lookup_insert_ne in Hj by done. destruct (Hco j c Hj) as (k & h & g & eaten & Hkj & Hhj & Hk).
        exists k, h, g, eaten. rewrite !lookup_insert_ne by done. do 2 (split; [done|]).
        pose proof (li_fd _ _ _ _ _ _ Hk) as Hg. assert (f <> g) by congruence.
        eapply link_ext; [exact Hk| | |done]; cbn [add_task set_tconn ts_fds]; [by rewrite lookup_insert_ne|].
        rewrite Hus, decide_False by done. lia.
    + intros j k Hj Hk. apply lookup_insert_None in Hj as [Hj Hij]. rewrite lookup_insert_ne in Hk by done. by eapply (si_rest _ _ Hsim).
  - (* close *)
    destruct (xs_clients s !! i) as [c|] eqn:Hc; [|done]. cbn [mbind option_bind] in Hl. case_decide as Hd; [|done].
    destruct (t_step false hit ro e (xs_srv s) (TFin i)) as [t'|] eqn:Et; [|done]. cbn [mbind option_bind] in Hl. injection Hl as <-.
    pose proof (Hsane _ _ Et) as Hsane'. pose proof (Hupt _ _ Et) as Hup. unfold t_step in Et. rewrite Hup in Et.
    destruct (Hco i c Hc) as (k & h & f & eaten & Hk & Hh & Hli). rewrite Hk in Et. cbn [mbind option_bind] in Et. injection Et as <-.
    pose proof Hli as [L1 L2 L2' L3 L3' L4 L5 L6 L7].
    assert (Hs : n_step hit ro e n (NClose i) = Some (NSys (with_conn (ns_sys n) i
        (HConn (hn_in h) true (hn_open h) (hn_out h) (hn_sent h))) (ns_clients n))).
    { cbn [n_step sys_step]. rewrite Hcl, Hc. cbn [mbind option_bind]. rewrite decide_True by done. rewrite Hh. cbn [mbind option_bind].
      by rewrite L3'. }
    destruct (Hstep (NClose i) _ Hinv I Hs) as (log2 & Hi). eexists _, log2. split; [exact Hi|].
    split; cbn [xs_srv xs_clients ns_clients ns_sys with_conn sy_world sy_thr sy_conns]; cbn [set_tconn ts_world ts_down ts_queue ts_fds ts_conns];
      try apply Hsim; try done.
    + intros j cj Hj. destruct (decide (i = j)) as [<-|Hij].
      * eexists _, _, f, eaten. rewrite !lookup_insert. do 2 (split; [done|]). by split.
      * destruct (Hco j cj Hj) as (kj & hj & g & eg & Hkj & Hhj & Hlj). exists kj, hj, g, eg. rewrite !lookup_insert_ne by done.
        do 2 (split; [done|]). by eapply link_ext; [exact Hlj|apply Hlj|..].
    + intros j kj Hj Hkj. rewrite lookup_insert_ne in Hkj by congruence. by eapply (si_rest _ _ Hsim).
  - (* call *)
    destruct (xs_clients s !! i) as [c|] eqn:Hc; [|done]. cbn [mbind option_bind] in Hl.
    destruct (Hco i c Hc) as (k & h & f & eaten & Hk & Hh & Hli). rewrite Hk in Hl. cbn [mbind option_bind] in Hl.
    pose proof (li_fin _ _ _ _ _ _ Hli) as Hfin.
    destruct (cl_now c) eqn:En; [done|]. destruct (tn_fin k); [done|].
    destruct (n_step hit ro e n (NCall i chit crit q)) as [n'|] eqn:Hs.
    2: { cbn [n_step] in Hs. rewrite Hcl, Hc, Hh in Hs. cbn [mbind option_bind] in Hs. rewrite En, Hfin in Hs.
      destruct (req_build chit crit q []) as [[rc q'] msg]. by destruct (rc =? kSuccess)%Z. }
    destruct (Hstep (NCall i chit crit q) _ Hinv Hfair Hs) as (log2 & Hi). exists n', log2. split; [done|].
    cbn [n_step] in Hs. rewrite Hcl, Hc, Hh in Hs. cbn [mbind option_bind] in Hs. rewrite En, Hfin in Hs.
    destruct (req_build chit crit q []) as [[rc q'] msg].
    destruct (rc =? kSuccess)%Z; injection Hs as <-; injection Hl as <-; (apply sim_same_server; [done|by eapply same_domain]).
  - (* flow *)
    destruct (xs_clients s !! i) as [c|] eqn:Hc; [|done]. cbn [mbind option_bind] in Hl. case_decide as Hm; [|done].
    destruct (t_step false hit ro e (xs_srv s) (TSend i _)) as [t'|] eqn:Et; [|done]. cbn [mbind option_bind] in Hl. injection Hl as <-.
    pose proof (Hsane _ _ Et) as Hsane'. pose proof (Hupt _ _ Et) as Hup. unfold t_step in Et. rewrite Hup in Et.
    destruct (Hco i c Hc) as (k & h & f & eaten & Hk & Hh & Hli). rewrite Hk in Et. cbn [mbind option_bind] in Et.
    destruct (tn_fin k) eqn:Ek; [done|]. injection Et as <-.
    pose proof (li_open _ _ _ _ _ _ Hli) as Ho. pose proof (li_fin _ _ _ _ _ _ Hli) as Hf. rewrite Ek in Hf.
    assert (Hs : n_step hit ro e n (NFlow i m) = Some (NSys (with_conn (ns_sys n) i
        (HConn (hn_in h ++ take m (cl_flight c)) (hn_fin h) (hn_open h) (hn_out h) (hn_sent h)))
        (<[i := Cli (cl_read c) (drop m (cl_flight c)) (cl_now c) (cl_calls c) (cl_done c)]> (ns_clients n)))).
    { cbn [n_step sys_step]. rewrite Hcl, Hc. cbn [mbind option_bind]. rewrite decide_True by done. rewrite Hh. cbn [mbind option_bind].
      by rewrite Ho, Hf. }
    destruct (Hstep (NFlow i m) _ Hinv I Hs) as (log2 & Hi). eexists _, log2. split; [exact Hi|].
    split; cbn [xs_srv xs_clients ns_clients ns_sys with_conn sy_world sy_thr sy_conns]; cbn [set_tconn ts_world ts_down ts_queue ts_fds ts_conns].
    + by rewrite Hcl.
    + apply Hsim.
    + apply Hsim.
    + exact Hsane'.
    + apply Hsim.
    + apply (si_users _ _ Hsim).
    + intros j cj Hj. destruct (decide (i = j)) as [<-|Hij].
      * eexists _, _, f, eaten. rewrite !lookup_insert. do 2 (split; [done|]). destruct Hli as [L1 L2 L2' L3 L3' L4 L5 L6 L7].
        split; cbn [tn_fin tn_in tn_sent hn_in hn_sent hn_fin hn_open]; try done.
        -- intros _. by apply L2'.
        -- by rewrite L4, <- app_assoc.
        -- intros w th st Hw. destruct (L6 w th st Hw) as [? Hne]. split; [done|]. rewrite app_assoc. intros E. by apply app_eq_nil in E as [? _].
      * rewrite lookup_insert_ne in Hj by done.
        destruct (Hco j cj Hj) as (kj & hj & g & eg & Hkj & Hhj & Hlj). exists kj, hj, g, eg. rewrite !lookup_insert_ne by done.
        do 2 (split; [done|]). by eapply link_ext; [exact Hlj|apply Hlj|..].
    + intros j kj Hj Hkj. apply lookup_insert_None in Hj as [Hj Hij]. rewrite lookup_insert_ne in Hkj by done. by eapply (si_rest _ _ Hsim).
  - (* server *)
    assert (Et : exists t', t_step false hit ro e (xs_srv s) l = Some t' /\ s' = XSys t' (xs_clients s) /\
      match l with TAccept _ _ _ | TSend _ _ | TFin _ => False | _ => True end).
    { destruct l; try done; cbn [mbind option_bind] in Hl; destruct (t_step false hit ro e (xs_srv s) _) as [t'|]; try done;
        injection Hl as <-; by exists t'. }
    destruct Et as (t' & Et & -> & Hlab). clear Hl. pose proof (Hsane _ _ Et) as Hsane'. pose proof (Hupt _ _ Et) as Hup.
    unfold t_step in Et. rewrite Hup in Et, Hthr.
    assert (Hsame : forall w x r f, ts_workers (xs_srv s) !! w = Some x -> wst_fd x = Some f -> (exists i, X i) ->
      (forall i c, ts_fds (xs_srv s) !! f = Some i -> xs_clients s !! i = Some c -> False) ->
      forall t0, (t0 = xs_srv s \/ exists i k, ts_fds (xs_srv s) !! f = Some i /\ t0 = set_tconn (xs_srv s) i k) ->
      t' = recv_step t0 w x r -> exists n' log2, inv X M W ro hit w0 n' (log ++ log2) /\ sim (XSys t' (xs_clients s)) n').
    { intros w x r f Ew Ef HX Hfor t0 Ht0 Hr.
      assert (T1 : ts_world t0 = ts_world (xs_srv s) /\ ts_fds t0 = ts_fds (xs_srv s) /\ ts_queue t0 = ts_queue (xs_srv s) /\
        ts_workers t0 = ts_workers (xs_srv s) /\ ts_down t0 = false) by (destruct Ht0 as [->|(i & k & _ & ->)]; done).
      destruct T1 as (T1 & T2 & T3 & T4 & T5).
      assert (T6 : ts_conns t0 = ts_conns (xs_srv s) \/ exists i k, ts_fds (xs_srv s) !! f = Some i /\ ts_conns t0 = <[i := k]> (ts_conns (xs_srv s))).
      { destruct Ht0 as [->|(i & k & Hi & ->)]; [by left|]. right. by exists i, k. }
      assert (Hdone : (exists y, (wst_fd y = Some f \/ y = WFree) /\ t' = set_worker t0 w y) \/ t' = go_down t0).
      { rewrite Hr. destruct x as [|g|th g st]; [done| |]; cbn [wst_fd] in Ef; injection Ef as ->; destruct r as [ch|]; cbn [recv_step].
        - left. eexists. split; [|done]. by left.
        - left. eexists. split; [|done]. by right.
        - destruct (got_byte st ch); try (by right). left. eexists. split; [|done]. by left.
        - left. eexists. split; [|done]. by left. }
      clear Hr. destruct Hdone as [(y & Hy & ->)| ->].
      - exists n, []. rewrite app_nil_r. split; [done|].
        apply (foreign_worker s n (set_worker t0 w y) n w x y f); cbn [set_worker ts_workers ts_queue ts_fds ts_conns ts_world ts_down]; try done.
        + by rewrite T4.
        + left. done.
        + rewrite T1. apply Hsim.
        + rewrite T5. done.
      - eexists _, []. rewrite app_nil_r. split; [by apply inv_down|].
        apply (foreign_worker s n (go_down t0) _ w x x f); cbn [go_down ts_workers ts_queue ts_fds ts_conns ts_world ts_down ns_clients ns_sys sy_world sy_thr sy_conns]; try done.
        + by left.
        + rewrite T4. by rewrite list_insert_id.
        + left. done.
        + rewrite T1. apply Hsim. }
    destruct l as [j g ok|j bs|j|g|g|w|w|w j|w wr]; try done.
    + by destruct (conn_of (xs_srv s) g).
    + by destruct (conn_of (xs_srv s) g).
    + (* pop *)
      exists n, []. rewrite app_nil_r. split; [done|].
      destruct (ts_workers (xs_srv s) !! w) as [[]|] eqn:Ew; try done. destruct (ts_queue (xs_srv s)) as [|k q] eqn:Eq; [done|].
      assert (Hk : exists f ok, k = KConn f ok).
      { pose proof (sa_queue _ _ (si_sane _ _ Hsim) k) as H. rewrite Eq in H. specialize (H (elem_of_list_here _ _)).
        destruct k as [f ok|f]; [by exists f, ok|done]. }
      destruct Hk as (f & ok & ->). injection Et as Et.
      set (t1 := set_worker (TSys (ts_world (xs_srv s)) (ts_fds (xs_srv s)) (ts_conns (xs_srv s)) q (ts_workers (xs_srv s)) false) w (WPeek f)) in *.
      assert (Hus : forall g, users g t1 = users g (xs_srv s)).
      { intros g. unfold users, t1. cbn [set_worker ts_queue ts_workers]. rewrite Eq, qcount_cons. cbn [task_fd].
        pose proof (wcount_insert g _ _ _ (WPeek f) Ew) as H. rewrite on_free in H. unfold on in H. cbn [wst_fd] in H.
        destruct (decide (f = g)) as [->|Hne]; [rewrite decide_True in H by done; lia|]. rewrite decide_False in H by congruence. lia. }
      assert (Hwk : forall g w' th st, ts_workers t1 !! w' = Some (WRead th g st) <-> ts_workers (xs_srv s) !! w' = Some (WRead th g st)).
      { intros g w' th st. unfold t1. cbn [set_worker ts_workers]. destruct (decide (w = w')) as [<-|Hne]; [|by rewrite list_lookup_insert_ne].
        rewrite list_lookup_insert by (by eapply lookup_lt_Some). rewrite Ew. done. }
      assert (Hqf : ok = true \/ foreign X (xs_srv s) f).
      { apply (si_queue _ _ Hsim). rewrite Eq. left. }
      assert (Hfds : t' = t1 \/ t' = close_fd t1 f /\ foreign X (xs_srv s) f).
      { destruct ok; [by left|]. destruct Hqf as [?|?]; [done|]. right. done. }
      assert (Hfd : forall g i c, ts_fds (xs_srv s) !! g = Some i -> xs_clients s !! i = Some c -> ts_fds t' !! g = Some i).
      { intros g i c Hg Hc. destruct Hfds as [->|[-> Hfo]]; [done|]. cbn [close_fd ts_fds t1 set_worker]. rewrite lookup_delete_ne; [done|].
        intros <-. pose proof Hinv as (_ & Hloc & _). specialize (Hloc i). rewrite Hcl, Hc in Hloc.
        destruct (sy_conns (ns_sys n) !! i); [|done]. destruct Hloc as [HX _]. by apply HX, Hfo. }
      assert (Hrest : ts_world t' = ts_world (xs_srv s) /\ ts_down t' = false /\ ts_queue t' = q /\ ts_conns t' = ts_conns (xs_srv s) /\
        ts_workers t' = ts_workers t1 /\ forall g, users g t' = users g (xs_srv s)).
      { destruct Hfds as [->|[-> _]]; cbn [close_fd ts_world ts_down ts_queue ts_conns ts_workers]; split_and!; try done; exact Hus. }
      destruct Hrest as (R1 & R2 & R3 & R4 & R5 & R6).
      split; cbn [xs_srv xs_clients]; rewrite ?R1, ?R2, ?R3, ?R4; try apply Hsim; try done.
      * intros g o Hg. destruct (si_queue _ _ Hsim g o) as [?|Hfo]; [rewrite Eq; by right|by left|]. right. intros i Hi. apply Hfo.
        destruct Hfds as [->|[-> _]]; [done|]. cbn [close_fd ts_fds] in Hi. by apply lookup_delete_Some in Hi as [_ ?].
      * intros g Hg. rewrite R6. destruct (ts_fds (xs_srv s) !! g) as [i|] eqn:Ei; [|by apply (si_users _ _ Hsim)].
        right. destruct Hfds as [->|[-> Hfo]]; [cbn [t1 set_worker ts_fds] in Hg; congruence|]. exists i. apply Hfo.
        cbn [close_fd ts_fds t1 set_worker] in Hg. apply lookup_delete_None in Hg as [->|Hg]; congruence.
      * intros j cj Hj. destruct (Hco j cj Hj) as (kj & hj & g & eg & Hkj & Hhj & Hlj). exists kj, hj, g, eg. do 2 (split; [done|]).
        eapply link_ext; [exact Hlj|by eapply Hfd; [apply Hlj|]|apply R6|]. rewrite R5. apply Hwk.
    + (* recv *)
      destruct (ts_workers (xs_srv s) !! w) as [x|] eqn:Ew; [|done]. cbn [mbind option_bind] in Et.
      destruct (wst_fd x) as [f|] eqn:Ef; [|done]. cbn [mbind option_bind] in Et. destruct (receiving x) eqn:Erx; [|done].
      destruct (sim_worker s n w x f Hsim Ew Ef) as [(i & ci & k & h & eaten & Hci & Hcf & Hk & Hh & Hli)|(Hfo & HX & Hfor)].
      2: { destruct (conn_of (xs_srv s) f) as [[i k]|] eqn:Ecf.
        - apply conn_of_Some in Ecf as [Ei Ek]. destruct (tn_in k) as [|ch rest] eqn:Ein.
          + destruct (tn_fin k); [|done]. injection Et as Et. by apply (Hsame w x None f Ew Ef HX Hfor (xs_srv s) (or_introl eq_refl)).
          + injection Et as Et. destruct (takes x).
            * apply (Hsame w x (Some ch) f Ew Ef HX Hfor (set_tconn (xs_srv s) i (TConn rest (tn_fin k) (tn_out k) (tn_sent k)))); [|by symmetry].
              right. by eexists i, _.
            * by apply (Hsame w x (Some ch) f Ew Ef HX Hfor (xs_srv s) (or_introl eq_refl)).
        - injection Et as Et. by apply (Hsame w x None f Ew Ef HX Hfor (xs_srv s) (or_introl eq_refl)). }
      clear Hsame. exists n, []. rewrite app_nil_r. split; [done|]. rewrite Hcf in Et. rewrite <- Hcl in Hci.
      pose proof Hli as [L1 L2 L2' L3 L3' L4 L5 L6 L7].
      assert (Hother : forall y g t2 j cj, (wst_fd y = Some f \/ y = WFree) -> ts_workers t2 = <[w := y]> (ts_workers (xs_srv s)) -> j <> i ->
        ts_fds t2 = ts_fds (xs_srv s) -> ts_queue t2 = ts_queue (xs_srv s) -> xs_clients s !! j = Some cj ->
        forall kj hj eg, link (xs_srv s) j kj hj g eg -> link t2 j kj hj g eg).
      { intros y g t2 j cj Hy E1 Hij E2 E3 Hj kj hj eg Hlj.
        assert (Hgf : g <> f) by (intros ->; pose proof (li_fd _ _ _ _ _ _ Hlj); congruence).
        eapply link_ext; [exact Hlj|rewrite E2; apply Hlj| |].
        - unfold users. rewrite E1, E3. f_equal. pose proof (wcount_insert g _ _ _ y Ew) as H.
          rewrite !on_other in H; [lia| |congruence]. destruct Hy as [->| ->]; cbn; congruence.
        - rewrite E1. apply (other_worker g _ _ x y Ew); [congruence|]. destruct Hy as [->| ->]; cbn; congruence. }
      destruct (tn_in k) as [|ch rest] eqn:Ein.
      { destruct (tn_fin k) eqn:Ek; [|done]. injection Et as <-.
        destruct (gone_peeks w0 s n log w x f i ci k h eaten Hinv Ew Ef Hci Hh Hli Ein Ek) as [-> ->]. cbn [recv_step] in *.
        assert (Hus : forall g, users g (set_worker (xs_srv s) w WFree) <= users g (xs_srv s)).
        { intros g. unfold users. cbn [set_worker ts_queue ts_workers]. pose proof (wcount_insert g _ _ _ WFree Ew) as H. rewrite on_free in H. lia. }
        split; cbn [xs_srv xs_clients]; cbn [set_worker ts_world ts_down ts_queue ts_fds ts_conns]; try apply Hsim; try done.
        - intros g Hg. pose proof (Hus g) as H. destruct (si_users _ _ Hsim g Hg) as [H0|H0]; [left; lia|by right].
        - intros j cj Hj. destruct (decide (i = j)) as [<-|Hij].
          + exists k, h, f, []. do 2 (split; [done|]). split; cbn [set_worker ts_fds ts_workers]; rewrite ?Ein; try done.
            * pose proof (Hus f). lia.
            * congruence.
            * congruence.
            * intros w2 th st Hw2. apply list_lookup_insert_Some in Hw2 as [(_ & [=] & _)|[Hne Hw2]]. exfalso. apply Hne. symmetry.
              exact (only_reader f (xs_srv s) w _ w2 _ ltac:(lia) Ew eq_refl Hw2 eq_refl).
          + destruct (Hco j cj Hj) as (kj & hj & g & eg & Hkj & Hhj & Hlj). exists kj, hj, g, eg. do 2 (split; [done|]).
            by apply (Hother WFree g _ j cj); [right|..]. }
      injection Et as <-.
      assert (Hget : exists y k' eaten', wst_fd y = Some f /\ hn_in h = eaten' ++ tn_in k' /\ tn_fin k' = tn_fin k /\ tn_sent k' = tn_sent k /\
        (forall th st, y = WRead th f st -> reached ro st eaten' /\ eaten' ++ tn_in k' <> []) /\ (exists th st, y = WRead th f st) /\
        recv_step (if takes x then set_tconn (xs_srv s) i (TConn rest (tn_fin k) (tn_out k) (tn_sent k)) else xs_srv s) w x (Some ch) =
          TSys (ts_world (xs_srv s)) (ts_fds (xs_srv s)) (<[i := k']> (ts_conns (xs_srv s))) (ts_queue (xs_srv s)) (<[w := y]> (ts_workers (xs_srv s))) false).
      { destruct x as [|g|th g st]; [done| |]; cbn [wst_fd] in Ef; injection Ef as ->; cbn [takes recv_step].
        - exists (WRead true f (RHead [])), k, []. split; [done|].
          assert (eaten = []) as ->.
          { apply L7. intros w' th st Hw'. assert (w' = w) as -> by (exact (only_reader f (xs_srv s) w _ w' _ ltac:(lia) Ew eq_refl Hw' eq_refl)). congruence. }
          rewrite Ein. split; [done|]. split; [done|]. split; [done|]. split; [|split; [by eexists _, _|]].
          + intros th st [= <- <-]. split; [apply reached_start|done].
          + unfold set_worker. by rewrite (insert_id _ _ _ Hk), Hup.
        - destruct (L6 w th st Ew) as [Hre Hne]. cbn [receiving] in Erx. apply negb_true_iff in Erx.
          destruct (asked w0 n log i h ci Hinv Hci Hh) as (x & V1 & V2 & Hg & Hm & _); [by rewrite L4|].
          pose proof Hinv as ((_ & HW) & _). rewrite L4, <- app_assoc in Hm. cbn [app] in Hm.
          destruct (got_it x st eaten ch (rest ++ cl_flight ci) _ HW V1 V2 Hg Hre Erx Hm) as [st' Hst]. rewrite Hst.
          exists (WRead th f st'), (TConn rest (tn_fin k) (tn_out k) (tn_sent k)), (eaten ++ [ch]).
          cbn [tn_in tn_fin tn_sent wst_fd]. split; [done|]. split; [by rewrite <- app_assoc|]. split; [done|]. split; [done|].
          split; [|split; [by eexists _, _|unfold set_worker, set_tconn; cbn [ts_world ts_fds ts_conns ts_queue ts_workers ts_down]; by rewrite Hup]].
          intros th' st2 [= <- <-]. split; [by eapply reached_byte|]. by destruct eaten. }
      destruct Hget as (y & k' & eaten' & Y1 & Y2 & Y3 & Y4 & Y5 & Y6 & Erec). rewrite Erec in *.
      assert (Hus : forall g, users g (TSys (ts_world (xs_srv s)) (ts_fds (xs_srv s)) (<[i := k']> (ts_conns (xs_srv s))) (ts_queue (xs_srv s)) (<[w := y]> (ts_workers (xs_srv s))) false)
        = users g (xs_srv s)).
      { intros g. unfold users. cbn [ts_queue ts_workers]. by rewrite (same_users _ _ x y f g Ew). }
      split; cbn [xs_srv xs_clients]; cbn [ts_world ts_down ts_queue ts_fds ts_conns]; try apply Hsim; try done.
      * intros g Hg. rewrite Hus. by apply (si_users _ _ Hsim).
      * intros j cj Hj. destruct (decide (i = j)) as [<-|Hij].
        -- exists k', h, f, eaten'. rewrite lookup_insert. do 2 (split; [done|]). split; cbn [ts_fds ts_workers]; try done.
           ++ by rewrite Hus.
           ++ rewrite Hus, Y3. done.
           ++ by rewrite Y3.
           ++ by rewrite Y4.
           ++ intros w' th st Hw'. destruct (decide (w = w')) as [<-|Hne].
              ** rewrite list_lookup_insert in Hw' by (by eapply lookup_lt_Some). injection Hw' as ->. by eapply Y5.
              ** rewrite list_lookup_insert_ne in Hw' by done. exfalso. apply Hne. symmetry.
                 exact (only_reader f (xs_srv s) w _ w' _ ltac:(lia) Ew Ef Hw' eq_refl).
           ++ intros Hno. destruct Y6 as (th & st & ->). exfalso. apply (Hno w th st).
              rewrite list_lookup_insert; [done|by eapply lookup_lt_Some].
        -- destruct (Hco j cj Hj) as (kj & hj & g & eg & Hkj & Hhj & Hlj). exists kj, hj, g, eg. rewrite lookup_insert_ne by done.
           do 2 (split; [done|]). by apply (Hother y g _ j cj); [left|..].
      * intros j kj Hj Hkj. rewrite lookup_insert_ne in Hkj by congruence. by eapply (si_rest _ _ Hsim).
    + (* time-out *)
      destruct (ts_workers (xs_srv s) !! w) as [x|] eqn:Ew; [|done]. cbn [mbind option_bind] in Et.
      destruct (wst_fd x) as [f|] eqn:Ef; [|done]. cbn [mbind option_bind] in Et. destruct (receiving x); [|done]. cbn [andb] in Et.
      case_bool_decide as Hj; [|done]. injection Et as Et. cbn [xok xfair_with] in Hfair.
      apply (Hsame w x None f Ew Ef (ex_intro _ j Hfair)) with (t0 := xs_srv s); [|by left|done].
      intros i c Hi Hc. assert (i = j) as -> by congruence. pose proof Hinv as (_ & Hloc & _). specialize (Hloc j). rewrite Hcl, Hc in Hloc.
      destruct (sy_conns (ns_sys n) !! j); [|done]. by destruct Hloc.
    + (* run *)
      destruct (ts_workers (xs_srv s) !! w) as [[|g|th f st]|] eqn:Ew; try done. destruct (finishing st) eqn:Efin; [|done].
      destruct (sim_worker s n w _ f Hsim Ew eq_refl) as [(i & c & k & h & eaten & Hc & Hcf & Hk & Hh & Hli)|(Hfo & HX & Hfor)].
      2: { clear Hsame. pose proof (sa_work _ _ (si_sane _ _ Hsim) _ _ Ew) as Hth. cbn in Hth. assert (th = true) as -> by (by destruct th). cbn [after_read] in *.
        destruct (finish hit _ ro e st (ts_world (xs_srv s))) as [[[[wo texts] sent] cl]| | | | |] eqn:Efi; try done.
        2-5: injection Et as <-; eexists _, []; rewrite app_nil_r; (split; [by apply inv_down|]);
          apply (foreign_worker s n (go_down (xs_srv s)) _ w (WRead true f st) (WRead true f st) f);
          cbn [go_down ts_workers ts_queue ts_fds ts_conns ts_world ts_down ns_clients ns_sys sy_world sy_thr sy_conns]; try done;
          [by left|by rewrite list_insert_id|by left|by left|apply Hsim].
        injection Et as <-.
        set (t1 := TSys wo (ts_fds (xs_srv s)) (ts_conns (xs_srv s)) (ts_queue (xs_srv s)) (<[w := WPeek f]> (ts_workers (xs_srv s))) false) in *.
        set (t2 := match conn_of (xs_srv s) f with Some (i, c) => _ | None => _ end) in *.
        assert (T : ts_world t2 = wo /\ ts_fds t2 = ts_fds (xs_srv s) /\ ts_queue t2 = ts_queue (xs_srv s) /\
          ts_workers t2 = <[w := WPeek f]> (ts_workers (xs_srv s)) /\ ts_down t2 = false /\
          (ts_conns t2 = ts_conns (xs_srv s) \/ exists i k, ts_fds (xs_srv s) !! f = Some i /\ ts_conns t2 = <[i := k]> (ts_conns (xs_srv s)))).
        { unfold t2. destruct (conn_of (xs_srv s) f) as [[i k]|] eqn:Ecf; [|split_and!; try done; by left].
          apply conn_of_Some in Ecf as [Ei _]. split_and!; try done. right. by eexists i, _. }
        destruct T as (T1 & T2 & T3 & T4 & T5 & T6).
        assert (Hn : exists n' log2, inv X M W ro hit w0 n' (log ++ log2) /\ ns_clients n' = ns_clients n /\ sy_world (ns_sys n') = wo /\
          sy_thr (ns_sys n') = TFree /\ forall i c, xs_clients s !! i = Some c -> sy_conns (ns_sys n') !! i = sy_conns (ns_sys n) !! i).
        { destruct (finish_what _ _ _ _ Efi) as [E|(r & c' & -> & Hd)]; cbn [fst] in *.
          - exists n, []. rewrite app_nil_r. split; [done|]. split; [done|]. split; [|done]. rewrite E. apply Hsim.
          - destruct HX as [j HX]. rewrite <- (si_world _ _ Hsim) in Hd. eexists _, _. split; [by apply (inv_event w0 n log j r c' wo)|].
            cbn [ns_clients ns_sys sy_world sy_thr sy_conns]. do 3 (split; [done|]). intros i c Hc. rewrite lookup_insert_ne; [done|].
            intros <-. pose proof Hinv as (_ & Hloc & _). specialize (Hloc j). rewrite Hcl, Hc in Hloc.
            destruct (sy_conns (ns_sys n) !! j); [|done]. by destruct Hloc. }
        destruct Hn as (n' & log2 & Hi & N1 & N2 & N3 & N4). exists n', log2. split; [done|].
        destruct cl.
        - apply (foreign_worker s n (close_fd t2 f) n' w (WRead true f st) (WPeek f) f); cbn [close_fd ts_workers ts_queue ts_fds ts_conns ts_world ts_down];
            try done; [by left|right; by rewrite T2|congruence|congruence|by rewrite T5].
        - apply (foreign_worker s n t2 n' w (WRead true f st) (WPeek f) f); try done; [by left|by left|congruence|congruence|by rewrite T5]. }
      pose proof Hli as [L1 L2 L2' L3 L3' L4 L5 L6 L7]. rewrite L1, Hcf in Et. destruct (L6 w th st Ew) as [[_ Hre] Hne].
      assert (Hbig : big M wr).
      { destruct Hfair as [?|(th' & f' & st' & Ew' & Hfo)]; [done|]. rewrite Ew in Ew'. injection Ew' as <- <- <-. exfalso.
        pose proof Hinv as (_ & Hloc & _). specialize (Hloc i). rewrite Hcl, Hc, Hh in Hloc. destruct Hloc as [HX _]. by apply HX, Hfo. }
      rewrite <- Hcl in Hc.
      destruct (asked w0 n log i h c Hinv Hc Hh) as (x & V1 & V2 & Hg & Hm & Ho & Hf & Hnow); [by rewrite L4|].
      pose proof Hinv as ((_ & HW) & _). rewrite (si_world _ _ Hsim) in HW.
      assert (Hrs := Hre hit wr e (ts_world (xs_srv s)) (map Byte (tn_in k)) Wait). rewrite <- map_app, <- L4, (resume_finish _ _ _ _ _ _ _ Efin) in Hrs.
      assert (Hfl : cl_flight c = []).
      { destruct (cl_flight c) as [|ch fl] eqn:Efl; [done|exfalso].
        rewrite (server_piece M W ro hit e Hit x wr _ (hn_in h) (ch :: fl) HW V1 V2 Hg Hbig Hm) in Hrs by done.
        by destruct (finish hit wr ro e st (ts_world (xs_srv s))) as [[[[? ?] ?] ?]| | | | |]. }
      rewrite Hfl, app_nil_r in Hm.
      destruct (server_whole M W ro hit e Hit x wr (ts_world (xs_srv s)) [] Wait HW V1 V2 Hg Hbig) as (c' & w' & Hd & HW' & Hgr & Hhr).
      rewrite <- Hm, app_nil_r in Hhr. rewrite Hhr in Hrs.
      destruct (finish hit wr ro e st (ts_world (xs_srv s))) as [[[[wo texts] sent] cl]| | | | |]; try done.
      cbn [ofmap mbind outcome_bind] in Hrs. injection Hrs as -> Ein -> -> ->. apply map_Byte_nil in Ein.
      injection Et as <-. set (text := text_of hit (reply (cx_resp c'))) in *.
      assert (Hs : n_step hit ro e n (NServer (LServe i false wr)) = Some (NSys (HSys w' TFree
          (<[i := HConn [] (hn_fin h) true (hn_out h ++ [text]) (hn_sent h ++ text)]> (sy_conns (ns_sys n)))) (ns_clients n))).
      { cbn [n_step sys_step]. rewrite Hh. cbn [mbind option_bind]. rewrite decide_True; [|split; [done|]; split; [done|]; left; by rewrite L4].
        cbn [mbind option_bind]. unfold read_event. rewrite app_nil_r, Hf, (si_world _ _ Hsim), Hhr. done. }
      destruct (Hstep (NServer (LServe i false wr)) _ Hinv (or_intror Hbig) Hs) as (log2 & Hi). eexists _, log2. split; [exact Hi|].
      pose proof (sa_work _ _ (si_sane _ _ Hsim) _ _ Ew) as Hth. cbn in Hth. assert (th = true) as -> by (by destruct th). cbn [after_read] in *.
      assert (Hus : forall g k', users g (TSys w' (ts_fds (xs_srv s)) k' (ts_queue (xs_srv s)) (<[w := WPeek f]> (ts_workers (xs_srv s))) false)
        = users g (xs_srv s)).
      { intros g k'. unfold users. cbn [ts_queue ts_workers]. by rewrite (same_users _ _ (WRead true f st) (WPeek f) f g Ew). }
      unfold set_tconn in *. cbn [ts_world ts_fds ts_conns ts_queue ts_workers ts_down] in *.
      split; cbn [xs_srv xs_clients ns_clients ns_sys sy_world sy_thr sy_conns]; cbn [ts_world ts_down ts_queue ts_fds ts_conns]; try done; try apply Hsim.
      * intros g Hg'. rewrite Hus. by apply (si_users _ _ Hsim).
      * intros j cj Hj. destruct (decide (i = j)) as [<-|Hij].
        -- eexists _, _, f, []. rewrite !lookup_insert. do 2 (split; [done|]). split; cbn [ts_fds ts_workers tn_fin tn_in tn_sent hn_in hn_sent hn_fin hn_open]; try done.
           ++ by rewrite Hus.
           ++ by rewrite Hus.
           ++ by rewrite L5.
           ++ intros w2 th st2 Hw2. destruct (decide (w = w2)) as [<-|Hne2].
              ** by rewrite list_lookup_insert in Hw2 by (by eapply lookup_lt_Some).
              ** rewrite list_lookup_insert_ne in Hw2 by done. exfalso. apply Hne2. symmetry.
                 exact (only_reader f (xs_srv s) w _ w2 _ ltac:(lia) Ew eq_refl Hw2 eq_refl).
        -- destruct (Hco j cj Hj) as (kj & hj & g & eg & Hkj & Hhj & Hlj). exists kj, hj, g, eg. rewrite !lookup_insert_ne by done.
           do 2 (split; [done|]).
           assert (Hgf : f <> g) by (intros ->; pose proof (li_fd _ _ _ _ _ _ Hlj); congruence).
           eapply link_ext; [exact Hlj|apply Hlj|apply Hus|]. cbn [ts_workers].
           apply (other_worker g _ _ (WRead true f st) (WPeek f) Ew); cbn [wst_fd]; congruence.
      * intros j kj Hj Hkj. rewrite lookup_insert_ne in Hkj by (intros <-; rewrite Hcl in Hc; congruence). by eapply (si_rest _ _ Hsim).
  - (* return *)
    destruct (xs_clients s !! i) as [c|] eqn:Hc; [|done]. cbn [mbind option_bind] in Hl.
    destruct (cl_now c) as [x|] eqn:En; [|done]. cbn [mbind option_bind] in Hl.
    destruct (Hco i c Hc) as (k & h & f & eaten & Hk & Hh & Hli). rewrite Hk in Hl. cbn [mbind option_bind] in Hl.
    rewrite (sim_open _ _ _ _ _ _ Hli) in Hl.
    pose proof (li_open _ _ _ _ _ _ Hli) as Ho.
    destruct x as [[chit crit] q].
    assert (Hs : exists c', s' = XSys (xs_srv s) (<[i := c']> (xs_clients s)) /\
      n_step hit ro e n (NReturn i m) = Some (NSys (ns_sys n) (<[i := c']> (xs_clients s)))).
    { cbn [n_step]. rewrite Hcl, Hc. cbn [mbind option_bind]. rewrite En, Hh. cbn [mbind option_bind]. rewrite Ho, (li_sent _ _ _ _ _ _ Hli).
      destruct (client_send _ _ _ _ _ _ _); try done; injection Hl as <-; by eexists. }
    destruct Hs as (c' & -> & Hs).
    destruct (Hstep (NReturn i m) _ Hinv I Hs) as (log2 & Hi). eexists _, log2. split; [exact Hi|]. apply sim_same_server; [done|by eapply same_domain].
  - (* strangers *)
    assert (Ht : exists i, X i /\ xs_clients s !! i = None /\ exists t', t_step false hit ro e (xs_srv s) l = Some t' /\ s' = XSys t' (xs_clients s) /\
      match l with TAccept j _ _ | TSend j _ | TFin j => j = i | _ => False end).
    { destruct l as [i g ok|i bs|i|g|g|w|w|w i|w wr]; try done; (destruct (xs_clients s !! i) eqn:Hc; [done|]); exists i; (split; [done|]); (split; [done|]);
        (destruct (t_step false hit ro e (xs_srv s) _) as [t'|]; [|done]); injection Hl as <-; by exists t'. }
    destruct Ht as (i & HX & Hc & t' & Et & -> & Hlab). clear Hl. exists n, []. rewrite app_nil_r. split; [done|].
    pose proof (Hsane _ _ Et) as Hsane'. pose proof (Hupt _ _ Et) as Hup. unfold t_step in Et. rewrite Hup in Et, Hthr.
    assert (Hne : forall j c, xs_clients s !! j = Some c -> j <> i) by (intros j c Hj ->; congruence).
    destruct l as [j f ok|j bs|j|g|g|w|w|w j|w wr]; try done; subst j.
    + case_decide as Hd; [|done]. destruct Hd as [Hd1 Hd2]. injection Et as <-.
      apply (sim_keep s n); cbn [add_task set_tconn ts_world ts_down ts_queue ts_fds ts_conns ts_workers]; try done; try apply Hsim; [by exists i|..].
      * intros j c Hj. split; [done|]. rewrite lookup_insert_ne; [done|]. intros <-. congruence.
      * intros j k Hj Hk. destruct (decide (i = j)) as [<-|Hij]; [done|]. rewrite lookup_insert_ne in Hk by done. by eapply (si_rest _ _ Hsim).
      * intros g j c Hg Hj. assert (Hgf : f <> g) by congruence. rewrite lookup_insert_ne by done. split; [done|]. split; [|done].
        unfold users. cbn [add_task set_tconn ts_queue ts_workers]. rewrite qcount_app, qcount_cons. cbn [task_fd]. rewrite decide_False by done.
        change (qcount g []) with 0. lia.
      * assert (Hfo : forall g, foreign X (xs_srv s) g \/ g = f -> foreign X (add_task (set_tconn (TSys (ts_world (xs_srv s)) (<[f := i]> (ts_fds (xs_srv s)))
            (ts_conns (xs_srv s)) (ts_queue (xs_srv s)) (ts_workers (xs_srv s)) false) i tconn_new) (KConn f ok)) g).
        { intros g Hg j Hj. cbn [add_task set_tconn ts_fds] in Hj. apply lookup_insert_Some in Hj as [[_ <-]|[Hn Hj]]; [done|].
          destruct Hg as [Hg| ->]; [by apply Hg|done]. }
        intros g o Hg. apply elem_of_app in Hg as [Hg|Hg].
        -- destruct (si_queue _ _ Hsim g o Hg) as [?|?]; [by left|]. right. apply Hfo. by left.
        -- apply elem_of_list_singleton in Hg. injection Hg as -> ->. right. apply Hfo. by right.
    + destruct (ts_conns (xs_srv s) !! i) as [k|] eqn:Hk; [|done]. cbn [mbind option_bind] in Et. destruct (tn_fin k); [done|]. injection Et as <-.
      apply (sim_keep s n); cbn [set_tconn ts_world ts_down ts_queue ts_fds ts_conns ts_workers]; try done; try apply Hsim; [by exists i|..].
      * intros j c Hj. split; [done|]. rewrite lookup_insert_ne; [done|]. intros <-. congruence.
      * intros j kj Hj Hkj. destruct (decide (i = j)) as [<-|Hij]; [done|]. rewrite lookup_insert_ne in Hkj by done. by eapply (si_rest _ _ Hsim).
    + destruct (ts_conns (xs_srv s) !! i) as [k|] eqn:Hk; [|done]. cbn [mbind option_bind] in Et. injection Et as <-.
      apply (sim_keep s n); cbn [set_tconn ts_world ts_down ts_queue ts_fds ts_conns ts_workers]; try done; try apply Hsim; [by exists i|..].
      * intros j c Hj. split; [done|]. rewrite lookup_insert_ne; [done|]. intros <-. congruence.
      * intros j kj Hj Hkj. destruct (decide (i = j)) as [<-|Hij]; [done|]. rewrite lookup_insert_ne in Hkj by done. by eapply (si_rest _ _ Hsim).
Qed.

Lemma sim_new m w : sim (x_new m w) (n_new w).
Proof.
  split; try done; cbn [x_new n_new xs_srv ns_sys t_new sys_new ts_queue ts_fds ts_conns sy_conns].
  - apply sane_new.
  - intros f ok Hk. by apply elem_of_nil in Hk.
  - intros f _. left. change (wcount f (replicate m WFree) = 0).
    induction m as [|m IH]; [done|]. cbn [replicate]. by rewrite wcount_cons, on_free.
Qed.
Lemma sim_run w0 ls : forall s n log s', inv X M W ro hit w0 n log -> sim s n -> xall xok hit ro e s ls -> x_run false hit ro e s ls = Some s' ->
  exists n' log2, inv X M W ro hit w0 n' (log ++ log2) /\ sim s' n'.
Proof.
  induction ls as [|l ls IH]; intros s n log s' Hi Hsim Hf H; cbn [x_run xall] in H, Hf.
  - injection H as <-. exists n, []. by rewrite app_nil_r.
  - destruct (x_step false hit ro e s l) as [s1|] eqn:E; [|done]. destruct Hf as [Hfl Hf]. cbn [mbind option_bind] in H.
    destruct (sim_step _ _ _ _ _ _ Hi Hsim Hfl E) as (n1 & l1 & H1 & S1). destruct (IH _ _ _ _ H1 S1 Hf H) as (n2 & l2 & H2 & S2).
    exists n2, (l1 ++ l2). by rewrite app_assoc.
Qed.
Lemma sim_explains w0 s n log : inv X M W ro hit w0 n log -> sim s n -> explained_with X ro w0 (ts_world (xs_srv s)) (xs_clients s) log.
Proof.
  intros Hi Hs. pose proof (inv_explains X M W ro hit Hkeep w0 n log Hi) as H.
  by rewrite (si_world _ _ Hs), (si_clients _ _ Hs) in H.
Qed.

(** *** Every call comes back *)

Definition worth (fds : gmap nat nat) (x : wst) : nat :=
  match x with
  | WFree => 0
  | WPeek f => match fds !! f with Some _ => 4 | None => 1 end
  | WRead _ _ st => match st with RHead _ => 3 | RBody _ _ _ => 6 | RRun _ => 5 | RBad | REnd => 2 end
  end.
Definition work (fds : gmap nat nat) (ws : list wst) : nat := sum_list_with (worth fds) ws.
Lemma work_insert fds ws w x y : ws !! w = Some x -> work fds (<[w := y]> ws) + worth fds x = work fds ws + worth fds y.
Proof.
  unfold work. revert w. induction ws as [|z ws IH]; intros [|w] H; try done; cbn in H.
  - injection H as ->. change (<[0 := y]> (x :: ws)) with (y :: ws). cbn [sum_list_with]. lia.
  - change (<[S w := y]> (z :: ws)) with (z :: <[w := y]> ws). cbn [sum_list_with]. specialize (IH w H). lia.
Qed.
Lemma worth_delete fds f x : worth (delete f fds) x <= worth fds x.
Proof.
  destruct x as [|g|th g st]; cbn [worth]; [lia| |lia]. destruct (decide (f = g)) as [<-|Hne].
  - rewrite lookup_delete. destruct (fds !! f); lia.
  - rewrite lookup_delete_ne by done. lia.
Qed.
Lemma work_delete fds f ws : work (delete f fds) ws <= work fds ws.
Proof. unfold work. induction ws as [|x ws IH]; cbn [sum_list_with]; [lia|]. pose proof (worth_delete fds f x). lia. Qed.
Lemma worth_peek fds f : worth fds (WPeek f) <= 4.
Proof. cbn [worth]. destruct (fds !! f); lia. Qed.

Definition tleft t : nat :=
  4 * msum (fun k => length (tn_in k)) (ts_conns t) + 5 * length (ts_queue t) + work (ts_fds t) (ts_workers t) + (if ts_down t then 0 else 1).
Definition xleft s : nat :=
  5 * msum (fun c => length (cl_flight c)) (xs_clients s) + tleft (xs_srv s) + msum (fun c => if cl_now c then 1 else 0) (xs_clients s).

Lemma recv_none t w x f : ts_workers t !! w = Some x -> wst_fd x = Some f -> receiving x = true -> tleft (recv_step t w x None) < tleft t.
Proof.
  intros Ew Ef Er. unfold tleft. destruct x as [|g|th g st]; [done| |]; cbn [recv_step set_worker ts_conns ts_queue ts_fds ts_workers ts_down].
  - pose proof (work_insert (ts_fds t) _ _ _ WFree Ew) as H. assert (1 <= worth (ts_fds t) (WPeek g)) by (cbn [worth]; destruct (ts_fds t !! g); lia).
    change (worth (ts_fds t) WFree) with 0 in H. lia.
  - pose proof (work_insert (ts_fds t) _ _ _ (WRead th g (got_none st)) Ew) as H.
    destruct st as [b|r m got|r| |]; try done; cbn [got_none worth] in *; [lia|]. destruct got; lia.
Qed.
Lemma tless t l t' : match l with TAccept _ _ _ | TSend _ _ | TFin _ => False | _ => True end ->
  t_step false hit ro e t l = Some t' -> tleft t' < tleft t.
Proof.
  intros Hlab Et. unfold t_step in Et. destruct (ts_down t) eqn:Hup; [done|].
  destruct l as [j g ok|j bs|j|g|g|w|w|w j|w wr]; try done.
  - by destruct (conn_of t g).
  - by destruct (conn_of t g).
  - destruct (ts_workers t !! w) as [[]|] eqn:Ew; try done. destruct (ts_queue t) as [|k q] eqn:Eq; [done|]. injection Et as <-.
    unfold tleft. rewrite Hup, Eq.
    destruct k as [f []|f]; cbn [close_fd set_worker ts_conns ts_queue ts_fds ts_workers ts_down length].
    + pose proof (work_insert (ts_fds t) _ _ _ (WPeek f) Ew) as H. pose proof (worth_peek (ts_fds t) f). change (worth (ts_fds t) WFree) with 0 in H. lia.
    + pose proof (work_insert (ts_fds t) _ _ _ (WPeek f) Ew) as H. pose proof (worth_peek (ts_fds t) f). change (worth (ts_fds t) WFree) with 0 in H.
      pose proof (work_delete (ts_fds t) f (<[w := WPeek f]> (ts_workers t))). lia.
    + pose proof (work_insert (ts_fds t) _ _ _ (WRead false f (RHead [])) Ew) as H. cbn [worth] in H. lia.
  - destruct (ts_workers t !! w) as [x|] eqn:Ew; [|done]. cbn [mbind option_bind] in Et.
    destruct (wst_fd x) as [f|] eqn:Ef; [|done]. cbn [mbind option_bind] in Et. destruct (receiving x) eqn:Erx; [|done].
    destruct (conn_of t f) as [[i k]|] eqn:Hcf; [|injection Et as <-; by eapply recv_none].
    apply conn_of_Some in Hcf as [Hi Hk].
    destruct (tn_in k) as [|ch rest] eqn:Ein; [destruct (tn_fin k); [|done]; injection Et as <-; by eapply recv_none|].
    injection Et as <-. unfold tleft. rewrite Hup.
    destruct x as [|g|th g st]; [done| |]; cbn [takes recv_step] in *; cbn [wst_fd] in Ef; injection Ef as ->.
    + cbn [set_worker ts_conns ts_queue ts_fds ts_workers ts_down]. rewrite Hup.
      pose proof (work_insert (ts_fds t) _ _ _ (WRead true f (RHead [])) Ew) as H. cbn [worth] in H. rewrite Hi in H. lia.
    + pose proof (msum_insert (fun k => length (tn_in k)) _ i k (TConn rest (tn_fin k) (tn_out k) (tn_sent k)) Hk) as H3.
      cbn beta in H3. rewrite Ein in H3. cbn [tn_in length] in H3.
      assert (Hst : forall y, worth (ts_fds t) y <= worth (ts_fds t) (WRead th f st) + 3 ->
        work (ts_fds t) (<[w := y]> (ts_workers t)) <= work (ts_fds t) (ts_workers t) + 3).
      { intros y Hy. pose proof (work_insert (ts_fds t) _ _ _ y Ew) as H. lia. }
      destruct (got_byte st ch) as [st'| | | | |]; cbn [set_worker set_tconn go_down ts_conns ts_queue ts_fds ts_workers ts_down]; rewrite ?Hup; try lia.
      specialize (Hst (WRead th f st')). cbn [worth] in Hst. destruct st, st'; try done; lia.
  - destruct (ts_workers t !! w) as [x|] eqn:Ew; [|done]. cbn [mbind option_bind] in Et.
    destruct (wst_fd x) as [f|] eqn:Ef; [|done]. cbn [mbind option_bind] in Et. destruct (receiving x) eqn:Erx; [|done]. cbn [andb] in Et.
    case_bool_decide; [|done]. injection Et as <-. by eapply recv_none.
  - destruct (ts_workers t !! w) as [[|g|th f st]|] eqn:Ew; try done. destruct (finishing st) eqn:Efin; [|done].
    destruct (finish _ _ _ _ _ _) as [[[[wo texts] sent] cl]| | | | |] eqn:Efi; try done.
    2-5: injection Et as <-; unfold tleft; cbn [go_down ts_conns ts_queue ts_fds ts_workers ts_down]; rewrite Hup; lia.
    injection Et as <-.
    set (t1 := TSys wo (ts_fds t) (ts_conns t) (ts_queue t) (<[w := after_read th f]> (ts_workers t)) false).
    set (t2 := match conn_of t f with Some (i, c) => _ | None => _ end).
    assert (T : msum (fun k => length (tn_in k)) (ts_conns t2) = msum (fun k => length (tn_in k)) (ts_conns t) /\ ts_fds t2 = ts_fds t /\ ts_queue t2 = ts_queue t /\
      ts_workers t2 = <[w := after_read th f]> (ts_workers t) /\ ts_down t2 = false).
    { unfold t2. destruct (conn_of t f) as [[i k]|] eqn:Ecf; [|done]. apply conn_of_Some in Ecf as [Ei Ek]. split_and!; try done.
      cbn [set_tconn ts_conns t1]. match goal with |- context [<[i := ?k']> _] => pose proof (msum_insert (fun k => length (tn_in k)) _ i k k' Ek) as H3 end.
      cbn [tn_in] in H3. lia. }
    destruct T as (T1 & T2 & T3 & T4 & T5).
    assert (Hcl : cl = true \/ exists r, st = RRun r).
    { unfold finish in Efi. destruct st as [b|r m g|r| |]; try (injection Efi as _ _ _ <-; by left); [right; by exists r|].
      destruct (resp_build _ _ _) as [[? ?] b]. destruct (sock_write _ _); cbn [mbind outcome_bind] in Efi; try done. injection Efi as _ _ _ <-. by left. }
    destruct cl; unfold tleft; cbn [close_fd ts_conns ts_queue ts_fds ts_workers ts_down]; rewrite T1, T2, T3, T4, T5, Hup.
    + pose proof (work_insert (delete f (ts_fds t)) _ _ _ (after_read th f) Ew) as H. pose proof (work_delete (ts_fds t) f (ts_workers t)) as H2.
      assert (worth (delete f (ts_fds t)) (after_read th f) <= 1) by (destruct th; cbn [after_read worth]; [rewrite lookup_delete|]; lia).
      assert (2 <= worth (delete f (ts_fds t)) (WRead th f st)) by (destruct st; cbn [worth]; lia). lia.
    + destruct Hcl as [?|[r ->]]; [done|]. pose proof (work_insert (ts_fds t) _ _ _ (after_read th f) Ew) as H.
      assert (worth (ts_fds t) (after_read th f) <= 4) by (destruct th; [apply worth_peek|cbn [after_read worth]; lia]).
      cbn [worth] in H. lia.
Qed.

Definition no_news (l : xlab) : Prop := match l with XFlow _ _ | XServer _ | XReturn _ _ => True | _ => False end.
Lemma xless s l s' : no_news l -> x_step false hit ro e s l = Some s' -> xleft s' < xleft s.
Proof.
  intros Hgo Hl. destruct l as [i f|i|i chit crit q|i m|l|i m|l]; try done; cbn [x_step] in Hl.
  - destruct (xs_clients s !! i) as [c|] eqn:Hc; [|done]. cbn [mbind option_bind] in Hl. case_decide as Hm; [|done].
    destruct (t_step false hit ro e (xs_srv s) (TSend i _)) as [t'|] eqn:Et; [|done]. cbn [mbind option_bind] in Hl. injection Hl as <-.
    unfold t_step in Et. destruct (ts_down (xs_srv s)) eqn:Hup; [done|].
    destruct (ts_conns (xs_srv s) !! i) as [k|] eqn:Hk; [|done]. cbn [mbind option_bind] in Et. destruct (tn_fin k); [done|]. injection Et as <-.
    unfold xleft, tleft. cbn [xs_srv xs_clients set_tconn ts_conns ts_queue ts_fds ts_workers ts_down]. rewrite Hup.
    match goal with |- context [<[i := ?c']> (xs_clients s)] =>
      pose proof (msum_insert (fun c => length (cl_flight c)) _ i c c' Hc) as H1;
      pose proof (msum_insert (fun c => if cl_now c then 1 else 0) _ i c c' Hc) as H2 end.
    match goal with |- context [<[i := ?k']> (ts_conns (xs_srv s))] =>
      pose proof (msum_insert (fun k => length (tn_in k)) _ i k k' Hk) as H3 end.
    cbn [cl_flight cl_now tn_in] in H1, H2, H3. rewrite drop_length in H1. rewrite app_length, take_length in H3. lia.
  - assert (Et : exists t', t_step false hit ro e (xs_srv s) l = Some t' /\ s' = XSys t' (xs_clients s) /\
      match l with TAccept _ _ _ | TSend _ _ | TFin _ => False | _ => True end).
    { destruct l; try done; cbn [mbind option_bind] in Hl; destruct (t_step false hit ro e (xs_srv s) _) as [t'|]; try done;
        injection Hl as <-; by exists t'. }
    destruct Et as (t' & Et & -> & Hlab). unfold xleft. cbn [xs_srv xs_clients]. pose proof (tless _ _ _ Hlab Et). lia.
  - destruct (xs_clients s !! i) as [c|] eqn:Hc; [|done]. cbn [mbind option_bind] in Hl.
    destruct (cl_now c) as [x|] eqn:En; [|done]. cbn [mbind option_bind] in Hl.
    destruct (ts_conns (xs_srv s) !! i) as [k|] eqn:Hk; [|done]. cbn [mbind option_bind] in Hl. destruct x as [[chit crit] q].
    assert (Hs' : exists c', s' = XSys (xs_srv s) (<[i := c']> (xs_clients s)) /\ cl_flight c' = cl_flight c /\ cl_now c' = None).
    { destruct (client_send _ _ _ _ _ _ _); try done; injection Hl as <-; by eexists. }
    destruct Hs' as (c' & -> & Hfl & Hnow). unfold xleft. cbn [xs_srv xs_clients].
    pose proof (msum_insert (fun c => length (cl_flight c)) _ i c c' Hc) as H1.
    pose proof (msum_insert (fun c => if cl_now c then 1 else 0) _ i c c' Hc) as H2.
    cbn beta in H1, H2. rewrite Hfl in H1. rewrite En, Hnow in H2. lia.
Qed.

Lemma xbounded ls : forall s s', Forall no_news ls -> x_run false hit ro e s ls = Some s' -> length ls <= xleft s.
Proof.
  induction ls as [|l ls IH]; intros s s' Hf H; cbn [x_run length] in *; [lia|].
  apply Forall_cons in Hf as [Hfl Hf]. destruct (x_step false hit ro e s l) as [s1|] eqn:E; [|done]. cbn [mbind option_bind] in H.
  pose proof (xless _ _ _ Hfl E). pose proof (IH _ _ Hf H). lia.
Qed.

Lemma workers_step s l s' : x_step false hit ro e s l = Some s' -> length (ts_workers (xs_srv s')) = length (ts_workers (xs_srv s)).
Proof.
  intros E.
  assert (Ht : forall tl t', t_step false hit ro e (xs_srv s) tl = Some t' -> xs_srv s' = t' ->
    length (ts_workers (xs_srv s')) = length (ts_workers (xs_srv s))).
  { intros tl t' Ht <-. by destruct (load_step _ _ _ _ _ _ Ht). }
  destruct l as [i f|i|i chit crit q|i m|l|i m|l]; cbn [x_step] in E.
  - destruct (t_step false hit ro e (xs_srv s) (TAccept i f true)) as [t'|] eqn:Et; [|done]. injection E as <-. by eapply Ht.
  - destruct (xs_clients s !! i) as [c|]; [|done]. cbn [mbind option_bind] in E. destruct (decide _); [|done].
    destruct (t_step false hit ro e (xs_srv s) (TFin i)) as [t'|] eqn:Et; [|done]. injection E as <-. by eapply Ht.
  - destruct (xs_clients s !! i) as [c|]; [|done]. cbn [mbind option_bind] in E.
    destruct (ts_conns (xs_srv s) !! i) as [k|]; [|done]. cbn [mbind option_bind] in E. destruct (cl_now c); [done|]. destruct (tn_fin k); [done|].
    destruct (req_build chit crit q []) as [[rc q'] msg]. by destruct (rc =? kSuccess)%Z; injection E as <-.
  - destruct (xs_clients s !! i) as [c|]; [|done]. cbn [mbind option_bind] in E. destruct (decide _); [|done].
    destruct (t_step false hit ro e (xs_srv s) (TSend i _)) as [t'|] eqn:Et; [|done]. injection E as <-. by eapply Ht.
  - destruct l; try done; (destruct (t_step false hit ro e (xs_srv s) _) as [t'|] eqn:Et; [|done]); injection E as <-; by eapply Ht.
  - destruct (xs_clients s !! i) as [c|]; [|done]. cbn [mbind option_bind] in E.
    destruct (cl_now c) as [x|]; [|done]. cbn [mbind option_bind] in E.
    destruct (ts_conns (xs_srv s) !! i) as [k|]; [|done]. cbn [mbind option_bind] in E. destruct x as [[chit crit] q].
    destruct (client_send _ _ _ _ _ _ _); try done; by injection E as <-.
  - destruct l; try done; (destruct (xs_clients s !! i); [done|]); (destruct (t_step false hit ro e (xs_srv s) _) as [t'|] eqn:Et; [|done]);
      injection E as <-; by eapply Ht.
Qed.
Lemma workers_run ls : forall s s', x_run false hit ro e s ls = Some s' -> length (ts_workers (xs_srv s')) = length (ts_workers (xs_srv s)).
Proof.
  induction ls as [|l ls IH]; intros s s' H; cbn [x_run] in H; [by injection H as <-|].
  destruct (x_step false hit ro e s l) as [s1|] eqn:E; [|done]. cbn [mbind option_bind] in H. rewrite (IH _ _ H). by eapply workers_step.
Qed.

Lemma wcount_some f ws : 1 <= wcount f ws -> exists w x, ws !! w = Some x /\ wst_fd x = Some f.
Proof.
  induction ws as [|x ws IH]; [unfold wcount; cbn; lia|]. rewrite wcount_cons. unfold on. intros H.
  destruct (decide (wst_fd x = Some f)) as [Hx|_]; [by exists 0, x|]. destruct IH as (w & y & ? & ?); [lia|]. by exists (S w), y.
Qed.

(** Every thread is on the connection of a client that has not left, each on another
    one, and there is one more such client. *)
Lemma too_many s n i c k : sim s n -> xs_clients s !! i = Some c -> ts_conns (xs_srv s) !! i = Some k -> tn_fin k = false ->
  (forall w x, ts_workers (xs_srv s) !! w = Some x -> exists f j cj kj, wst_fd x = Some f /\ ts_fds (xs_srv s) !! f = Some j /\
     xs_clients s !! j = Some cj /\ ts_conns (xs_srv s) !! j = Some kj /\ tn_fin kj = false /\ j <> i) ->
  length (ts_workers (xs_srv s)) < present s.
Proof.
  intros Hsim Hc Hk Hfin Hall.
  assert (Hjs : exists js, Forall2 (fun x j => exists f cj kj, wst_fd x = Some f /\ ts_fds (xs_srv s) !! f = Some j /\
     xs_clients s !! j = Some cj /\ ts_conns (xs_srv s) !! j = Some kj /\ tn_fin kj = false /\ j <> i) (ts_workers (xs_srv s)) js).
  { clear -Hall. induction (ts_workers (xs_srv s)) as [|x ws IH]; [by exists []|].
    destruct IH as (js & Hjs); [intros w y Hy; by apply (Hall (S w))|].
    destruct (Hall 0 x eq_refl) as (f & j & cj & kj & H). exists (j :: js). constructor; [|done]. by exists f, cj, kj. }
  destruct Hjs as (js & Hjs).
  assert (Hnd : NoDup (i :: js)).
  { apply NoDup_cons. split.
    - intros Hi. apply elem_of_list_lookup in Hi as (a & Ha). by destruct (Forall2_lookup_r _ _ _ _ _ Hjs Ha) as (x & _ & f & cj & kj & _ & _ & _ & _ & _ & Hne).
    - apply NoDup_alt. intros a b j Ha Hb.
      destruct (Forall2_lookup_r _ _ _ _ _ Hjs Ha) as (x & Hx & f & cj & kj & Hf & Hfj & Hcj & Hkj & _).
      destruct (Forall2_lookup_r _ _ _ _ _ Hjs Hb) as (y & Hy & g & cj' & kj' & Hg & Hgj & _).
      assert (g = f) as -> by (by eapply (sa_inj _ _ (si_sane _ _ Hsim))).
      destruct (sim_number s n f j cj Hsim Hfj Hcj) as (k' & h & eaten & _ & _ & _ & Hli).
      exact (only_reader f (xs_srv s) b _ a _ (li_most _ _ _ _ _ _ Hli) Hy Hg Hx Hf). }
  rewrite (Forall2_length _ _ _ Hjs). unfold present.
  rewrite <- (fmap_length fst).
  match goal with |- _ < ?l => change (S (length js) <= l) end.
  change (S (length js)) with (length (i :: js)). apply submseteq_length, NoDup_submseteq; [done|].
  intros j Hj. apply elem_of_list_fmap.
  assert (Hj' : exists cj kj, xs_clients s !! j = Some cj /\ ts_conns (xs_srv s) !! j = Some kj /\ tn_fin kj = false).
  { apply elem_of_cons in Hj as [->|Hj]; [by exists c, k|]. apply elem_of_list_lookup in Hj as (a & Ha).
    destruct (Forall2_lookup_r _ _ _ _ _ Hjs Ha) as (x & _ & f & cj & kj & _ & _ & ? & ? & ? & _). by exists cj, kj. }
  destruct Hj' as (cj & kj & Hcj & Hkj & Hfj). exists (j, cj). split; [done|]. apply elem_of_list_filter. cbn [fst].
  split; [rewrite Hkj; cbn; by rewrite Hfj|]. by apply elem_of_map_to_list.
Qed.

Lemma answer_waits wr r w : (exists i, X i) -> W w -> answer hit wr ro r e w (Stream [] Eof) <> Blocked.
Proof.
  intros [i HX] HW H. destruct (HttpSystemProps.answer_cases hit wr ro r e w (Stream [] Eof)) as [[v Hv]|[[_ [r' Hb]]|[Hn _]]]; [congruence| |done].
  pose proof (Hkeep i HX r' w HW) as Hd. by rewrite Hb in Hd.
Qed.

Lemma xstuck w0 s n log : inv X M W ro hit w0 n log -> sim s n -> ts_down (xs_srv s) = false -> present s <= length (ts_workers (xs_srv s)) ->
  (forall l, xgo s l -> x_step false hit ro e s l = None) ->
  forall i c, xs_clients s !! i = Some c -> cl_now c = None /\ length (cl_done c) = length (cl_calls c).
Proof.
  intros Hinv Hsim Hup Hload Hst i c Hc. pose proof Hinv as ((_ & HW) & Hloc & _). specialize (Hloc i).
  rewrite (si_clients _ _ Hsim), Hc in Hloc.
  destruct (si_conn _ _ Hsim i c Hc) as (k & h & f & eaten & Hk & Hh & Hli). rewrite Hh in Hloc.
  destruct (cl_now c) as [now|] eqn:Enow.
  2: { split; [done|]. destruct Hloc as (_ & _ & _ & Hp & _). destruct Hp as [H3 H4 H5 H6 H7 H8|x qs H3|x bf r p H3]; [done|congruence..]. }
  apply (local_live X M W ro hit i c h) in Hloc as (Ho & Hf & Hp & _ & _); [|left; rewrite Enow; by eexists].
  pose proof Hli as [L1 L2 L2' L3 L3' L4 L5 L6 L7].
  assert (Hfk : tn_fin k = false) by congruence.
  assert (Hfl : cl_flight c = []).
  { destruct (cl_flight c) as [|ch fl] eqn:Ef; [done|exfalso]. specialize (Hst (XFlow i 1) (conj I I)).
    cbn [x_step] in Hst. rewrite Hc in Hst. cbn [mbind option_bind] in Hst. rewrite Ef, decide_True in Hst by (cbn; lia).
    unfold t_step in Hst. rewrite Hup, Hk in Hst. cbn [mbind option_bind] in Hst. by rewrite Hfk in Hst. }
  assert (Hsrv : forall l, match l with TPop _ | TRecv _ => True | TRun _ wr => wr = WTake M | TTimeout _ j => X j | _ => False end ->
    t_step false hit ro e (xs_srv s) l = None).
  { intros l Hlab. assert (Hx : x_step false hit ro e s (XServer l) = None).
    { apply Hst. split; [|done]. destruct l; try done. subst wr. left. apply huge_big. }
    destruct l; try done; cbn [x_step] in Hx; by destruct (t_step false hit ro e (xs_srv s) _). }
  (* no worker is busy with a stranger *)
  assert (Hnf : forall w y g, ts_workers (xs_srv s) !! w = Some y -> wst_fd y = Some g -> foreign X (xs_srv s) g -> (exists j, X j) -> False).
  { intros w y g Ew Ey Hfo HX. destruct (receiving y) eqn:Er.
    - destruct (ts_fds (xs_srv s) !! g) as [j|] eqn:Ej.
      + specialize (Hsrv (TTimeout w j) (Hfo j Ej)). unfold t_step in Hsrv. rewrite Hup, Ew in Hsrv. cbn [mbind option_bind] in Hsrv.
        rewrite Ey in Hsrv. cbn [mbind option_bind] in Hsrv. rewrite Er, bool_decide_true in Hsrv by done. done.
      + specialize (Hsrv (TRecv w) I). unfold t_step in Hsrv. rewrite Hup, Ew in Hsrv. cbn [mbind option_bind] in Hsrv.
        rewrite Ey in Hsrv. cbn [mbind option_bind] in Hsrv. rewrite Er in Hsrv. unfold conn_of in Hsrv. by rewrite Ej in Hsrv.
    - destruct y as [|g'|th g' st]; [done|done|]. cbn [receiving] in Er. apply negb_false_iff in Er.
      specialize (Hsrv (TRun w (WTake M)) eq_refl). unfold t_step in Hsrv. rewrite Hup, Ew, Er in Hsrv.
      destruct (finish _ _ _ _ _ _) as [[[[wo texts] sent] cl]| | | | |] eqn:Efi; try done.
      unfold finish in Efi. destruct st as [b|r m got|r| |]; try done.
      + rewrite (si_world _ _ Hsim) in HW. destruct (answer _ _ _ _ _ _ _) eqn:Ea; try done. by apply answer_waits in Ea.
      + destruct (resp_build _ _ _) as [[? ?] b]. by destruct (ts_fds (xs_srv s) !! g'). }
  destruct Hp as [H3 H4 H5 H6 H7 H8|x qs H3 H4 H5 H6 H7 H8 H9 H10 H11|x bf r p H3 H4 H5 H6 H7 H8 H9 H10 H11 H12]; [congruence| |]; exfalso.
  - rewrite Hfl, app_nil_r in H7. destruct (msg_built M W ro hit e Hit x H6) as [_ Hne].
    destruct (server_whole M W ro hit e Hit x (WTake M) (ts_world (xs_srv s)) [] Wait) as (c' & w' & _ & _ & _ & Hhr); try done.
    { by rewrite <- (si_world _ _ Hsim). } { apply huge_big. }
    rewrite app_nil_r, <- H7, L4 in Hhr.
    destruct (decide (1 <= wcount f (ts_workers (xs_srv s)))) as [Hw|Hw].
    + destruct (wcount_some _ _ Hw) as (w & y & Ew & Ey).
      assert (Hin : receiving y = true -> tn_in k <> [] -> False).
      { intros Hr Hi. specialize (Hsrv (TRecv w) I). unfold t_step in Hsrv. rewrite Hup, Ew in Hsrv. cbn [mbind option_bind] in Hsrv.
        rewrite Ey in Hsrv. cbn [mbind option_bind] in Hsrv. rewrite Hr, (conn_of_eq _ _ _ _ L1 Hk) in Hsrv. by destruct (tn_in k). }
      destruct y as [|g|th g st]; [done| |]; cbn [wst_fd] in Ey; injection Ey as ->.
      * apply Hin; [done|]. intros Ei.
        assert (eaten = []) as ->.
        { apply L7. intros w2 th st Hw2. assert (w2 = w) as -> by (exact (only_reader f (xs_srv s) w _ w2 _ ltac:(lia) Ew eq_refl Hw2 eq_refl)). congruence. }
        rewrite L4, Ei in H7. done.
      * destruct (L6 w th st Ew) as [[Hlive Hre] _]. rewrite map_app, <- Hre in Hhr. destruct (finishing st) eqn:Efin.
        -- specialize (Hsrv (TRun w (WTake M)) eq_refl). unfold t_step in Hsrv. rewrite Hup, Ew, Efin, L1, (conn_of_eq _ _ _ _ L1 Hk) in Hsrv.
           rewrite resume_finish in Hhr by done. by destruct (finish _ _ _ _ _ _) as [[[[wo texts] sent] cl]| | | | |].
        -- apply Hin; [cbn [receiving]; by rewrite Efin|]. intros Ei. rewrite Ei in Hhr. cbn [map] in Hhr. by rewrite resume_waits in Hhr.
    + specialize (L2' Hfk). unfold users in L2'. destruct (ts_queue (xs_srv s)) as [|t q] eqn:Eq.
      { change (qcount f []) with 0 in L2'. lia. }
      apply Nat.nlt_ge in Hload. apply Hload, (too_many s n i c k Hsim Hc Hk Hfk). intros w y Ew.
      destruct (wst_fd y) as [g|] eqn:Ey.
      2: { destruct y; try done. specialize (Hsrv (TPop w) I). unfold t_step in Hsrv. by rewrite Hup, Ew, Eq in Hsrv. }
      destruct (sim_worker s n w y g Hsim Ew Ey) as [(j & cj & kj & hj & ej & Hcj & Hcf & Hkj & Hhj & Hlj)|(Hfo & HX & _)];
        [|exfalso; by eapply Hnf].
      exists g, j, cj, kj. split; [done|]. split; [apply Hlj|]. split; [done|]. split; [done|].
      assert (Hgf : g <> f).
      { intros ->. pose proof (wcount_lookup f _ _ _ Ew) as H. unfold on in H. rewrite decide_True in H by done. lia. }
      split; [|intros ->; apply Hgf; by eapply (sa_inj _ _ (si_sane _ _ Hsim)); [apply Hlj|]].
      destruct (tn_fin kj) eqn:Ekj; [exfalso|done]. rewrite <- (si_clients _ _ Hsim) in Hcj.
      assert (Hnil : hn_in hj = []).
      { destruct (decide (hn_in hj = [])) as [|Hne']; [done|]. destruct (asked w0 n log j hj cj Hinv Hcj Hhj Hne') as (? & _ & _ & _ & _ & _ & Hf' & _).
        rewrite (li_fin _ _ _ _ _ _ Hlj) in Hf'. congruence. }
      rewrite (li_in _ _ _ _ _ _ Hlj) in Hnil. apply app_eq_nil in Hnil as [_ Hin].
      destruct (gone_peeks w0 s n log w y g j cj kj hj ej Hinv Ew Ey Hcj Hhj Hlj Hin Ekj) as [-> _].
      specialize (Hsrv (TRecv w) I). unfold t_step in Hsrv. rewrite Hup, Ew in Hsrv. cbn [mbind option_bind wst_fd receiving] in Hsrv.
      by rewrite Hcf, Hin, Ekj in Hsrv.
  - specialize (Hst (XReturn i (length (text_of hit p))) (conj I I)). cbn [x_step] in Hst. rewrite Hc in Hst. cbn [mbind option_bind] in Hst.
    rewrite H3, Hk in Hst. cbn [mbind option_bind] in Hst. rewrite (sim_open _ _ _ _ _ _ Hli) in Hst. cbn [orb] in Hst. rewrite <- L5, H9 in Hst.
    destruct x as [[chit crit] q]. change (snd (req_build chit crit q [])) with (msg_of (chit, crit, q)) in Hst.
    rewrite firstn_all in Hst. destruct (client_whole M W ro hit e Hit (chit, crit, q) p [] Wait H4 H5) as (y & Hy & _).
    cbn [fst snd] in Hy. rewrite app_nil_r in Hy. rewrite Hy in Hst. by discriminate Hst.
Qed.

(** *** What stops the process *)

Lemma goes_down t l t' : t_step false hit ro e t l = Some t' -> ts_down t' = true ->
  exists w th f st, ts_workers t !! w = Some (WRead th f st) /\
    ((exists i k c rest, l = TRecv w /\ conn_of t f = Some (i, k) /\ finishing st = false /\ tn_in k = c :: rest /\ forall st', got_byte st c <> Ok st') \/
     (exists wr o, l = TRun w wr /\ finishing st = true /\
        finish hit (match ts_fds t !! f with Some _ => wr | None => WFail end) ro e st (ts_world t) = o /\ o <> Blocked /\ ~ is_ok o)).
Proof.
  unfold t_step. destruct (ts_down t) eqn:Hup; [done|].
  assert (Hnone : forall w x, ts_down (recv_step t w x None) = false) by (intros w [|g|th g st]; done).
  destruct l as [j g ok|j bs|j|g|g|w|w|w j|w wr].
  - case_decide; [|done]. by intros [= <-].
  - destruct (ts_conns t !! j) as [c|]; [|done]. cbn [mbind option_bind]. destruct (tn_fin c); [done|]. intros [= <-]. cbn [set_tconn ts_down]. congruence.
  - destruct (ts_conns t !! j) as [c|]; [|done]. cbn [mbind option_bind]. intros [= <-]. cbn [set_tconn ts_down]. congruence.
  - by destruct (conn_of t g).
  - by destruct (conn_of t g).
  - destruct (ts_workers t !! w) as [[]|]; try done. destruct (ts_queue t) as [|k q]; [done|]. intros [= <-]. by destruct k as [f []|f].
  - destruct (ts_workers t !! w) as [x|] eqn:Ew; [|done]. cbn [mbind option_bind].
    destruct (wst_fd x) as [f|] eqn:Ef; [|done]. cbn [mbind option_bind]. destruct (receiving x) eqn:Erx; [|done].
    destruct (conn_of t f) as [[i k]|] eqn:Hcf; [|intros [= <-]; by rewrite Hnone].
    destruct (tn_in k) as [|ch rest] eqn:Ein; [destruct (tn_fin k); [|done]; intros [= <-]; by rewrite Hnone|].
    intros [= <-]. destruct x as [|g|th g st]; [done| |]; cbn [takes recv_step]; [cbn [set_worker ts_down]; congruence|].
    cbn [wst_fd] in Ef. injection Ef as ->. cbn [receiving] in Erx. apply negb_true_iff in Erx.
    intros H. exists w, th, f, st. split; [done|]. left. exists i, k, ch, rest. do 4 (split; [done|]). intros st' Hst. rewrite Hst in H.
    cbn [set_worker set_tconn ts_down] in H. congruence.
  - destruct (ts_workers t !! w) as [x|]; [|done]. cbn [mbind option_bind]. destruct (wst_fd x) as [f|]; [|done]. cbn [mbind option_bind].
    destruct (receiving x && _); [|done]. intros [= <-]. by rewrite Hnone.
  - destruct (ts_workers t !! w) as [[|g|th f st]|] eqn:Ew; try done. destruct (finishing st) eqn:Efin; [|done].
    destruct (finish _ _ _ _ _ _) as [[[[wo texts] sent] cl]| | | | |] eqn:Efi; try done.
    { intros [= <-]. destruct cl, (conn_of t f) as [[i k]|]; done. }
    all: intros [= <-] _; exists w, th, f, st; (split; [done|]); right; eexists wr, _; do 2 (split; [done|]); (split; [exact Efi|]); (split; [done|]); by intros [].
Qed.

(** Step [l], which stops the process, concerns a number that is closed or stands for
    a stranger: a byte with which ReadUntil or the parser throws; SIGPIPE; a handler
    that fails. *)
Definition stops s (l : xlab) : Prop := exists w th f st,
  ts_workers (xs_srv s) !! w = Some (WRead th f st) /\ foreign X (xs_srv s) f /\
  ((exists i k c rest buf, l = XServer (TRecv w) /\ conn_of (xs_srv s) f = Some (i, k) /\ X i /\ st = RHead buf /\ tn_in k = c :: rest /\
      (~ short (buf ++ [c]) \/ c = LF /\ length buf < 3)) \/
   (exists wr, l = XServer (TRun w wr) /\
      (wr = WSig /\ (exists i, X i /\ ts_fds (xs_srv s) !! f = Some i) \/ exists r, st = RRun r /\ HttpSystemProps.fails_on ro (ts_world (xs_srv s)) r))).

Lemma down_step w0 s n log l s' : inv X M W ro hit w0 n log -> sim s n -> xok s l -> x_step false hit ro e s l = Some s' ->
  ts_down (xs_srv s) = false -> ts_down (xs_srv s') = true -> stops s l.
Proof.
  intros Hinv Hsim Hfair Hl Hup Hdown.
  assert (Ht : exists tl, t_step false hit ro e (xs_srv s) tl = Some (xs_srv s') /\ (l = XServer tl \/ match tl with TAccept _ _ _ | TSend _ _ | TFin _ => True | _ => False end)).
  { assert (Hts : forall tl t', t_step false hit ro e (xs_srv s) tl = Some t' -> xs_srv s' = t' -> t_step false hit ro e (xs_srv s) tl = Some (xs_srv s'))
      by (by intros tl t' Ht <-).
    assert (Hsame : xs_srv s' = xs_srv s -> False) by (intros E; rewrite E in Hdown; congruence).
    destruct l as [i f|i|i chit crit q|i m|l|i m|l]; cbn [x_step] in Hl.
    - destruct (t_step false hit ro e (xs_srv s) (TAccept i f true)) as [t'|] eqn:Et; [|done]. injection Hl as <-. eexists. split; [exact Et|by right].
    - destruct (xs_clients s !! i) as [c|]; [|done]. cbn [mbind option_bind] in Hl. destruct (decide _); [|done].
      destruct (t_step false hit ro e (xs_srv s) (TFin i)) as [t'|] eqn:Et; [|done]. injection Hl as <-. eexists. split; [exact Et|by right].
    - destruct (xs_clients s !! i) as [c|]; [|done]. cbn [mbind option_bind] in Hl.
      destruct (ts_conns (xs_srv s) !! i) as [k|]; [|done]. cbn [mbind option_bind] in Hl. destruct (cl_now c); [done|]. destruct (tn_fin k); [done|].
      destruct (req_build chit crit q []) as [[rc q'] msg]. destruct (rc =? kSuccess)%Z; injection Hl as <-; by destruct Hsame.
    - destruct (xs_clients s !! i) as [c|]; [|done]. cbn [mbind option_bind] in Hl. destruct (decide _); [|done].
      destruct (t_step false hit ro e (xs_srv s) (TSend i _)) as [t'|] eqn:Et; [|done]. injection Hl as <-. eexists. split; [exact Et|by right].
    - destruct l; try done; (destruct (t_step false hit ro e (xs_srv s) _) as [t'|] eqn:Et; [|done]); injection Hl as <-; eexists; (split; [exact Et|by left]).
    - destruct (xs_clients s !! i) as [c|]; [|done]. cbn [mbind option_bind] in Hl.
      destruct (cl_now c) as [x|]; [|done]. cbn [mbind option_bind] in Hl.
      destruct (ts_conns (xs_srv s) !! i) as [k|]; [|done]. cbn [mbind option_bind] in Hl. destruct x as [[chit crit] q].
      destruct (client_send _ _ _ _ _ _ _); try done; injection Hl as <-; by destruct Hsame.
    - destruct l; try done; (destruct (xs_clients s !! i); [done|]); (destruct (t_step false hit ro e (xs_srv s) _) as [t'|] eqn:Et; [|done]);
        injection Hl as <-; eexists; (split; [exact Et|by right]). }
  destruct Ht as (tl & Et & Hlab). clear Hl.
  pose proof Hinv as ((_ & HW) & Hloc & _). pose proof (si_clients _ _ Hsim) as Hcl.
  destruct (goes_down _ _ _ Et Hdown) as (w & th & f & st & Ew & [(i & k & c & rest & -> & Hcf & Hfin & Hin & Hg)|(wr & o & -> & Hfin & Hfi & Hnb & Hno)]);
    (destruct Hlab as [->|?]; [|done]); exists w, th, f, st; (split; [done|]).
  - destruct (sim_worker s n w _ f Hsim Ew eq_refl) as [(i' & c' & k' & h & eaten & Hc & Hcf' & Hk & Hh & Hli)|(Hfo & HX & Hfor)].
    + exfalso. rewrite Hcf in Hcf'. injection Hcf' as <- <-. pose proof Hli as [L1 L2 L2' L3 L3' L4 L5 L6 L7].
      destruct (L6 w th st Ew) as [Hre Hne]. rewrite <- Hcl in Hc.
      destruct (asked w0 n log i h c' Hinv Hc Hh) as (x & V1 & V2 & Hg' & Hm & _); [by rewrite L4|].
      rewrite L4, Hin, <- app_assoc in Hm. cbn [app] in Hm.
      destruct (got_it x st eaten c (rest ++ cl_flight c') _ HW V1 V2 Hg' Hre Hfin Hm) as [st' Hst]. by apply (Hg st').
    + split; [done|]. left. pose proof Hcf as Hcf'. apply conn_of_Some in Hcf' as [Hi _].
      destruct st as [buf|r m got|r| |]; try done.
      * exists i, k, c, rest, buf. split_and!; try done; [by apply Hfo|].
        destruct (decide (c = LF /\ length buf < 3)) as [Hd|Hd]; [by right|]. left. intros Hs. destruct (got_byte_ok buf c Hs Hd) as [st' Hst]. by apply (Hg st').
      * exfalso. cbn [got_byte] in Hg. destruct (_ =? m); by eapply Hg.
  - destruct (sim_worker s n w _ f Hsim Ew eq_refl) as [(i & c & k & h & eaten & Hc & Hcf & Hk & Hh & Hli)|(Hfo & HX & Hfor)].
    + exfalso. pose proof Hli as [L1 L2 L2' L3 L3' L4 L5 L6 L7]. rewrite L1 in Hfi. destruct (L6 w th st Ew) as [[_ Hre] Hne].
      assert (Hbig : big M wr).
      { destruct Hfair as [?|(th' & f' & st' & Ew' & Hfo)]; [done|]. rewrite Ew in Ew'. injection Ew' as <- <- <-. exfalso.
        specialize (Hloc i). rewrite Hcl, Hc, Hh in Hloc. destruct Hloc as [HX _]. by apply HX, Hfo. }
      rewrite <- Hcl in Hc.
      destruct (asked w0 n log i h c Hinv Hc Hh) as (x & V1 & V2 & Hg & Hm & Ho & Hf & Hnow); [by rewrite L4|].
      rewrite (si_world _ _ Hsim) in HW.
      assert (Hrs := Hre hit wr e (ts_world (xs_srv s)) (map Byte (tn_in k)) Wait). rewrite <- map_app, <- L4, (resume_finish _ _ _ _ _ _ _ Hfin), Hfi in Hrs.
      assert (Hfl : cl_flight c = []).
      { destruct (cl_flight c) as [|ch fl] eqn:Efl; [done|exfalso].
        rewrite (server_piece M W ro hit e Hit x wr _ (hn_in h) (ch :: fl) HW V1 V2 Hg Hbig Hm) in Hrs by done.
        destruct o as [[[[? ?] ?] ?]| | | | |]; done. }
      rewrite Hfl, app_nil_r in Hm.
      destruct (server_whole M W ro hit e Hit x wr (ts_world (xs_srv s)) [] Wait HW V1 V2 Hg Hbig) as (c' & w' & Hd & HW' & Hgr & Hhr).
      rewrite <- Hm, app_nil_r in Hhr. rewrite Hhr in Hrs. destruct o as [v| | | | |]; try done. apply Hno. by exists v.
    + split; [done|]. right. exists wr. split; [done|]. unfold finish in Hfi. subst o.
      destruct st as [b|r m g|r| |]; try done.
      * destruct (HttpSystemProps.answer_cases hit (match ts_fds (xs_srv s) !! f with Some _ => wr | None => WFail end) ro r e (ts_world (xs_srv s)) (Stream [] Eof)) as [[v Hv]|[[Hb _]|[_ [Hw|Hw]]]].
        -- rewrite Hv in Hno. cbn [mbind outcome_bind] in Hno. destruct Hno. by eexists.
        -- by rewrite Hb in Hnb.
        -- left. destruct (ts_fds (xs_srv s) !! f) as [i|] eqn:Ei; [|done]. split; [done|]. exists i. split; [by apply Hfo|done].
        -- right. by exists r.
      * left. destruct (resp_build _ _ _) as [[? ?] b]. destruct (ts_fds (xs_srv s) !! f) as [i|] eqn:Ei.
        -- destruct wr; cbn [sock_write mbind outcome_bind] in Hno; [destruct Hno; by eexists..|]. split; [done|]. exists i. split; [by apply Hfo|done].
        -- destruct Hno. by eexists.
      * destruct Hno. by eexists.
Qed.

Lemma down_run w0 ls : forall s n log s', inv X M W ro hit w0 n log -> sim s n -> xall xok hit ro e s ls -> x_run false hit ro e s ls = Some s' ->
  ts_down (xs_srv s) = false -> ts_down (xs_srv s') = true ->
  exists l1 l l2 s1, ls = l1 ++ l :: l2 /\ x_run false hit ro e s l1 = Some s1 /\ ts_down (xs_srv s1) = false /\ stops s1 l.
Proof.
  induction ls as [|l ls IH]; intros s n log s' Hi Hsim Hf H Hup Hdown; cbn [x_run xall] in H, Hf.
  - injection H as <-. congruence.
  - destruct (x_step false hit ro e s l) as [s1|] eqn:E; [|done]. destruct Hf as [Hfl Hf]. cbn [mbind option_bind] in H.
    destruct (ts_down (xs_srv s1)) eqn:E1.
    + exists [], l, ls, s. split; [done|]. split; [done|]. split; [done|]. by eapply down_step.
    + destruct (sim_step _ _ _ _ _ _ Hi Hsim Hfl E) as (n1 & l1 & H1 & S1). destruct (IH _ _ _ _ H1 S1 Hf H E1 Hdown) as (la & l0 & lb & s2 & -> & Hr & Hu & Hs).
      exists (l :: la), l0, lb, s2. split; [done|]. cbn [x_run]. rewrite E. done.
Qed.
End runs.

(** Without strangers. *)
Lemma fair_ok {U} M W (ro : router U) hit e (Hit : valid_order hit) w0 ls : forall s n log,
  inv nobody M W ro hit w0 n log -> sim nobody ro s n -> Forall (xfair M W ro) ls -> xall (xok nobody M W ro) hit ro e s ls.
Proof.
  induction ls as [|l ls IH]; intros s n log Hi Hsim Hf; cbn [xall]; [done|]. apply Forall_cons in Hf as [Hl Hf].
  destruct (x_step false hit ro e s l) as [s'|] eqn:E; [|done].
  assert (Hok : xok nobody M W ro s l).
  { destruct l as [i f|i|i chit crit q|i m|[]|i m|l]; try done; [|by left]. split; [by intros []|].
    cbn [x_step] in E. unfold t_step in E. destruct (ts_down (xs_srv s)); [done|]. case_decide as Hd; [|done].
    destruct (si_users _ _ _ _ Hsim f) as [?|[i' []]]; [apply Hd|done]. }
  split; [done|]. destruct (sim_step nobody M W ro hit e Hit (nobody_keeps W ro) _ _ _ _ _ _ Hi Hsim Hok E) as (n1 & l1 & H1 & S1). by eapply IH.
Qed.
Lemma go_fair {U} M W (ro : router U) s n l : sim nobody ro s n -> xgo nobody M W ro s l -> xgoes_on M W ro l.
Proof.
  intros Hsim [H1 H2]. split; [|by destruct l]. destruct l as [i f|i|i chit crit q|i m|[]|i m|l]; try done.
  destruct H1 as [?|(th & f & st & Hw & Hf)]; [done|].
  destruct (sim_worker nobody W ro (nobody_keeps W ro) s n w _ f Hsim Hw eq_refl) as [(i & c & k & h & eaten & _ & _ & _ & _ & Hl)|(_ & [i []] & _)].
  destruct (Hf i). apply Hl.
Qed.

(** ** Theorems *)

Lemma new_up {U} m (w : world U) : ts_down (xs_srv (x_new m w)) = false.
Proof. done. Qed.
Lemma done_ok {U} X (ro : router U) w0 w cls log i c : explained_with X ro w0 w cls log -> cls !! i = Some c ->
  Forall (fun o => exists y, o = Ok y /\ st_rc y = kSuccess) (cl_done c).
Proof.
  intros (_ & _ & Hx) Hc. destruct (Hx i c Hc) as (_ & _ & _ & Hf).
  apply Forall_forall. intros o Ho. apply elem_of_list_lookup in Ho as (j & Hj).
  destruct (Forall2_lookup_l _ _ _ _ _ Hf Hj) as (ev & _ & y & ? & ? & _). by exists y.
Qed.

(** C197.  With strangers there is still one order of all requests, theirs and those of
    the clients, that grows with time and explains every answer to a client. *)
Theorem threads_strangers_calls_are_serial : forall U (X : nat -> Prop) M (W : world U -> Prop) (ro : router U) hit e m w ls1 ls2 s1 s2,
  valid_order hit -> W w -> keeps W ro ->
  xall (xfair_with X M W ro) hit ro e (x_new m w) ls1 -> xall (xfair_with X M W ro) hit ro e s1 ls2 ->
  x_run false hit ro e (x_new m w) ls1 = Some s1 -> x_run false hit ro e s1 ls2 = Some s2 ->
  exists log1 log2, explained_with X ro w (ts_world (xs_srv s1)) (xs_clients s1) log1 /\
    explained_with X ro w (ts_world (xs_srv s2)) (xs_clients s2) (log1 ++ log2) /\
    (forall i, X i -> xs_clients s2 !! i = None).
Proof.
  intros U X M W ro hit e m w ls1 ls2 s1 s2 Hit HW Hk H1 H2 R1 R2.
  apply (xall_impl _ _ _ _ _ _ (xok_fair X M W ro)) in H1, H2.
  destruct (sim_run X M W ro hit e Hit (fun _ _ => Hk) w ls1 _ _ [] _ (inv_new X M W ro hit w HW) (sim_new X ro m w) H1 R1) as (n1 & log1 & I1 & S1). cbn [app] in I1.
  destruct (sim_run X M W ro hit e Hit (fun _ _ => Hk) w ls2 _ _ log1 _ I1 S1 H2 R2) as (n2 & log2 & I2 & S2).
  exists log1, log2. split; [|split].
  - exact (sim_explains X M W ro hit (fun _ _ => Hk) w s1 n1 log1 I1 S1).
  - exact (sim_explains X M W ro hit (fun _ _ => Hk) w s2 n2 _ I2 S2).
  - intros i HX. destruct I2 as (_ & Hl & _). specialize (Hl i). rewrite (si_clients _ _ _ _ S2) in Hl.
    destruct (xs_clients s2 !! i); [|done]. destruct (sy_conns (ns_sys n2) !! i); [|done]. by destruct Hl.
Qed.

(** C180.  There is one order of all requests, the same for all clients, that grows
    with time and explains every answer; the process does not end. *)
Theorem threads_calls_are_serial : forall U M (W : world U -> Prop) (ro : router U) hit e m w ls1 ls2 s1 s2,
  valid_order hit -> W w -> Forall (xfair M W ro) ls1 -> Forall (xfair M W ro) ls2 ->
  x_run false hit ro e (x_new m w) ls1 = Some s1 -> x_run false hit ro e s1 ls2 = Some s2 ->
  (exists log1 log2, xexplains ro w s1 log1 /\ xexplains ro w s2 (log1 ++ log2)) /\ ts_down (xs_srv s2) = false.
Proof.
  intros U M W ro hit e m w ls1 ls2 s1 s2 Hit HW H1 H2 R1 R2.
  apply (fair_ok M W ro hit e Hit w ls1 _ _ [] (inv_new nobody M W ro hit w HW) (sim_new nobody ro m w)) in H1.
  destruct (sim_run nobody M W ro hit e Hit (nobody_keeps W ro) w ls1 _ _ [] _ (inv_new nobody M W ro hit w HW) (sim_new nobody ro m w) H1 R1) as (n1 & log1 & I1 & S1). cbn [app] in I1.
  apply (fair_ok M W ro hit e Hit w ls2 _ _ _ I1 S1) in H2.
  destruct (sim_run nobody M W ro hit e Hit (nobody_keeps W ro) w ls2 _ _ log1 _ I1 S1 H2 R2) as (n2 & log2 & I2 & S2).
  split; [exists log1, log2; split|].
  - exact (sim_explains nobody M W ro hit (nobody_keeps W ro) w s1 n1 log1 I1 S1).
  - exact (sim_explains nobody M W ro hit (nobody_keeps W ro) w s2 n2 _ I2 S2).
  - destruct (ts_down (xs_srv s2)) eqn:E; [|done]. pose proof (si_thr _ _ _ _ S2) as Ht. rewrite E in Ht.
    destruct I2 as (_ & _ & [H|[(j & k & H & _)|[H [i []]]]]); congruence.
Qed.

(** C198.  Every call of Send comes back, unless the process ends, if there are not more
    clients than threads at a time, however many strangers there are. *)
Theorem threads_strangers_every_call_returns : forall U (X : nat -> Prop) M (W : world U -> Prop) (ro : router U) hit e m w ls s,
  valid_order hit -> W w -> keeps W ro -> xall (xfair_with X M W ro) hit ro e (x_new m w) ls -> x_run false hit ro e (x_new m w) ls = Some s ->
  (exists b, forall ls' s', xall (xgoes_on_with X M W ro) hit ro e s ls' -> x_run false hit ro e s ls' = Some s' -> length ls' <= b) /\
  ((forall l, xgoes_on_with X M W ro s l -> x_step false hit ro e s l = None) -> ts_down (xs_srv s) = false -> present s <= m ->
   forall i c, xs_clients s !! i = Some c ->
     cl_now c = None /\ length (cl_done c) = length (cl_calls c) /\
     Forall (fun o => exists y, o = Ok y /\ st_rc y = kSuccess) (cl_done c)).
Proof.
  intros U X M W ro hit e m w ls s Hit HW Hk H1 R1. apply (xall_impl _ _ _ _ _ _ (xok_fair X M W ro)) in H1.
  destruct (sim_run X M W ro hit e Hit (fun _ _ => Hk) w ls _ _ [] _ (inv_new X M W ro hit w HW) (sim_new X ro m w) H1 R1) as (n & log & Hi & Hsim). cbn [app] in Hi.
  split.
  - exists (xleft s). intros ls' s' Hg Hr. apply (xbounded X M W ro hit e (fun _ _ => Hk) ls' s s'); [|done].
    clear -Hg Hr. revert s Hg Hr. induction ls' as [|l ls' IH]; intros s Hg Hr; [constructor|]. cbn [xall x_run] in Hg, Hr.
    destruct (x_step false hit ro e s l) as [s1|]; [|done]. destruct Hg as [[_ Hl] Hg]. constructor; [by destruct l|by eapply IH].
  - intros Hst Hup Hm i c Hc.
    assert (Hload : present s <= length (ts_workers (xs_srv s))).
    { rewrite (workers_run ro hit e ls _ _ R1). cbn [x_new xs_srv t_new ts_workers]. by rewrite replicate_length. }
    destruct (xstuck X M W ro hit e Hit (fun _ _ => Hk) w s n log Hi Hsim Hup Hload) with (i := i) (c := c) as [E1 E2]; [|done|].
    { intros l [Hl1 Hl2]. apply Hst. split; [|done]. by destruct l. }
    split; [done|]. split; [done|]. exact (done_ok X ro w _ _ log i c (sim_explains X M W ro hit (fun _ _ => Hk) w s n log Hi Hsim) Hc).
Qed.

(** C181.  Every call of Send comes back, if there are not more clients than threads at
    a time. *)
Theorem threads_every_call_returns : forall U M (W : world U -> Prop) (ro : router U) hit e m w ls s,
  valid_order hit -> W w -> Forall (xfair M W ro) ls -> x_run false hit ro e (x_new m w) ls = Some s ->
  (exists b, forall ls' s', Forall (xgoes_on M W ro) ls' -> x_run false hit ro e s ls' = Some s' -> length ls' <= b) /\
  ((forall l, xgoes_on M W ro l -> x_step false hit ro e s l = None) -> present s <= m ->
   forall i c, xs_clients s !! i = Some c ->
     cl_now c = None /\ length (cl_done c) = length (cl_calls c) /\
     Forall (fun o => exists y, o = Ok y /\ st_rc y = kSuccess) (cl_done c)).
Proof.
  intros U M W ro hit e m w ls s Hit HW H1 R1.
  apply (fair_ok M W ro hit e Hit w ls _ _ [] (inv_new nobody M W ro hit w HW) (sim_new nobody ro m w)) in H1.
  destruct (sim_run nobody M W ro hit e Hit (nobody_keeps W ro) w ls _ _ [] _ (inv_new nobody M W ro hit w HW) (sim_new nobody ro m w) H1 R1) as (n & log & Hi & Hsim). cbn [app] in Hi.
  split.
  - exists (xleft s). intros ls' s' Hg Hr. apply (xbounded nobody M W ro hit e (nobody_keeps W ro) ls' s s'); [|done]. apply (Forall_impl _ _ _ Hg). intros l [Hf Hl]. by destruct l.
  - intros Hst Hm i c Hc.
    assert (Hload : present s <= length (ts_workers (xs_srv s))).
    { rewrite (workers_run ro hit e ls _ _ R1). cbn [x_new xs_srv t_new ts_workers]. by rewrite replicate_length. }
    assert (Hup : ts_down (xs_srv s) = false).
    { destruct (ts_down (xs_srv s)) eqn:E; [|done]. pose proof (si_thr _ _ _ _ Hsim) as Ht. rewrite E in Ht.
      destruct Hi as (_ & _ & [H|[(j & k & H & _)|[H [j []]]]]); congruence. }
    destruct (xstuck nobody M W ro hit e Hit (nobody_keeps W ro) w s n log Hi Hsim Hup Hload) with (i := i) (c := c) as [E1 E2]; [|done|].
    { intros l Hl. apply Hst. by eapply go_fair. }
    split; [done|]. split; [done|]. exact (done_ok nobody ro w _ _ log i c (sim_explains nobody M W ro hit (nobody_keeps W ro) w s n log Hi Hsim) Hc).
Qed.

(** C199.  If the process ends, then in a step of a thread that serves a stranger: with
    a byte of theirs that makes ReadUntil or the parser throw, with SIGPIPE, or with a
    handler that fails. *)
Theorem only_strangers_stop_the_threads : forall U (X : nat -> Prop) M (W : world U -> Prop) (ro : router U) hit e m w ls s,
  valid_order hit -> W w -> keeps W ro -> xall (xfair_with X M W ro) hit ro e (x_new m w) ls -> x_run false hit ro e (x_new m w) ls = Some s ->
  ts_down (xs_srv s) = true ->
  exists l1 l l2 s1, ls = l1 ++ l :: l2 /\ x_run false hit ro e (x_new m w) l1 = Some s1 /\ ts_down (xs_srv s1) = false /\ stops X ro s1 l.
Proof.
  intros U X M W ro hit e m w ls s Hit HW Hk H1 R1 Hdown. apply (xall_impl _ _ _ _ _ _ (xok_fair X M W ro)) in H1.
  exact (down_run X M W ro hit e Hit (fun _ _ => Hk) w ls _ _ [] _ (inv_new X M W ro hit w HW) (sim_new X ro m w) H1 R1 (new_up m w) Hdown).
Qed.

(** More clients than threads: a client that has connected and does not call keeps a
    thread for itself. *)
Definition blocked_now {U} (s : xsys U) (i : nat) (c : client) : bool :=
  match cl_now c with
  | None => true
  | Some (h, r, q) =>
      match ts_conns (xs_srv s) !! i with
      | None => true
      | Some k =>
          match tn_sent k with
          | [] => still_open (xs_srv s) i &&
                  match client_send true h r (WTake (length (snd (req_build h r q [])))) q resp_new (Stream [] Wait) with
                  | Blocked => true | _ => false end
          | _ => false
          end
      end
  end.
Lemma stuck_if {U} M W (ro : router U) hit e (s : xsys U) f i k :
  ts_workers (xs_srv s) = [WPeek f] -> conn_of (xs_srv s) f = Some (i, k) -> tn_in k = [] -> tn_fin k = false ->
  Forall (fun x => cl_flight x.2 = [] /\ blocked_now s x.1 x.2 = true) (map_to_list (xs_clients s)) ->
  forall l, xgoes_on M W ro l -> x_step false hit ro e s l = None.
Proof.
  intros Hws Hcf Hin Hfin Hcl l [Hfair Hgo].
  assert (Hc : forall j c, xs_clients s !! j = Some c -> cl_flight c = [] /\ blocked_now s j c = true).
  { intros j c Hj. rewrite Forall_forall in Hcl. by apply (Hcl (j, c)), elem_of_map_to_list. }
  destruct l as [j g|j|j h r q|j n|l|j n|l]; try done; cbn [x_step].
  - destruct (xs_clients s !! j) as [c|] eqn:Ej; [|done]. destruct (Hc j c Ej) as [E _]. cbn [mbind option_bind]. rewrite E.
    rewrite decide_False; [done|]. cbn. lia.
  - assert (Hw : forall w x, ts_workers (xs_srv s) !! w = Some x -> x = WPeek f).
    { intros w x. rewrite Hws. destruct w; [by intros [= <-]|done]. }
    assert (Ht : match l with TAccept _ _ _ | TSend _ _ | TFin _ | TTimeout _ _ => True | _ => t_step false hit ro e (xs_srv s) l = None end).
    { unfold t_step. destruct (ts_down (xs_srv s)); [by destruct l|]. destruct l as [a g ok|a bs|a|g|g|w|w|w a|w wr]; try done.
      - by destruct (conn_of (xs_srv s) g).
      - by destruct (conn_of (xs_srv s) g).
      - destruct (ts_workers (xs_srv s) !! w) as [x|] eqn:E; [|done]. by rewrite (Hw _ _ E).
      - destruct (ts_workers (xs_srv s) !! w) as [x|] eqn:E; [|done]. rewrite (Hw _ _ E). cbn [mbind option_bind wst_fd receiving].
        by rewrite Hcf, Hin, Hfin.
      - destruct (ts_workers (xs_srv s) !! w) as [x|] eqn:E; [|done]. by rewrite (Hw _ _ E). }
    destruct l; try done; by rewrite Ht.
  - destruct (xs_clients s !! j) as [c|] eqn:Ej; [|done]. destruct (Hc j c Ej) as [_ E]. cbn [mbind option_bind].
    unfold blocked_now in E. destruct (cl_now c) as [[[h r] q]|]; [|done]. cbn [mbind option_bind].
    destruct (ts_conns (xs_srv s) !! j) as [kj|]; [|done]. cbn [mbind option_bind]. destruct (tn_sent kj); [|done].
    apply andb_true_iff in E as [E1 E2]. rewrite drop_nil, take_nil, E1. cbn [orb map].
    by destruct (client_send _ _ _ _ _ _ _).
Qed.

(** ** Examples *)
From Verif.Props Require Import HttpSystemProps.

Definition recvs (w n : nat) : list xlab := repeat (XServer (TRecv w)) n.
Definition call (i : nat) (b : bytes) : xlab := XCall i map_to_list map_to_list (ask b).

(** Two threads, two clients: the request of 0 comes in two pieces; meanwhile 1 is
    served.  1 gets "0cd", 0 gets "1ab"; then 0 calls again and gets "2ef". *)
Definition two_threads : list xlab :=
  [XConnect 0 5; XConnect 1 6; call 0 (B "ab"); call 1 (B "cd"); XServer (TPop 0); XServer (TPop 1); XFlow 0 20] ++
  recvs 0 21 ++ [XFlow 1 66] ++ recvs 1 67 ++ [XServer (TRun 1 (WTake 99)); XFlow 0 46].
Definition two_threads' : list xlab :=
  recvs 0 46 ++ [XServer (TRun 0 (WTake 99)); XReturn 1 50; XReturn 0 50; call 0 (B "ef"); XFlow 0 66] ++ recvs 0 67 ++
  [XServer (TRun 0 (WTake 99)); XReturn 0 50].
Definition xseen {U} (s : xsys U) : list (nat * list bytes) :=
  map (fun x => (x.1, map (fun o => match o with Ok y => rs_body (st_resp y) | _ => [] end) (cl_done x.2)))
    (map_to_list (xs_clients s)).
Definition xwaiting {U} (s : xsys U) : list (nat * bool * nat) :=
  map (fun x => (x.1, match cl_now x.2 with Some _ => true | None => false end, length (cl_done x.2))) (map_to_list (xs_clients s)).

Lemma call_fair i b : length b = 2 -> NUL ∉ b -> xfair 99 (fun _ => True) ticket_ro (call i b).
Proof. intros Hl Hn. cbn [xfair call]. do 2 (split; [apply valid_order_sorted|]). by apply ask_good. Qed.
Lemma run_fair w n : 99 <=? n = true -> xfair 99 (fun _ => True) ticket_ro (XServer (TRun w (WTake n))).
Proof. intros H. exists n. split; [done|]. by apply Nat.leb_le. Qed.
Ltac xfair_tac :=
  unfold two_threads, two_threads', recvs; cbn [repeat app];
  repeat (apply Forall_cons; split; [first [exact I | apply call_fair; [reflexivity|by_compute] | apply run_fair; reflexivity]|]);
  apply Forall_nil; exact I.
Lemma two_threads_fair : Forall (xfair 99 (fun _ => True) ticket_ro) two_threads /\ Forall (xfair 99 (fun _ => True) ticket_ro) two_threads'.
Proof. split; xfair_tac. Qed.

Lemma two_threads_run : exists s1 s2,
  x_run false map_to_list ticket_ro [] (x_new 2 wn) two_threads = Some s1 /\ xseen s1 = [(0, []); (1, [])] /\
  xwaiting s1 = [(0, true, 0); (1, true, 0)] /\ is_Some (x_step false map_to_list ticket_ro [] s1 (XServer (TRecv 0))) /\
  x_run false map_to_list ticket_ro [] s1 two_threads' = Some s2 /\ xseen s2 = [(0, [B "1ab"; B "2ef"]); (1, [B "0cd"])] /\
  xwaiting s2 = [(0, false, 2); (1, false, 1)].
Proof.
  assert (H : match x_run false map_to_list ticket_ro [] (x_new 2 wn) two_threads with
    | Some s1 =>
        match x_run false map_to_list ticket_ro [] s1 two_threads' with
        | Some s2 => Some (xseen s1, xwaiting s1, (fun o : option (xsys nat) => match o with Some _ => true | None => false end) (x_step false map_to_list ticket_ro [] s1 (XServer (TRecv 0))),
                           xseen s2, xwaiting s2)
        | None => None
        end
    | None => None
    end = Some ([(0, []); (1, [])], [(0, true, 0); (1, true, 0)], true,
                [(0, [B "1ab"; B "2ef"]); (1, [B "0cd"])], [(0, false, 2); (1, false, 1)])) by (by vm_compute).
  destruct (x_run false map_to_list ticket_ro [] (x_new 2 wn) two_threads) as [s1|]; [|discriminate].
  destruct (x_run false map_to_list ticket_ro [] s1 two_threads') as [s2|] eqn:E; [|discriminate].
  exists s1, s2. apply Some_inj in H.
  assert (H1 := f_equal (fun x => x.1.1.1.1) H). assert (H2 := f_equal (fun x => x.1.1.1.2) H).
  assert (H3 := f_equal (fun x => x.1.1.2) H). assert (H4 := f_equal (fun x => x.1.2) H). assert (H5 := f_equal snd H).
  cbn [fst snd] in *. split; [reflexivity|]. split; [exact H1|]. split; [exact H2|].
  split; [|split; [exact E|split; [exact H4|exact H5]]].
  destruct (x_step _ _ _ _ s1 _); [by eexists|discriminate].
Qed.

Example threads_calls_are_serial_ex : exists s1 s2 log1 log2,
  x_run false map_to_list ticket_ro [] (x_new 2 wn) two_threads = Some s1 /\ xseen s1 = [(0, []); (1, [])] /\
  x_run false map_to_list ticket_ro [] s1 two_threads' = Some s2 /\ xseen s2 = [(0, [B "1ab"; B "2ef"]); (1, [B "0cd"])] /\
  xexplains ticket_ro wn s1 log1 /\ xexplains ticket_ro wn s2 (log1 ++ log2).
Proof.
  destruct two_threads_run as (s1 & s2 & E1 & H1 & _ & _ & E2 & H2 & _).
  destruct (threads_calls_are_serial nat 99 (fun _ => True) ticket_ro map_to_list [] 2 wn two_threads two_threads' s1 s2 valid_order_sorted I
    (proj1 two_threads_fair) (proj2 two_threads_fair) E1 E2) as ((log1 & log2 & H3 & H4) & _).
  exists s1, s2, log1, log2. tauto.
Qed.

(** One thread, two clients: client 1 has to wait until client 0 has left. *)
Definition in_turn : list xlab :=
  [XConnect 0 5; XConnect 1 6; XServer (TPop 0); call 1 (B "cd"); XFlow 1 66; call 0 (B "ab"); XFlow 0 66] ++
  recvs 0 67 ++ [XServer (TRun 0 (WTake 99)); XReturn 0 50; XClose 0].
Definition in_turn' : list xlab :=
  [XServer (TRecv 0); XServer (TPop 0)] ++ recvs 0 67 ++ [XServer (TRun 0 (WTake 99)); XReturn 1 50].
Lemma in_turn_fair : Forall (xfair 99 (fun _ => True) ticket_ro) in_turn.
Proof. unfold in_turn. xfair_tac. Qed.
Lemma in_turn_run : exists s1 s2,
  x_run false map_to_list ticket_ro [] (x_new 1 wn) in_turn = Some s1 /\ xwaiting s1 = [(0, false, 1); (1, true, 0)] /\ present s1 = 1 /\
  is_Some (x_step false map_to_list ticket_ro [] s1 (XServer (TRecv 0))) /\
  x_run false map_to_list ticket_ro [] s1 in_turn' = Some s2 /\ xseen s2 = [(0, [B "0ab"]); (1, [B "1cd"])] /\
  xwaiting s2 = [(0, false, 1); (1, false, 1)].
Proof.
  assert (H : match x_run false map_to_list ticket_ro [] (x_new 1 wn) in_turn with
    | Some s1 =>
        match x_run false map_to_list ticket_ro [] s1 in_turn' with
        | Some s2 => Some (xwaiting s1, present s1, (fun o : option (xsys nat) => match o with Some _ => true | None => false end) (x_step false map_to_list ticket_ro [] s1 (XServer (TRecv 0))),
                           xseen s2, xwaiting s2)
        | None => None
        end
    | None => None
    end = Some ([(0, false, 1); (1, true, 0)], 1, true, [(0, [B "0ab"]); (1, [B "1cd"])], [(0, false, 1); (1, false, 1)])) by (by vm_compute).
  destruct (x_run false map_to_list ticket_ro [] (x_new 1 wn) in_turn) as [s1|]; [|discriminate].
  destruct (x_run false map_to_list ticket_ro [] s1 in_turn') as [s2|] eqn:E; [|discriminate].
  exists s1, s2. apply Some_inj in H.
  assert (H1 := f_equal (fun x => x.1.1.1.1) H). assert (H2 := f_equal (fun x => x.1.1.1.2) H).
  assert (H3 := f_equal (fun x => x.1.1.2) H). assert (H4 := f_equal (fun x => x.1.2) H). assert (H5 := f_equal snd H).
  cbn [fst snd] in *. split; [reflexivity|]. split; [exact H1|]. split; [exact H2|].
  split; [|split; [exact E|split; [exact H4|exact H5]]].
  destruct (x_step _ _ _ _ s1 _); [by eexists|discriminate].
Qed.

Example threads_every_call_returns_ex : exists s1 s2,
  x_run false map_to_list ticket_ro [] (x_new 1 wn) in_turn = Some s1 /\ xwaiting s1 = [(0, false, 1); (1, true, 0)] /\ present s1 <= 1 /\
  (exists l, xgoes_on 99 (fun _ => True) ticket_ro l /\ is_Some (x_step false map_to_list ticket_ro [] s1 l)) /\
  (exists n, forall ls' s', Forall (xgoes_on 99 (fun _ => True) ticket_ro) ls' -> x_run false map_to_list ticket_ro [] s1 ls' = Some s' -> length ls' <= n) /\
  x_run false map_to_list ticket_ro [] s1 in_turn' = Some s2 /\ xwaiting s2 = [(0, false, 1); (1, false, 1)].
Proof.
  destruct in_turn_run as (s1 & s2 & E1 & H1 & Hp & Hs & E2 & _ & H2).
  exists s1, s2. split; [exact E1|]. split; [exact H1|]. split; [rewrite Hp; apply Nat.le_refl|]. split.
  { exists (XServer (TRecv 0)). split; [split; exact I|exact Hs]. }
  split; [|split; [exact E2|exact H2]].
  apply (threads_every_call_returns nat 99 (fun _ => True) ticket_ro map_to_list [] 1 wn in_turn s1 valid_order_sorted I in_turn_fair E1).
Qed.

(** *** Strangers *)

Lemma xall_forall {U} (P : xsys U -> xlab -> Prop) hit ro e ls s : (forall s, Forall (P s) ls) -> xall P hit ro e s ls.
Proof.
  revert s. induction ls as [|l ls IH]; intros s H; [done|]. cbn [xall]. destruct (x_step _ _ _ _ _ _) as [s'|]; [|done].
  split; [by eapply Forall_inv|]. apply IH. intros s2. by eapply Forall_inv_tail.
Qed.
(** Checking the numbers that connections of clients get. *)
Fixpoint numbers_ok {U} (hit : iter_order) (ro : router U) (e : bytes) (s : xsys U) (ls : list xlab) : bool :=
  match ls with
  | [] => true
  | l :: ls' => match l with XConnect _ f => unused_ok f (xs_srv s) | _ => true end &&
                match x_step false hit ro e s l with Some s' => numbers_ok hit ro e s' ls' | None => true end
  end.
Definition xfair_but {U} (X : nat -> Prop) (M : nat) (W : world U -> Prop) (ro : router U) (l : xlab) : Prop :=
  match l with
  | XConnect i _ => ~ X i
  | XServer (TRun _ wr) => big M wr
  | XCall _ hit rit q => valid_order hit /\ valid_order rit /\ good_call M W ro q
  | XServer (TTimeout _ i) | XOther (TAccept i _ _) | XOther (TSend i _) | XOther (TFin i) => X i
  | XOther _ => False
  | _ => True
  end.
Lemma fair_but {U} X M W (ro : router U) hit e ls : Forall (xfair_but X M W ro) ls -> forall s, numbers_ok hit ro e s ls = true ->
  xall (xfair_with X M W ro) hit ro e s ls.
Proof.
  induction ls as [|l ls IH]; intros Hf s Hn; [done|]. apply Forall_cons in Hf as [Hl Hf]. cbn [xall numbers_ok] in *.
  apply andb_true_iff in Hn as [Hn1 Hn2]. destruct (x_step _ _ _ _ _ _) as [s'|]; [|done]. split; [|by apply IH].
  destruct l as [i f|i|i chit crit q|i m|[]|i m|l]; try done; [|by left]. split; [done|]. by apply unused_by.
Qed.

(** Strangers 7 and 8: 7 sends half a request and is silent, so that thread 0 waits; 8
    sends a request and draws the first ticket, and thread 1 waits for more.  The call
    of client 0 gets the second ticket when the time-out has ended the waiting for 7. *)
Definition xamong : list xlab :=
  [XOther (TAccept 7 6 true); XOther (TSend 7 (B "GET /")); XServer (TPop 0)] ++ recvs 0 6 ++
  [XOther (TAccept 8 7 true); XOther (TSend 8 (msg_of (map_to_list, map_to_list, ask (B "zz")))); XServer (TPop 1)] ++ recvs 1 67 ++
  [XServer (TRun 1 (WTake 99)); XConnect 0 5; call 0 (B "ab"); XFlow 0 66].
Definition xamong' : list xlab :=
  [XServer (TTimeout 0 7); XServer (TRun 0 (WTake 99)); XServer (TRecv 0); XServer (TPop 0)] ++ recvs 0 67 ++ [XServer (TRun 0 (WTake 99)); XReturn 0 50].
(** A stranger sends a line feed. *)
Definition stopped : list xlab :=
  [XConnect 0 5; call 0 (B "ab"); XFlow 0 66; XOther (TAccept 7 6 true); XOther (TSend 7 [LF]); XServer (TPop 0); XServer (TPop 1); XServer (TRecv 1); XServer (TRecv 1)].

Lemma call_with X i b : length b = 2 -> NUL ∉ b -> xfair_but X 99 (fun _ => True) ticket_ro (call i b).
Proof. intros Hl Hn. cbn [xfair_but call]. do 2 (split; [apply valid_order_sorted|]). by apply ask_good. Qed.
Lemma ab_with : xfair_but odd_peers 99 (fun _ => True) ticket_ro (call 0 (B "ab")).
Proof. apply call_with; [reflexivity|by_compute]. Qed.
Lemma big99 n : 99 <=? n = true -> big 99 (WTake n).
Proof. intros H. exists n. split; [done|]. by apply Nat.leb_le. Qed.
Ltac odd_tac := unfold odd_peers; lia.
Ltac stranger_tac :=
  first [exact I | exact ab_with | (apply big99; reflexivity) | (left; apply big99; reflexivity) | (cbn; odd_tac)].
Lemma xamong_fair : (forall s, numbers_ok map_to_list ticket_ro [] s xamong = true -> xall (xfair_with odd_peers 99 (fun _ => True) ticket_ro) map_to_list ticket_ro [] s xamong) /\
  forall s, xall (xgoes_on_with odd_peers 99 (fun _ => True) ticket_ro) map_to_list ticket_ro [] s xamong'.
Proof.
  split.
  - apply fair_but. unfold xamong, recvs. cbn [repeat app]. repeat (apply Forall_cons; split; [stranger_tac|]). apply Forall_nil; exact I.
  - intros s. apply xall_forall. unfold xamong', recvs. cbn [repeat app]. intros s1.
    repeat (apply Forall_cons; split; [split; [stranger_tac|exact I]|]). apply Forall_nil; exact I.
Qed.
Lemma xamong_numbers : numbers_ok map_to_list ticket_ro [] (x_new 2 wn) xamong = true.
Proof. by vm_compute. Qed.
Lemma xamong_run : exists s1 s2,
  x_run false map_to_list ticket_ro [] (x_new 2 wn) xamong = Some s1 /\ numbers_ok map_to_list ticket_ro [] (x_new 2 wn) xamong = true /\
  xwaiting s1 = [(0, true, 0)] /\ present s1 = 1 /\ ts_down (xs_srv s1) = false /\
  ts_workers (xs_srv s1) = [WRead true 6 (RHead (B "GET /")); WPeek 7] /\
  x_run false map_to_list ticket_ro [] s1 xamong' = Some s2 /\ xseen s2 = [(0, [B "1ab"])] /\ ts_down (xs_srv s2) = false.
Proof.
  assert (H : match x_run false map_to_list ticket_ro [] (x_new 2 wn) xamong with
    | Some s1 =>
        match x_run false map_to_list ticket_ro [] s1 xamong' with
        | Some s2 => Some (xwaiting s1, present s1, ts_down (xs_srv s1), ts_workers (xs_srv s1), xseen s2, ts_down (xs_srv s2))
        | None => None
        end
    | None => None
    end = Some ([(0, true, 0)], 1, false, [WRead true 6 (RHead (B "GET /")); WPeek 7], [(0, [B "1ab"])], false)) by (by vm_compute).
  destruct (x_run false map_to_list ticket_ro [] (x_new 2 wn) xamong) as [s1|]; [|discriminate].
  destruct (x_run false map_to_list ticket_ro [] s1 xamong') as [s2|] eqn:E; [|discriminate].
  exists s1, s2. apply Some_inj in H.
  assert (H1 := f_equal (fun x => x.1.1.1.1.1) H). assert (H2 := f_equal (fun x => x.1.1.1.1.2) H).
  assert (H3 := f_equal (fun x => x.1.1.1.2) H). assert (H4 := f_equal (fun x => x.1.1.2) H).
  assert (H5 := f_equal (fun x => x.1.2) H). assert (H6 := f_equal snd H).
  cbn [fst snd] in *. clear H. exact (conj eq_refl (conj xamong_numbers (conj H1 (conj H2 (conj H3 (conj H4 (conj E (conj H5 H6)))))))).
Qed.

Lemma goes_fair {U} X M W (ro : router U) hit e ls s : xall (xgoes_on_with X M W ro) hit ro e s ls -> xall (xfair_with X M W ro) hit ro e s ls.
Proof. apply xall_impl. by intros s' l [H _]. Qed.

Example threads_strangers_calls_are_serial_ex : exists s1 s2 log1 log2,
  x_run false map_to_list ticket_ro [] (x_new 2 wn) xamong = Some s1 /\ x_run false map_to_list ticket_ro [] s1 xamong' = Some s2 /\
  xseen s2 = [(0, [B "1ab"])] /\
  explained_with odd_peers ticket_ro wn (ts_world (xs_srv s1)) (xs_clients s1) log1 /\
  explained_with odd_peers ticket_ro wn (ts_world (xs_srv s2)) (xs_clients s2) (log1 ++ log2).
Proof.
  destruct xamong_run as (s1 & s2 & E1 & Hn & _ & _ & _ & _ & E2 & H2 & _).
  destruct (threads_strangers_calls_are_serial nat odd_peers 99 (fun _ => True) ticket_ro map_to_list [] 2 wn xamong xamong' s1 s2
    valid_order_sorted I ticket_keeps (proj1 xamong_fair _ Hn) (goes_fair _ _ _ _ _ _ _ _ (proj2 xamong_fair s1)) E1 E2) as (log1 & log2 & H3 & H4 & _).
  exists s1, s2, log1, log2. exact (conj E1 (conj E2 (conj H2 (conj H3 H4)))).
Qed.

(** Both threads are with strangers; the call of client 0 comes back nevertheless. *)
Example threads_strangers_every_call_returns_ex : exists s1 s2,
  x_run false map_to_list ticket_ro [] (x_new 2 wn) xamong = Some s1 /\ xwaiting s1 = [(0, true, 0)] /\ present s1 <= 2 /\ ts_down (xs_srv s1) = false /\
  ts_workers (xs_srv s1) = [WRead true 6 (RHead (B "GET /")); WPeek 7] /\
  (exists n, forall ls' s', xall (xgoes_on_with odd_peers 99 (fun _ => True) ticket_ro) map_to_list ticket_ro [] s1 ls' ->
    x_run false map_to_list ticket_ro [] s1 ls' = Some s' -> length ls' <= n) /\
  x_run false map_to_list ticket_ro [] s1 xamong' = Some s2 /\
  xall (xgoes_on_with odd_peers 99 (fun _ => True) ticket_ro) map_to_list ticket_ro [] s1 xamong' /\ xseen s2 = [(0, [B "1ab"])].
Proof.
  destruct xamong_run as (s1 & s2 & E1 & Hn & H1 & Hp & Hd & Hw & E2 & H2 & _).
  exists s1, s2. split; [exact E1|]. split; [exact H1|]. split; [rewrite Hp; clear; lia|]. split; [exact Hd|]. split; [exact Hw|]. split.
  { apply (threads_strangers_every_call_returns nat odd_peers 99 (fun _ => True) ticket_ro map_to_list [] 2 wn xamong s1 valid_order_sorted I
      ticket_keeps (proj1 xamong_fair _ Hn) E1). }
  split; [exact E2|]. split; [exact (proj2 xamong_fair s1)|exact H2].
Qed.

Lemma stopped_fair : xall (xfair_with odd_peers 99 (fun _ => True) ticket_ro) map_to_list ticket_ro [] (x_new 2 wn) stopped.
Proof.
  assert (Hn : numbers_ok map_to_list ticket_ro [] (x_new 2 wn) stopped = true) by (by vm_compute).
  revert Hn. apply fair_but. unfold stopped. repeat (apply Forall_cons; split; [stranger_tac|]). apply Forall_nil; exact I.
Qed.
Lemma stopped_run : exists s, x_run false map_to_list ticket_ro [] (x_new 2 wn) stopped = Some s /\ ts_down (xs_srv s) = true /\ present s = 1 /\
  map (fun x => blocked_now s x.1 x.2) (map_to_list (xs_clients s)) = [true] /\
  (fun o => match o with Some c => match cl_now c with Some _ => true | None => false end | None => false end) (xs_clients s !! 0) = true.
Proof.
  assert (H : match x_run false map_to_list ticket_ro [] (x_new 2 wn) stopped with
    | Some s => Some (ts_down (xs_srv s), present s, map (fun x => blocked_now s x.1 x.2) (map_to_list (xs_clients s)),
        (fun o => match o with Some c => match cl_now c with Some _ => true | None => false end | None => false end) (xs_clients s !! 0))
    | None => None end = Some (true, 1, [true], true)) by (by vm_compute).
  destruct (x_run false map_to_list ticket_ro [] (x_new 2 wn) stopped) as [s|]; [|discriminate]. exists s. apply Some_inj in H.
  assert (H1 := f_equal (fun x => x.1.1.1) H). assert (H2 := f_equal (fun x => x.1.1.2) H).
  assert (H3 := f_equal (fun x => x.1.2) H). assert (H4 := f_equal snd H).
  cbn [fst snd] in H1, H2, H3, H4. clear H. exact (conj eq_refl (conj H1 (conj H2 (conj H3 H4)))).
Qed.
Example only_strangers_stop_the_threads_ex : exists s l1 l l2 s1,
  x_run false map_to_list ticket_ro [] (x_new 2 wn) stopped = Some s /\ ts_down (xs_srv s) = true /\
  stopped = l1 ++ l :: l2 /\ x_run false map_to_list ticket_ro [] (x_new 2 wn) l1 = Some s1 /\ ts_down (xs_srv s1) = false /\ stops odd_peers ticket_ro s1 l.
Proof.
  destruct stopped_run as (s & E & Hd & _).
  destruct (only_strangers_stop_the_threads nat odd_peers 99 (fun _ => True) ticket_ro map_to_list [] 2 wn stopped s valid_order_sorted I ticket_keeps
    stopped_fair E Hd) as (l1 & l & l2 & s1 & H1 & H2 & H3 & H4).
  exists s, l1, l, l2, s1. exact (conj E (conj Hd (conj H1 (conj H2 (conj H3 H4))))).
Qed.

(** ** What is not so *)

(** C181 for any number of clients. *)
Definition threads_every_call_returns_full : Prop :=
  forall U M (W : world U -> Prop) (ro : router U) hit e m w ls s,
  valid_order hit -> W w -> Forall (xfair M W ro) ls -> x_run false hit ro e (x_new m w) ls = Some s -> 0 < m ->
  (forall l, xgoes_on M W ro l -> x_step false hit ro e s l = None) ->
  forall i c, xs_clients s !! i = Some c -> cl_now c = None.

(** One thread; client 0 has connected and is silent; client 1 waits for ever. *)
Definition crowd : list xlab := [XConnect 0 5; XConnect 1 6; XServer (TPop 0); call 1 (B "cd"); XFlow 1 66].
Theorem threads_every_call_returns_refuted : ~ threads_every_call_returns_full.
Proof.
  intros Hfull.
  assert (Hf : Forall (xfair 99 (fun _ => True) ticket_ro) crowd) by (unfold crowd; xfair_tac).
  assert (H : match x_run false map_to_list ticket_ro [] (x_new 1 wn) crowd with
    | Some s => Some (ts_workers (xs_srv s), conn_of (xs_srv s) 5,
                      map (fun x => (cl_flight x.2, blocked_now s x.1 x.2)) (map_to_list (xs_clients s)),
                      (fun o => match o with Some c => match cl_now c with Some _ => true | None => false end | None => false end) (xs_clients s !! 1))
    | None => None
    end = Some ([WPeek 5], Some (0, tconn_new), [([], true); ([], true)], true)) by (by vm_compute).
  destruct (x_run false map_to_list ticket_ro [] (x_new 1 wn) crowd) as [s|] eqn:E; [|discriminate].
  apply Some_inj in H.
  assert (H1 := f_equal (fun x => x.1.1.1) H). assert (H2 := f_equal (fun x => x.1.1.2) H).
  assert (H3 := f_equal (fun x => x.1.2) H). assert (H4 := f_equal snd H). cbn [fst snd] in H1, H2, H3, H4. clear H.
  assert (Hst : forall l, xgoes_on 99 (fun _ => True) ticket_ro l -> x_step false map_to_list ticket_ro [] s l = None).
  { apply (stuck_if 99 (fun _ => True) ticket_ro map_to_list [] s 5 0 tconn_new H1 H2 eq_refl eq_refl).
    clear -H3. generalize dependent (blocked_now s). intros g. generalize (map_to_list (xs_clients s)). intros l H.
    destruct l as [|x [|y [|z l]]]; [discriminate|discriminate| |discriminate].
    cbn [map] in H. injection H as A1 A2 A3 A4. constructor; [exact (conj A1 A2)|]. constructor; [exact (conj A3 A4)|constructor]. }
  specialize (Hfull nat 99 (fun _ => True) ticket_ro map_to_list [] 1 wn crowd s valid_order_sorted I Hf E Nat.lt_0_1 Hst 1).
  destruct (xs_clients s !! 1) as [c|]; [|discriminate]. specialize (Hfull c eq_refl). rewrite Hfull in H4. discriminate.
Qed.

(** C180 in mode kMixed. *)
Definition mixed_calls_are_serial_full : Prop :=
  forall U M (W : world U -> Prop) (ro : router U) hit e m w ls s,
  valid_order hit -> W w -> Forall (xfair M W ro) ls -> x_run true hit ro e (x_new m w) ls = Some s ->
  exists log, xexplains ro w s log.

Lemma serial_event {U} (ro : router U) w0 log w x : serial ro w0 log w -> x ∈ log -> exists c' w1 w2,
  dispatch ro (rt_path (rq_route x.1.2)) (ctx_new x.1.2 resp_new) w1 = Ok (c', w2) /\ x.2 = reply (cx_resp c').
Proof.
  intros H. induction H as [|log w i r c' w' H IH Hd]; intros Hx; [by apply elem_of_nil in Hx|].
  apply elem_of_app in Hx as [Hx|Hx]; [by apply IH|]. apply elem_of_list_singleton in Hx as ->. by exists c', w, w'.
Qed.

(** The only call of client 0 has been answered with 400: no order explains that. *)
Definition refused {U} (s : xsys U) : option (status_code * bytes * nat) :=
  match xs_clients s !! 0 with
  | Some c => match cl_done c with [Ok y] => Some (rs_status (st_resp y), rt_path (rq_route (hd req_new (cl_calls c))), length (cl_calls c)) | _ => None end
  | None => None end.
Lemma not_explained X w0 (s : xsys nat) log : refused s = Some (sBAD_REQUEST, B "/t", 1) ->
  explained_with X ticket_ro w0 (ts_world (xs_srv s)) (xs_clients s) log -> False.
Proof.
  unfold refused. intros H (Hser & _ & Hx).
  destruct (xs_clients s !! 0) as [c|] eqn:Ec; [|discriminate]. destruct (Hx 0 c Ec) as (Hlen & _ & Hq & Hr). clear Hx.
  destruct (cl_done c) as [|[y| | | | |] [|]] eqn:Ed; try discriminate H. apply Some_inj in H.
  assert (H1 := f_equal (fun x => x.1.1) H). assert (H2 := f_equal (fun x => x.1.2) H). assert (H3 := f_equal snd H). cbn [fst snd] in H1, H2, H3. clear H.
  cbn [length] in Hlen, Hr. destruct (of_client 0 log) as [|x l] eqn:Eo; [cbn in Hlen; lia|].
  assert (Hin : x ∈ log).
  { assert (Hi : x ∈ of_client 0 log) by (rewrite Eo; left). by apply elem_of_list_filter in Hi as [_ Hi]. }
  destruct (serial_event _ _ _ _ _ Hser Hin) as (c' & w1 & w2 & Hd & Hp).
  destruct (cl_calls c) as [|q [|]]; [discriminate| |discriminate]. cbn [hd] in H2.
  assert (Hsame : same_request q x.1.2).
  { cbn [length take] in Hq. by apply Forall2_cons in Hq as [Hq _]. }
  destruct Hsame as (_ & _ & Hrt & _). rewrite <- Hrt in H2. rewrite H2 in Hd. rewrite ticket_dispatch in Hd by by_compute.
  unfold ticket in Hd. injection Hd as <- _. cbn [cx_resp ctx_set_resp] in Hp. unfold reply in Hp. cbn [rs_status] in Hp. rewrite decide_False in Hp by done.
  cbn [take] in Hr. apply Forall2_cons in Hr as [(y' & Ey & _ & Hs) _]. injection Ey as <-. destruct Hs as (Hs & _). rewrite Hp in Hs. cbn [rs_status] in Hs.
  congruence.
Qed.

(** A single client, one call: epoll reports the connection twice, and the two threads
    share the bytes of the request, so that the client is told that it was wrong. *)
Definition shared : list xlab :=
  [XConnect 0 5; call 0 (B "ab"); XFlow 0 66; XServer (TNotify 5); XServer (TNotify 5); XServer (TPop 0); XServer (TPop 1)] ++
  recvs 0 1 ++ recvs 1 63 ++ [XServer (TRun 1 (WTake 999)); XReturn 0 500].
Theorem mixed_calls_are_serial_refuted : ~ mixed_calls_are_serial_full.
Proof.
  intros Hfull.
  assert (Hf : Forall (xfair 99 (fun _ => True) ticket_ro) shared) by (unfold shared; xfair_tac).
  assert (H : match x_run true map_to_list ticket_ro [] (x_new 2 wn) shared with Some s => refused s | None => None end = Some (sBAD_REQUEST, B "/t", 1)) by (by vm_compute).
  destruct (x_run true map_to_list ticket_ro [] (x_new 2 wn) shared) as [s|] eqn:E; [|discriminate].
  destruct (Hfull nat 99 (fun _ => True) ticket_ro map_to_list [] 2 wn shared s valid_order_sorted I Hf E) as (log & Hx).
  exact (not_explained nobody wn s log H Hx).
Qed.

(** C197 when the connection of a client may get any number that is free in the kernel. *)
Definition xfair_any {U} (X : nat -> Prop) (M : nat) (W : world U -> Prop) (ro : router U) (s : xsys U) (l : xlab) : Prop :=
  match l with XConnect i _ => ~ X i | _ => xfair_with X M W ro s l end.
Definition threads_strangers_any_number_full : Prop :=
  forall U (X : nat -> Prop) M (W : world U -> Prop) (ro : router U) hit e m w ls s,
  valid_order hit -> W w -> keeps W ro -> xall (xfair_any X M W ro) hit ro e (x_new m w) ls ->
  x_run false hit ro e (x_new m w) ls = Some s ->
  exists log, explained_with X ro w (ts_world (xs_srv s)) (xs_clients s) log.

(** Stranger 7 is told that its request was wrong, and its connection, number 5, is
    closed; thread 0 goes on with number 5.  Client 0 is accepted and gets number 5: two
    threads share the bytes of its request. *)
Definition second_hand : list xlab :=
  [XOther (TAccept 7 5 true); XOther (TSend 7 (B "GET" ++ CRLFCRLF)); XServer (TPop 0)] ++ recvs 0 8 ++
  [XServer (TRun 0 (WTake 999)); XConnect 0 5; call 0 (B "ab"); XFlow 0 66; XServer (TPop 1)] ++
  recvs 0 2 ++ recvs 1 64 ++ [XServer (TRun 1 (WTake 999)); XReturn 0 500].
Theorem threads_strangers_any_number_refuted : ~ threads_strangers_any_number_full.
Proof.
  intros Hfull.
  assert (Hf : forall s, xall (xfair_any odd_peers 99 (fun _ => True) ticket_ro) map_to_list ticket_ro [] s second_hand).
  { intros s. apply xall_forall. unfold second_hand, recvs. cbn [repeat app]. intros s1.
    repeat (apply Forall_cons; split; [stranger_tac|]). apply Forall_nil; exact I. }
  assert (H : match x_run false map_to_list ticket_ro [] (x_new 2 wn) second_hand with Some s => refused s | None => None end = Some (sBAD_REQUEST, B "/t", 1)) by (by vm_compute).
  destruct (x_run false map_to_list ticket_ro [] (x_new 2 wn) second_hand) as [s|] eqn:E; [|discriminate].
  destruct (Hfull nat odd_peers 99 (fun _ => True) ticket_ro map_to_list [] 2 wn second_hand s valid_order_sorted I ticket_keeps (Hf _) E) as (log & Hx).
  exact (not_explained odd_peers wn s log H Hx).
Qed.

(** C198 without the proviso that the process has not ended. *)
Definition threads_strangers_every_call_returns_full : Prop :=
  forall U (X : nat -> Prop) M (W : world U -> Prop) (ro : router U) hit e m w ls s,
  valid_order hit -> W w -> keeps W ro -> xall (xfair_with X M W ro) hit ro e (x_new m w) ls -> x_run false hit ro e (x_new m w) ls = Some s ->
  (forall l, xgoes_on_with X M W ro s l -> x_step false hit ro e s l = None) -> present s <= m ->
  forall i c, xs_clients s !! i = Some c -> cl_now c = None.

Lemma stuck_down {U} (ro : router U) hit e (s : xsys U) :
  ts_down (xs_srv s) = true ->
  Forall (fun x => blocked_now s x.1 x.2 = true) (map_to_list (xs_clients s)) ->
  forall l, no_news l -> x_step false hit ro e s l = None.
Proof.
  intros Hd Hcl l Hgo.
  assert (Hc : forall j c, xs_clients s !! j = Some c -> blocked_now s j c = true).
  { intros j c Hj. rewrite Forall_forall in Hcl. by apply (Hcl (j, c)), elem_of_map_to_list. }
  assert (Ht : forall tl, t_step false hit ro e (xs_srv s) tl = None) by (intros tl; unfold t_step; by rewrite Hd).
  destruct l as [j g|j|j h r q|j n|l|j n|l]; try done; cbn [x_step].
  - destruct (xs_clients s !! j) as [c|]; [|done]. cbn [mbind option_bind]. case_decide; [|done]. by rewrite Ht.
  - destruct l; try done; by rewrite Ht.
  - destruct (xs_clients s !! j) as [c|] eqn:Ej; [|done]. pose proof (Hc j c Ej) as E. cbn [mbind option_bind].
    unfold blocked_now in E. destruct (cl_now c) as [[[h r] q]|]; [|done]. cbn [mbind option_bind].
    destruct (ts_conns (xs_srv s) !! j) as [kj|]; [|done]. cbn [mbind option_bind]. destruct (tn_sent kj); [|done].
    apply andb_true_iff in E as [E1 E2]. rewrite drop_nil, take_nil, E1. cbn [orb map].
    by destruct (client_send _ _ _ _ _ _ _).
Qed.
Theorem threads_strangers_every_call_returns_refuted : ~ threads_strangers_every_call_returns_full.
Proof.
  intros Hfull. destruct stopped_run as (s & E & Hd & Hp & Hcl & Hw).
  assert (Hst : forall l, xgoes_on_with odd_peers 99 (fun _ => True) ticket_ro s l -> x_step false map_to_list ticket_ro [] s l = None).
  { intros l [_ Hl]. apply (stuck_down ticket_ro map_to_list [] s Hd); [|by destruct l]. clear -Hcl. generalize dependent (blocked_now s). intros g.
    generalize (map_to_list (xs_clients s)). intros l0 H. destruct l0 as [|x [|]]; [discriminate| |discriminate].
    cbn [map] in H. injection H as A1. constructor; [exact A1|constructor]. }
  specialize (Hfull nat odd_peers 99 (fun _ => True) ticket_ro map_to_list [] 2 wn stopped s valid_order_sorted I ticket_keeps stopped_fair E Hst).
  rewrite Hp in Hfull. specialize (Hfull ltac:(lia) 0).
  destruct (xs_clients s !! 0) as [c|]; [|discriminate]. specialize (Hfull c eq_refl). rewrite Hfull in Hw. discriminate.
Qed.

Print Assumptions threads_calls_are_serial.
Print Assumptions threads_every_call_returns.
Print Assumptions threads_every_call_returns_refuted.
Print Assumptions mixed_calls_are_serial_refuted.
Print Assumptions threads_strangers_calls_are_serial.
Print Assumptions threads_strangers_every_call_returns.
Print Assumptions only_strangers_stop_the_threads.
Print Assumptions threads_strangers_any_number_refuted.
Print Assumptions threads_strangers_every_call_returns_refuted.
