(** C191-C193: an HTTPS server and all its clients (HttpClient after InitSSL, HttpServer
    after InitSSL on TcpServer). *)
From Verif.Lib Require Import CxxStringFacts.
From Verif.Spec Require Import SslSpec.
From Verif.Proof Require Import ReqProof ServerProof SslProof HttpSystemProof HttpsSystemProof StrangerProof StrangerTlsProof.
From Verif.Props Require Import MessageProps RouterProps ServerProps SslProps ClientProps HttpSystemProps HttpsSystemProps ClientTlsProps ClientServerProps.
From Verif.Model Require Import ClientServerTls.
Import HttpSystemProps.

(** ** Statements (see ClientServerProps.v) *)

(** Good calls; the server's write to a client takes [M] bytes; strangers [X] do what they
    like, and the receive time-out ends only the waiting for them. *)
Definition yfair_with {U} (X : nat -> Prop) (M : nat) (W : world U -> Prop) (ro : router U) (l : ylab) : Prop :=
  match l with
  | YConnect i => ~ X i
  | YCall _ hit rit q => valid_order hit /\ valid_order rit /\ good_call M W ro q
  | YServer (XServe i _ wr) | YServer (XResume i wr) => X i \/ big M wr
  | YServer (XTimeout i _) | YOther (XOpen i) | YOther (XHello i _) | YOther (XSend i _) | YOther (XFin i) => X i
  | YServer (XShake _) => True
  | YServer _ | YOther _ => False
  | _ => True
  end.
(** Steps that are neither a peer that comes or goes nor a new call nor something that a
    stranger does. *)
Definition ygoes_on_with {U} (X : nat -> Prop) (M : nat) (W : world U -> Prop) (ro : router U) (l : ylab) : Prop :=
  yfair_with X M W ro l /\ match l with YConnect _ | YClose _ | YCall _ _ _ _ | YOther _ => False | _ => True end.

(** ** Proofs *)

(** *** The two ends *)

Lemma tl_size_recs b rs m t : m = [] \/ m = [SGap] -> tl_size (Tls b ((Rec <$> rs) ++ m) t) = length b + length (concat rs).
Proof.
  intros Hm. unfold tl_size. cbn [tl_buf tl_items]. f_equal. induction rs as [|r rs IH].
  - by destruct Hm as [-> | ->].
  - rewrite fmap_cons. cbn. by rewrite app_length, IH.
Qed.
Lemma tl_size_records t : tl_size t = length (tl_buf t ++ concat (records_of (tl_items t))).
Proof.
  unfold tl_size. rewrite app_length. f_equal. induction (tl_items t) as [|[b|] l IH]; [done| |exact IH].
  change (records_of (Rec b :: l)) with (b :: records_of l). cbn. by rewrite app_length, IH.
Qed.
Lemma recs_stream rs t : tls_stream (Tls [] (Rec <$> rs) t) = Stream (map Byte (concat rs)) t.
Proof. unfold tls_stream. cbn [tl_buf tl_items tl_tail]. by rewrite flat_recs. Qed.

Section ends.
Context {U : Type} (M : nat) (W : world U -> Prop) (ro : router U) (hit : iter_order) (e : bytes).
Context (Hit : valid_order hit).

Lemma tls_server_whole x wr w rs : W w -> valid_order x.1.1 -> valid_order x.1.2 -> good_call M W ro x.2 -> big M wr ->
  filled rs -> concat rs = msg_of x ->
  exists c' w', dispatch ro (rt_path (rq_route (built_req x.2))) (ctx_new (built_req x.2) resp_new) w = Ok (c', w') /\ W w' /\
    good_reply (reply (cx_resp c')) /\
    handle_read_tls hit wr ro e w (Tls [] ((Rec <$> rs) ++ []) Wait) =
      Ok (Served w' (Stream [] Wait) [text_of hit (reply (cx_resp c'))] (text_of hit (reply (cx_resp c'))) false, Tls [] [] Wait).
Proof.
  intros HW Hh Hr Hg Hwr Hfi Hms. rewrite app_nil_r.
  destruct (server_whole M W ro hit e Hit x wr w [] Wait HW Hh Hr Hg Hwr) as (c' & w' & Hd & HW' & Hgr & Hx).
  exists c', w'. do 3 (split; [done|]). rewrite app_nil_r in Hx.
  pose proof (handle_read_tls_calm hit wr ro e w (Tls [] (Rec <$> rs) Wait) (msg_of x)) as Hc.
  rewrite recs_stream, Hms in Hc. specialize (Hc eq_refl). rewrite Hx in Hc.
  destruct (handle_read_tls _ _ _ _ _ _) as [[v t]| | | | |] eqn:E; try done. destruct Hc as [Hv Ht]. injection Hv as <-.
  cbn [sv_rest] in Ht.
  destruct (aligned_cut rs [] t Wait) as [E1 E2]; [by rewrite app_nil_r| |done|].
  - eapply handle_read_tls_within; [|exact E]. left. cbn [tl_buf tl_items]. split; [done|]. exists []. by rewrite app_nil_r.
  - do 2 f_equal. destruct t as [tb ti tt]. cbn [tl_buf tl_items] in *. subst. unfold tls_stream in Ht. cbn in Ht. by injection Ht as ->.
Qed.
Lemma tls_server_piece x wr w rs b' : W w -> valid_order x.1.1 -> valid_order x.1.2 -> good_call M W ro x.2 -> big M wr ->
  concat rs ++ b' = msg_of x -> b' <> [] -> handle_read_tls hit wr ro e w (Tls [] ((Rec <$> rs) ++ []) Wait) = Blocked.
Proof.
  intros HW Hh Hr Hg Hwr Hb Hne. rewrite app_nil_r.
  pose proof (server_piece M W ro hit e Hit x wr w (concat rs) b' HW Hh Hr Hg Hwr Hb Hne) as Hx.
  pose proof (handle_read_tls_calm hit wr ro e w (Tls [] (Rec <$> rs) Wait) (concat rs) (recs_stream rs Wait)) as Hc.
  rewrite recs_stream, Hx in Hc. destruct (handle_read_tls _ _ _ _ _ _) as [[v t]| | | | |]; try done. by destruct Hc.
Qed.
Lemma tls_server_leave wr w : handle_read_tls hit wr ro e w (Tls [] ((Rec <$> []) ++ []) Eof) =
  Ok (Served w (Stream [] Eof) [] [] true, Tls [] [] Eof).
Proof. reflexivity. Qed.

Lemma call_short x : valid_order x.1.1 -> valid_order x.1.2 -> good_call M W ro x.2 -> short (snd (req_build x.1.1 x.1.2 x.2 [])).
Proof. intros H1 H2 Hg. by apply (gc_short _ _ _ _ Hg). Qed.

Lemma tls_client_whole x p rs : valid_order x.1.1 -> valid_order x.1.2 -> good_call M W ro x.2 -> good_reply p -> concat rs = text_of hit p ->
  exists y t, client_send_tls x.1.1 x.1.2 SwAll x.2 resp_new (Tls [] (Rec <$> rs) Wait) = Ok (y, t) /\
    st_rc y = kSuccess /\ same_response p (st_resp y) /\ tl_size t = 0.
Proof.
  intros H1 H2 Hg Hp Hrs. destruct (client_whole M W ro hit e Hit x p [] Wait Hg Hp) as (y' & Hy & Hrc & Hsame & Hrest).
  pose proof (https_send_same x.1.1 x.1.2 x.2 resp_new (Tls [] (Rec <$> rs) Wait) (call_short x H1 H2 Hg)) as H. cbv zeta in H.
  change (snd (req_build x.1.1 x.1.2 x.2 [])) with (msg_of x) in H. rewrite recs_stream, Hrs in H. rewrite app_nil_r in Hy. rewrite Hy in H.
  destruct (client_send_tls _ _ _ _ _ _) as [[y t]| | | | |]; try done. destruct H as [(E1 & _ & E3 & _) E4].
  exists y, t. split; [done|]. split; [congruence|]. split; [by rewrite E3|]. rewrite tl_size_stream, E4 by congruence. by rewrite Hrest.
Qed.
Lemma tls_client_blocked x rs b : valid_order x.1.1 -> valid_order x.1.2 -> good_call M W ro x.2 -> concat rs = b ->
  client_send true x.1.1 x.1.2 (WTake (length (msg_of x))) x.2 resp_new (Stream (map Byte b) Wait) = Blocked ->
  client_send_tls x.1.1 x.1.2 SwAll x.2 resp_new (Tls [] (Rec <$> rs) Wait) = Blocked.
Proof.
  intros H1 H2 Hg Hrs Hb.
  pose proof (https_send_same x.1.1 x.1.2 x.2 resp_new (Tls [] (Rec <$> rs) Wait) (call_short x H1 H2 Hg)) as H. cbv zeta in H.
  change (snd (req_build x.1.1 x.1.2 x.2 [])) with (msg_of x) in H. rewrite recs_stream, Hrs, Hb in H.
  by destruct (client_send_tls _ _ _ _ _ _) as [[y t]| | | | |].
Qed.
End ends.

(** *** Runs *)

Section runs.
Context {U : Type} (X : nat -> Prop) (M : nat) (W : world U -> Prop) (ro : router U) (hit : iter_order) (e : bytes).
Context (Hit : valid_order hit) (Hkeep : forall i, X i -> keeps W ro).
Implicit Types (c : client) (k : tconn) (s : ysys U).

(** Where a client and its connection are. *)
Inductive yphase (i : nat) c k (mine : list event) : Prop :=
| YIdle :
    cl_now c = None -> cl_flight c = [] -> tn_wire k = [] -> cl_read c = length (tn_sent k) ->
    length mine = length (cl_done c) -> length (cl_calls c) = length (cl_done c) -> yphase i c k mine
| YAsk x qs :
    cl_now c = Some x -> valid_order x.1.1 -> valid_order x.1.2 -> good_call M W ro x.2 ->
    concat (tn_wire k) ++ cl_flight c = msg_of x -> cl_read c = length (tn_sent k) ->
    length mine = length (cl_done c) -> cl_calls c = qs ++ [x.2] -> length qs = length (cl_done c) -> yphase i c k mine
| YTold x before r p :
    cl_now c = Some x -> valid_order x.1.1 -> valid_order x.1.2 -> good_call M W ro x.2 -> good_reply p ->
    cl_flight c = [] -> tn_wire k = [] -> cl_read c <= length (tn_sent k) -> drop (cl_read c) (tn_sent k) = text_of hit p ->
    mine = before ++ [(i, r, p)] -> length before = length (cl_done c) -> length (cl_calls c) = S (length (cl_done c)) ->
    yphase i c k mine.

(** The connection of a client: nothing is left in OpenSSL's buffer, no record is empty,
    the handshake is good, and the server has not closed it. *)
Record yclean c k : Prop := {
  yl_open : tn_fin k = false -> tn_open k = true; yl_fin : tn_fin k = true -> cl_now c = None;
  yl_buf : tn_buf k = []; yl_filled : filled (tn_wire k);
  yl_hello : tn_hello k <> Some false; yl_call : is_Some (cl_now c) -> tn_hello k = Some true }.
Definition ylocal (i : nat) (oc : option client) (ok : option tconn) (mine : list event) : Prop :=
  match oc, ok with
  | None, None => mine = []
  | None, Some k => X i
  | Some c, Some k => ~ X i /\ yclean c k /\ yphase i c k mine /\ seen_reqs c mine /\ seen_resps c mine
  | _, _ => False
  end.
(** A client that has something to do has not left. *)
Lemma ylocal_live i c k mine : ylocal i (Some c) (Some k) mine -> is_Some (cl_now c) \/ tn_wire k <> [] \/ cl_flight c <> [] ->
  tn_open k = true /\ tn_fin k = false /\ tn_hello k = Some true /\ is_Some (cl_now c) /\ yphase i c k mine.
Proof.
  intros (_ & Hcl & Hp & Hq & Hr) H.
  assert (Hn : is_Some (cl_now c)).
  { destruct H as [H|H]; [done|]. destruct Hp as [_ H4 H5 _ _ _|x qs H3 _ _ _ _ _ _ _ _|x bf r p H3 _ _ _ _ _ _ _ _ _ _ _]; [|by rewrite H3..].
    by destruct H. }
  destruct Hcl as [Ho Hf _ _ _ Hc]. destruct (tn_fin k); [rewrite Hf in Hn by done; by destruct Hn|]. split; [by apply Ho|]. auto.
Qed.

(** The thread waits for somebody. *)
Definition ybusy s j k : Prop :=
  tn_open k = true /\ (tn_wire k <> [] \/ tn_fin k = true) /\ (is_Some (ys_clients s !! j) -> tn_wire k <> []).
Definition ythr_ok s : Prop :=
  match xs_thr (ys_sys s) with
  | XFree => True
  | XHand j => exists k, xs_conns (ys_sys s) !! j = Some k /\ tn_open k = true
  | XIn j => exists k, xs_conns (ys_sys s) !! j = Some k /\ ybusy s j k
  | XDown => exists i, X i
  end.
Definition yinv w0 s log : Prop :=
  (serial ro w0 log (xs_world (ys_sys s)) /\ W (xs_world (ys_sys s))) /\
  (forall i, ylocal i (ys_clients s !! i) (xs_conns (ys_sys s) !! i) (of_client i log)) /\ ythr_ok s.

Lemma yinv_explains w0 s log : yinv w0 s log -> explained_with X ro w0 (xs_world (ys_sys s)) (ys_clients s) log.
Proof.
  intros ((Hs & _) & Hl & _). split; [done|]. split.
  - apply Forall_forall. intros x Hx. specialize (Hl x.1.1). destruct (ys_clients s !! x.1.1) as [c|]; [by right|].
    cbn [ylocal] in Hl. destruct (xs_conns (ys_sys s) !! x.1.1); [by left|].
    assert (Hi : x ∈ of_client x.1.1 log) by (by apply elem_of_list_filter). rewrite Hl in Hi. by apply elem_of_nil in Hi.
  - intros i c Hc. specialize (Hl i). rewrite Hc in Hl. cbn [ylocal] in Hl.
    destruct (xs_conns (ys_sys s) !! i) as [k|]; [|done]. destruct Hl as (_ & _ & Hp & H1 & H2).
    split; [|split; [|done]].
    + destruct Hp as [H3 H4 H5 H6 H7 H8|x qs H3 H4 H5 H6 H7 H8 H9 H10 H11|x bf r p H3 H4 H5 H6 H6b H7 H8 H8b H9 H10 H11 H12];
        rewrite ?H10, ?app_length; cbn [length]; lia.
    + destruct Hp as [H3 H4 H5 H6 H7 H8|x qs H3 H4 H5 H6 H7 H8 H9 H10 H11|x bf r p H3 H4 H5 H6 H6b H7 H8 H8b H9 H10 H11 H12];
        rewrite ?H10, ?app_length; cbn [length]; lia.
Qed.

(** What the server does with a request that has arrived, in part or as a whole. *)
Lemma yserve_asked w0 s log i c k wr : yinv w0 s log -> big M wr ->
  ys_clients s !! i = Some c -> xs_conns (ys_sys s) !! i = Some k -> tn_wire k <> [] ->
  let h := xread hit ro e wr [] i k (ys_sys s) in
  (cl_flight c <> [] /\ h = XSys (xs_world (ys_sys s)) (XIn i) (xs_conns (ys_sys s))) \/
  (cl_flight c = [] /\ xs_thr h = XFree /\
   (exists k', xs_conns h = <[i := k']> (xs_conns (ys_sys s)) /\ pending k' = [] /\ tn_hello k' = tn_hello k /\ tn_open k' = true) /\
   exists x, yinv w0 (YSys h (ys_clients s)) (log ++ [x])).
Proof.
  intros ((Hser & HW) & Hl & Ht) Hwr Hc Hk Hne h. pose proof (Hl i) as Hli. rewrite Hc, Hk in Hli.
  pose proof Hli as (HX & Hcl & _ & Hq & Hr).
  apply ylocal_live in Hli as (Ho & Hf & Hhe & _ & Hp); [|by right; left].
  destruct Hp as [_ _ H5 _ _ _|x qs H3 H4 H5 H6 H7 H8 H9 H10 H11|x bf r p _ _ _ _ _ _ H7 _ _ _ _ _]; [done| |done].
  destruct Hcl as [Hc1 Hc2 Hc3 Hc4 Hc5 Hc6].
  destruct (cl_flight c) as [|ch fl] eqn:Ef.
  2: { left. split; [done|]. unfold h, xread. rewrite Hf, Hc3.
    by rewrite (tls_server_piece M W ro hit e Hit x wr _ (tn_wire k) (ch :: fl) HW H4 H5 H6 Hwr H7). }
  right. split; [done|]. rewrite app_nil_r in H7.
  destruct (tls_server_whole M W ro hit e Hit x wr (xs_world (ys_sys s)) (tn_wire k) HW H4 H5 H6 Hwr Hc4 H7) as (c' & w' & Hd & HW' & Hg & Hh).
  set (k' := TConn [] [] false (tn_hello k) (tn_est k) true (tn_out k ++ [text_of hit (reply (cx_resp c'))])
    (tn_sent k ++ text_of hit (reply (cx_resp c')))).
  assert (Eh : h = XSys w' XFree (<[i := k']> (xs_conns (ys_sys s)))).
  { unfold h, xread. rewrite Hf, Hc3, Hh. done. }
  rewrite Eh. cbn [xs_thr xs_conns]. split; [done|].
  split; [by exists k'|].
  exists (i, built_req x.2, reply (cx_resp c')). split; [split; [by eapply (serial_snoc ro w0 log (xs_world (ys_sys s)))|exact HW']|].
  split; [|done]. intros j. cbn [ys_clients ys_sys xs_conns]. rewrite of_client_snoc. cbn [fst].
  case_decide as Hij.
  2: { rewrite app_nil_r, lookup_insert_ne by done. apply Hl. }
  subst j. rewrite Hc, lookup_insert. cbn [ylocal]. split; [done|]. split; [split; try done; constructor|]. split.
  - apply (YTold i c _ _ x (of_client i log) (built_req x.2) (reply (cx_resp c'))); try done; cbn [k' tn_sent].
    + rewrite app_length. lia.
    + rewrite H8. by rewrite drop_app.
    + rewrite H10, app_length. cbn [length]. lia.
  - split.
    + unfold seen_reqs in *. rewrite app_length. cbn [length]. rewrite H10 in *. rewrite H9, <- H11 in *.
      rewrite take_app in Hq. rewrite take_ge by (rewrite app_length; cbn; lia).
      apply Forall2_app; [done|]. constructor; [|constructor]. cbn [fst snd]. apply built_same.
    + unfold seen_resps in *. rewrite take_app_le by lia. done.
Qed.

(** What it does with what a stranger sent. *)
Lemma yserve_other w0 s log i k wr m : yinv w0 s log -> ys_clients s !! i = None -> xs_conns (ys_sys s) !! i = Some k ->
  tn_open k = true -> tn_wire k <> [] \/ tn_fin k = true -> m = [] \/ m = [SGap] ->
  let h := xread hit ro e wr m i k (ys_sys s) in
  X i /\ (m = [SGap] -> xs_thr h <> XIn i) /\
  (h = XSys (xs_world (ys_sys s)) (XIn i) (xs_conns (ys_sys s)) \/
   h = XSys (xs_world (ys_sys s)) XDown (xs_conns (ys_sys s)) \/
   xs_thr h = XFree /\
   exists k', xs_conns h = <[i := k']> (xs_conns (ys_sys s)) /\ tn_hello k' = tn_hello k /\
     length (pending k') <= length (pending k) /\ (tn_open k' = false \/ length (pending k') < length (pending k))) /\
  exists log2, yinv w0 (YSys h (ys_clients s)) (log ++ log2).
Proof.
  intros ((Hser & HW) & Hl & Ht) Hc Hk Ho Hin Hm h. pose proof (Hl i) as HX. rewrite Hc, Hk in HX. cbn [ylocal] in HX.
  pose proof (Hkeep i HX) as Hke. split; [done|].
  assert (Hdown : exists log2, yinv w0 (YSys (XSys (xs_world (ys_sys s)) XDown (xs_conns (ys_sys s))) (ys_clients s)) (log ++ log2)).
  { exists []. rewrite app_nil_r. split; [done|]. split; [done|]. by exists i. }
  unfold h, xread. set (st := Tls _ _ _).
  destruct (handle_read_tls hit wr ro e (xs_world (ys_sys s)) st) as [[v t]| | | | |] eqn:E.
  - cbn [xs_thr xs_conns]. split; [done|]. pose proof E as E'. apply handle_read_tls_what in E' as (Hw & Hle & Hlt).
    unfold st in Hle, Hlt. rewrite tl_size_recs, tl_size_records in Hle, Hlt by done.
    rewrite <- (app_length (tn_buf k)) in Hle, Hlt. fold (pending k) in Hle, Hlt. split.
    + right. right. split; [done|]. eexists. split; [done|]. split; [done|]. 
      unfold pending in Hle, Hlt |- *. cbn [tn_buf tn_wire tn_open]. split; [done|]. destruct Hlt as [-> |Hlt]; [by left|by right].
    + assert (Hw' : W (sv_world v) /\ exists log2, serial ro w0 (log ++ log2) (sv_world v) /\ Forall (fun x => x.1.1 = i) log2).
      { destruct Hw as [-> |(r & c' & Hd)]; [split; [done|]; exists []; by rewrite app_nil_r|].
        split; [specialize (Hke r _ HW); by rewrite Hd in Hke|]. exists [(i, r, reply (cx_resp c'))]. split; [by eapply serial_snoc|].
        by repeat constructor. }
      destruct Hw' as (HW' & log2 & Hs2 & Hf2). exists log2. split; [done|]. split; [|done].
      intros j. cbn [ys_clients ys_sys xs_conns]. destruct (decide (i = j)) as [<-|Hij]; [by rewrite Hc, lookup_insert|].
      rewrite lookup_insert_ne by done. rewrite (of_client_other i j) by done. apply Hl.
  - split; [done|]. split; [by right; left|done].
  - split; [done|]. split; [by right; left|done].
  - split; [done|]. split; [by right; left|done].
  - split.
    { intros ->. exfalso. revert E. apply (handle_read_tls_gives_up _ _ _ _ _ _ (pending k) (if tn_fin k then Eof else Wait)).
      - unfold st, tls_stream, pending. cbn [tl_buf tl_items tl_tail]. f_equal. unfold flat. rewrite bind_app.
        change (Rec <$> tn_wire k ≫= _) with (flat (Rec <$> tn_wire k)). rewrite flat_recs, map_app. by rewrite <- app_assoc.
      - intros r Hd. specialize (Hke r _ HW). by rewrite Hd in Hke. }
    split; [by left|]. exists []. rewrite app_nil_r. split; [done|]. split; [done|]. exists k. split; [done|]. split; [done|]. split; [done|].
    cbn [ys_clients]. rewrite Hc. by intros [? ?].
  - split; [done|]. split; [by right; left|done].
Qed.

Lemma yphase_conn i c k k' mine : yphase i c k mine -> tn_wire k' = tn_wire k -> tn_sent k' = tn_sent k -> yphase i c k' mine.
Proof.
  intros Hp Hw Hs.
  destruct Hp as [H3 H4 H5 H6 H7 H8|x qs H3 H4 H5 H6 H7 H8 H9 H10 H11|x bf r p H3 H4 H5 H6 H6b H7 H8 H8b H9 H10 H11 H12].
  - apply YIdle; rewrite ?Hw, ?Hs; done.
  - apply (YAsk i c k' mine x qs); rewrite ?Hw, ?Hs; done.
  - apply (YTold i c k' mine x bf r p); rewrite ?Hw, ?Hs; done.
Qed.
(** One connection changes, and perhaps its client. *)
Lemma yinv_one w0 s log i k' cls' thr : yinv w0 s log -> (forall j, i <> j -> cls' !! j = ys_clients s !! j) ->
  ylocal i (cls' !! i) (Some k') (of_client i log) -> ythr_ok (YSys (xwith (ys_sys s) thr i k') cls') ->
  yinv w0 (YSys (xwith (ys_sys s) thr i k') cls') log.
Proof.
  intros (Hs & Hl & _) Ho Hi Ht. split; [done|]. split; [|done]. intros j. cbn [ys_clients ys_sys xwith xs_conns].
  destruct (decide (i = j)) as [<-|Hij]; [by rewrite lookup_insert|]. rewrite lookup_insert_ne by done. rewrite Ho by done. apply Hl.
Qed.
Lemma ythr_same s i k k' cls' : ythr_ok s -> xs_conns (ys_sys s) !! i = Some k ->
  (tn_open k = true -> tn_open k' = true) -> (tn_wire k <> [] -> tn_wire k' <> []) -> (tn_fin k = true -> tn_fin k' = true) ->
  (forall j, is_Some (cls' !! j) -> is_Some (ys_clients s !! j)) ->
  ythr_ok (YSys (xwith (ys_sys s) (xs_thr (ys_sys s)) i k') cls').
Proof.
  intros Ht Hk Ho Hw Hf Hc. unfold ythr_ok in *. cbn [ys_sys xwith xs_thr xs_conns].
  destruct (xs_thr (ys_sys s)) as [|j|j|]; try done; destruct Ht as (k0 & Hk0 & Hx).
  - destruct (decide (i = j)) as [<-|Hij]; [|exists k0; by rewrite lookup_insert_ne].
    exists k'. rewrite lookup_insert. split; [done|]. rewrite Hk in Hk0. injection Hk0 as <-. auto.
  - destruct (decide (i = j)) as [<-|Hij].
    + exists k'. rewrite lookup_insert. split; [done|]. rewrite Hk in Hk0. injection Hk0 as <-.
      destruct Hx as (H1 & H2 & H3). split; [auto|]. split; [naive_solver|]. cbn [ys_clients]. auto.
    + exists k0. rewrite lookup_insert_ne by done. split; [done|]. destruct Hx as (H1 & H2 & H3). split; [done|]. split; [done|]. cbn [ys_clients]. auto.
Qed.
Lemma same_domain (cls : gmap nat client) i c c' : cls !! i = Some c -> forall j, is_Some (<[i := c']> cls !! j) -> is_Some (cls !! j).
Proof. intros H j Hj. destruct (decide (i = j)) as [<-|]; [by rewrite H|by rewrite lookup_insert_ne in Hj]. Qed.

Lemma yinv_serve w0 s log i k wr : yinv w0 s log -> X i \/ big M wr -> xs_conns (ys_sys s) !! i = Some k ->
  tn_open k = true -> tn_wire k <> [] \/ tn_fin k = true ->
  exists log2, yinv w0 (YSys (xread hit ro e wr [] i k (ys_sys s)) (ys_clients s)) (log ++ log2).
Proof.
  intros Hinv Hwr Hk Ho Hin. pose proof Hinv as (Hser & Hloc & Ht). pose proof (Hloc i) as Hli. rewrite Hk in Hli.
  destruct (ys_clients s !! i) as [c|] eqn:Hc.
  2: { by destruct (yserve_other w0 s log i k wr [] Hinv Hc Hk Ho Hin (or_introl eq_refl)) as (_ & _ & _ & ?). }
  destruct Hwr as [Hwr|Hwr]; [by destruct (proj1 Hli)|].
  destruct (decide (tn_wire k = [])) as [Hw|Hw].
  - destruct Hin as [?|Hfin]; [done|]. destruct Hli as (HX & [Hc1 Hc2 Hc3 Hc4 Hc5 Hc6] & Hp & Hq & Hr).
    unfold xread. rewrite Hc3, Hw, Hfin, tls_server_leave. cbn [sv_world sv_closed sv_wrote sv_sent tl_buf tl_items negb].
    exists []. rewrite (app_nil_r log).
    apply (yinv_one w0 s log i (TConn [] (records_of []) true (tn_hello k) (tn_est k) false (tn_out k ++ []) (tn_sent k ++ [])) (ys_clients s) XFree Hinv);
      [done| |done].
    rewrite Hc. cbn [ylocal]. split; [done|]. split; [by split; try done; [intros _; by apply Hc2|constructor]|]. split; [|done].
    apply (yphase_conn _ _ _ _ _ Hp); cbn [tn_wire tn_sent]; [by rewrite Hw|by rewrite app_nil_r].
  - destruct (yserve_asked w0 s log i c k wr Hinv Hwr Hc Hk Hw) as [[_ ->]|(_ & _ & _ & x & Hx)]; [|by exists [x]].
    exists []. rewrite app_nil_r. split; [done|]. split; [done|]. exists k. by split.
Qed.

Lemma yinv_step w0 s log l s' : yinv w0 s log -> yfair_with X M W ro l -> y_step hit ro e s l = Some s' ->
  exists log2, yinv w0 s' (log ++ log2).
Proof.
  intros Hinv Hfair Hl. pose proof Hinv as (Hser & Hloc & Ht).
  destruct l as [i|i|i|i chit crit q|i n|l|i rs|l]; cbn [y_step] in Hl.
  - (* YConnect *)
    destruct (xstep hit ro e (ys_sys s) (XOpen i)) as [h|] eqn:E; [|done]. cbn [mbind option_bind] in Hl. injection Hl as <-.
    apply xstep_cases in E as (Hd1 & Hd2 & ->). exists []. rewrite app_nil_r. apply yinv_one; [done| | |].
    + intros j Hj. by rewrite lookup_insert_ne.
    + rewrite lookup_insert. specialize (Hloc i). rewrite Hd2 in Hloc. destruct (ys_clients s !! i); [done|]. cbn [ylocal] in Hloc.
      rewrite Hloc. split; [done|]. split; [split; try done; [constructor|by intros [? ?]]|]. split; [by apply YIdle|]. split; constructor.
    + exists tconn_new. cbn [ys_sys xwith xs_conns]. by rewrite lookup_insert.
  - (* YHello *)
    destruct (ys_clients s !! i) as [c|] eqn:Hc; [|done]. cbn [mbind option_bind] in Hl.
    destruct (xstep hit ro e (ys_sys s) (XHello i true)) as [h|] eqn:E; [|done]. cbn [mbind option_bind] in Hl. injection Hl as <-.
    apply xstep_cases in E as (k & Hk & Ho & Hf & Hh & ->). cbn [xabout] in Hk. exists []. rewrite app_nil_r. apply yinv_one; [done|done| |].
    + specialize (Hloc i). rewrite Hc, Hk in Hloc. rewrite Hc. destruct Hloc as (HX & [Hc1 Hc2 Hc3 Hc4 Hc5 Hc6] & Hp & Hq & Hr).
      split; [done|]. split; [by split|]. split; [|done]. by apply (yphase_conn _ _ _ _ _ Hp).
    + by apply (ythr_same _ _ k).
  - (* YClose *)
    destruct (ys_clients s !! i) as [c|] eqn:Hc; [|done]. cbn [mbind option_bind] in Hl. case_decide as Hd; [|done]. destruct Hd as [Hd1 Hd2].
    destruct (xstep hit ro e (ys_sys s) (XFin i)) as [h|] eqn:E; [|done]. cbn [mbind option_bind] in Hl. injection Hl as <-.
    apply xstep_cases in E as (k & Hk & Ho & ->). cbn [xabout] in Hk. exists []. rewrite app_nil_r. apply yinv_one; [done|done| |].
    + specialize (Hloc i). rewrite Hc, Hk in Hloc. rewrite Hc. destruct Hloc as (HX & [Hc1 Hc2 Hc3 Hc4 Hc5 Hc6] & Hp & Hq & Hr).
      split; [done|]. split; [by split|]. split; [|done]. by apply (yphase_conn _ _ _ _ _ Hp).
    + by apply (ythr_same _ _ k).
  - (* YCall *)
    destruct (ys_clients s !! i) as [c|] eqn:Hc; [|done]. cbn [mbind option_bind] in Hl.
    destruct (xs_conns (ys_sys s) !! i) as [k|] eqn:Hk; [|done]. cbn [mbind option_bind] in Hl.
    case_decide as Hd; [|done]. destruct Hd as (En & Efin & Ehe). destruct Hfair as (Hh & Hr & Hg).
    destruct (msg_built M W ro hit e Hit (chit, crit, q) Hg) as [Hb _]. cbn [fst snd] in Hb. rewrite Hb in Hl.
    change (kSuccess =? kSuccess)%Z with true in Hl. injection Hl as <-.
    exists []. rewrite app_nil_r. split; [done|]. split.
    2: { unfold ythr_ok in *. cbn [ys_sys]. destruct (xs_thr (ys_sys s)) as [|j|j|]; try done.
      destruct Ht as (k0 & Hk0 & H1 & H2 & H3). exists k0. split; [done|]. split; [done|]. split; [done|]. cbn [ys_clients]. intros Hj. apply H3.
      by eapply same_domain. }
    intros j. cbn [ys_clients ys_sys]. destruct (decide (i = j)) as [<-|Hij].
    2: { rewrite !lookup_insert_ne by done. apply Hloc. }
    specialize (Hloc i). rewrite Hc, Hk in Hloc. rewrite lookup_insert, Hk. cbn [ylocal] in *.
    destruct Hloc as (HX & [Hc1 Hc2 Hc3 Hc4 Hc5 Hc6] & Hp & Hq & Hrs).
    destruct Hp as [_ H4 H5 H6 H7 H8|x qs H3|x bf r p H3]; [|congruence..].
    split; [done|]. split; [split; try done; by rewrite Efin|]. split; [|split].
    + apply (YAsk i _ k _ (chit, crit, q) (cl_calls c)); try done. cbn [cl_flight]. by rewrite H4, H5.
    + unfold seen_reqs in *. cbn [cl_calls]. rewrite take_app_le by lia. done.
    + exact Hrs.
  - (* YFlow *)
    destruct (ys_clients s !! i) as [c|] eqn:Hc; [|done]. cbn [mbind option_bind] in Hl. case_decide as Hn; [|done].
    destruct (xstep hit ro e (ys_sys s) (XSend i _)) as [h|] eqn:E; [|done]. cbn [mbind option_bind] in Hl. injection Hl as <-.
    apply xstep_cases in E as (k & Hk & Ho & Hf & Hh & ->). cbn [xabout] in Hk. exists []. rewrite app_nil_r. apply yinv_one; [done| | |].
    + intros j Hj. by rewrite lookup_insert_ne.
    + rewrite lookup_insert. pose proof (Hloc i) as Hli. rewrite Hc, Hk in Hli.
      pose proof Hli as (HX & [Hc1 Hc2 Hc3 Hc4 Hc5 Hc6] & _ & Hq & Hrs).
      apply ylocal_live in Hli as (_ & _ & _ & _ & Hp); [|right; right; intros E; rewrite E in Hn; cbn in Hn; lia].
      destruct Hp as [_ H4 _ _ _ _|x qs H3 H4 H5 H6 H7 H8 H9 H10 H11|x bf r p _ _ _ _ _ H6 _ _ _ _ _ _];
        [rewrite H4 in Hn; cbn in Hn; lia| |rewrite H6 in Hn; cbn in Hn; lia].
      split; [done|]. split; [|split; [|done]].
      * split; try done; cbn [tn_wire]. apply Forall_app. split; [done|]. constructor; [|constructor].
        destruct n; [lia|]. by destruct (cl_flight c); [cbn in Hn; lia|].
      * apply (YAsk i _ _ _ x qs); try done. cbn [tn_wire cl_flight]. rewrite concat_app. cbn [concat]. rewrite app_nil_r, <- app_assoc, take_drop. done.
    + apply (ythr_same _ _ k); try done; cbn [tn_wire]; [by intros _ E; apply app_eq_nil in E as [_ ?]|by eapply same_domain].
  - (* YServer *)
    assert (Hl' : exists h, xstep hit ro e (ys_sys s) l = Some h /\ s' = YSys h (ys_clients s)).
    { destruct l; try done; (destruct (xstep hit ro e (ys_sys s) _) as [h|]; [|done]); injection Hl as <-; by exists h. }
    destruct Hl' as (h & E & ->). clear Hl. apply xstep_cases in E.
    assert (Hclosed : forall i k, xs_conns (ys_sys s) !! i = Some k -> tn_fin k = true \/ X i ->
      exists log2, yinv w0 (YSys (xwith (ys_sys s) XFree i (tn_closed k)) (ys_clients s)) (log ++ log2)).
    { intros i k Hk Hor. exists []. rewrite app_nil_r. apply yinv_one; [done|done| |done].
      specialize (Hloc i). rewrite Hk in Hloc. destruct (ys_clients s !! i) as [c|]; [|done].
      destruct Hloc as (HX & [Hc1 Hc2 Hc3 Hc4 Hc5 Hc6] & Hp & Hq & Hr). destruct Hor as [Hfin|?]; [|done].
      split; [done|]. split; [split; try done; unfold tn_closed; cbn [tn_fin]; congruence|]. split; [|done]. by apply (yphase_conn _ _ _ _ _ Hp). }
    destruct l as [j|j g|j bs|j|j|j lv wr|j wr|j wr]; try done; cbn [yfair_with xabout] in *.
    + (* XShake *)
      destruct E as (k & Hk & Hd & [[Hh ->]|[Hh ->]]).
      * exists []. rewrite app_nil_r. apply yinv_one; [done|done| |done]. specialize (Hloc j). rewrite Hk in Hloc.
        destruct (ys_clients s !! j) as [c|]; [|done]. destruct Hloc as (HX & [Hc1 Hc2 Hc3 Hc4 Hc5 Hc6] & Hp & Hq & Hr).
        split; [done|]. split; [by split|]. split; [|done]. by apply (yphase_conn _ _ _ _ _ Hp).
      * apply Hclosed; [done|]. destruct Hh as [Hh|[_ Hh]]; [|by left]. right. specialize (Hloc j). rewrite Hk in Hloc.
        destruct (ys_clients s !! j) as [c|]; [|done]. by destruct Hloc as (_ & [Hc1 Hc2 Hc3 Hc4 Hc5 Hc6] & _).
    + (* XServe *)
      destruct E as (k & Hk & Hd & Ho & Hor & E). destruct lv.
      * destruct E as [Hfin ->]. by apply Hclosed; [|left].
      * subst h. by apply yinv_serve.
    + (* XResume *)
      destruct E as (k & Hk & Hd & -> & _). unfold ythr_ok in Ht. rewrite Hd in Ht. destruct Ht as (k0 & Hk0 & H1 & H2 & H3).
      rewrite Hk in Hk0. injection Hk0 as <-. by apply yinv_serve.
    + (* XTimeout *)
      destruct E as (k & Hk & [[Hd ->]|[Hd ->]]); [by apply Hclosed; [|right]|].
      unfold ythr_ok in Ht. rewrite Hd in Ht. destruct Ht as (k0 & Hk0 & H1 & H2 & H3). rewrite Hk in Hk0. injection Hk0 as <-.
      pose proof (Hloc j) as Hlj. rewrite Hk in Hlj. destruct (ys_clients s !! j) as [c|] eqn:Hc; [by destruct (proj1 Hlj)|].
      by destruct (yserve_other w0 s log j k wr [SGap] Hinv Hc Hk H1 H2 (or_intror eq_refl)) as (_ & _ & _ & ?).
  - (* YReturn *)
    destruct (ys_clients s !! i) as [c|] eqn:Hc; [|done]. cbn [mbind option_bind] in Hl.
    destruct (cl_now c) as [x|] eqn:En; [|done]. cbn [mbind option_bind] in Hl.
    destruct (xs_conns (ys_sys s) !! i) as [k|] eqn:Hk; [|done]. cbn [mbind option_bind] in Hl.
    pose proof (Hloc i) as Hli. rewrite Hc, Hk in Hli. pose proof Hli as (HX & [Hc1 Hc2 Hc3 Hc4 Hc5 Hc6] & _ & Hq & Hrs).
    apply ylocal_live in Hli as (Ho & Hf & Hhe & _ & Hp); [|left; by rewrite En].
    destruct x as [[chit crit] q]. cbv zeta in Hl. case_decide as Hgot; [|done]. rewrite Ho in Hl. cbn [orb] in Hl.
    destruct Hp as [H3|x qs H3 H4 H5 H6 H7 H8 H9 H10 H11|x bf r p H3 H4 H5 H6 H6b H7 H8 H8b H9 H10 H11 H12]; [congruence| |].
    + assert (E : concat rs = []) by (rewrite Hgot, H8, drop_all; by destruct (length _)).
      rewrite En in H3. injection H3 as <-.
      pose proof (client_nothing M W ro hit e Hit (chit, crit, q) H6) as Hx.
      apply (tls_client_blocked M W ro (chit, crit, q) rs [] H4 H5 H6 E) in Hx. cbn [fst snd] in Hx. by rewrite Hx in Hl.
    + rewrite En in H3. injection H3 as <-. rewrite H9 in Hgot. set (n := length (concat rs)) in *.
      destruct (decide (drop n (text_of hit p) = [])) as [Hd|Hd].
      2: { pose proof (client_piece M W ro hit e Hit (chit, crit, q) p (take n (text_of hit p)) (drop n (text_of hit p)) H6 H6b
             (take_drop _ _) Hd) as Hx. apply (tls_client_blocked M W ro (chit, crit, q) rs _ H4 H5 H6 Hgot) in Hx. cbn [fst snd] in Hx. by rewrite Hx in Hl. }
      assert (Htk : concat rs = text_of hit p).
      { rewrite Hgot. rewrite <- (take_drop n (text_of hit p)) at 2. by rewrite Hd, app_nil_r. }
      destruct (tls_client_whole M W ro hit e Hit (chit, crit, q) p rs H4 H5 H6 H6b Htk) as (y & t & Hy & Hrc & Hsame & Hrest).
      cbn [fst snd] in Hy. rewrite Hy, Hrest in Hl. injection Hl as <-. exists []. rewrite app_nil_r. split; [done|]. split.
      2: { unfold ythr_ok in *. cbn [ys_sys]. destruct (xs_thr (ys_sys s)) as [|j|j|]; try done.
        destruct Ht as (k0 & Hk0 & Ht1 & Ht2 & Ht3). exists k0. split; [done|]. split; [done|]. split; [done|]. cbn [ys_clients]. intros Hj. apply Ht3.
        by eapply same_domain. }
      intros j. cbn [ys_clients ys_sys]. destruct (decide (i = j)) as [<-|Hij].
      2: { rewrite !lookup_insert_ne by done. apply Hloc. }
      rewrite lookup_insert, Hk. cbn [ylocal]. split; [done|]. split; [by split; try done; intros [? ?]|]. split; [|split].
      * apply YIdle; cbn [cl_now cl_flight cl_read cl_done cl_calls]; try done.
        -- rewrite Nat.sub_0_r. unfold n. rewrite Htk, <- H9, drop_length. lia.
        -- rewrite H10, !app_length. cbn [length]. lia.
        -- rewrite app_length. cbn [length]. lia.
      * done.
      * unfold seen_resps in *. cbn [cl_done]. rewrite app_length. cbn [length]. rewrite H10 in *. rewrite <- H11 in *.
        rewrite take_app in Hrs. rewrite take_ge by (rewrite app_length; cbn; lia).
        apply Forall2_app; [done|]. constructor; [|constructor]. by exists y.
  - (* YOther *)
    assert (Hl' : exists h, ys_clients s !! xabout l = None /\ X (xabout l) /\ xstep hit ro e (ys_sys s) l = Some h /\ s' = YSys h (ys_clients s)).
    { destruct l as [i|i g|i bs|i|i|i lv wr|i wr|i wr]; try done; cbn [mbind option_bind yfair_with xabout] in *;
        (destruct (ys_clients s !! i) eqn:Hc; [done|]); (destruct (xstep hit ro e (ys_sys s) _) as [h|]; [|done]); injection Hl as <-; by exists h. }
    destruct Hl' as (h & Hc & HX & E & ->). clear Hl. apply xstep_cases in E. exists []. rewrite app_nil_r.
    destruct l as [i|i g|i bs|i|i|i lv wr|i wr|i wr]; try done; cbn [xabout] in *.
    + destruct E as (Hd1 & Hd2 & ->). apply yinv_one; [done|done|by rewrite Hc|]. exists tconn_new. cbn [ys_sys xwith xs_conns]. by rewrite lookup_insert.
    + destruct E as (k & Hk & _ & _ & _ & ->). apply yinv_one; [done|done|by rewrite Hc|]. by apply (ythr_same _ _ k).
    + destruct E as (k & Hk & _ & _ & _ & ->). apply yinv_one; [done|done|by rewrite Hc|]. apply (ythr_same _ _ k); try done.
      cbn [tn_wire]. by intros _ E; apply app_eq_nil in E as [_ ?].
    + destruct E as (k & Hk & _ & ->). apply yinv_one; [done|done|by rewrite Hc|]. by apply (ythr_same _ _ k).
Qed.

Lemma yinv_new w0 : W w0 -> yinv w0 (y_new w0) [].
Proof.
  intros HW. split; [split; [constructor|exact HW]|]. split; [|done]. intros i. cbn. by rewrite !lookup_empty.
Qed.
Lemma yinv_run w0 ls : forall s log s', yinv w0 s log -> Forall (yfair_with X M W ro) ls -> y_run hit ro e s ls = Some s' ->
  exists log2, yinv w0 s' (log ++ log2).
Proof.
  induction ls as [|l ls IH]; intros s log s' Hi Hf H; cbn [y_run] in H.
  - injection H as <-. exists []. by rewrite app_nil_r.
  - apply Forall_cons in Hf as [Hfl Hf]. destruct (y_step hit ro e s l) as [s1|] eqn:E; [|done]. cbn [mbind option_bind] in H.
    destruct (yinv_step _ _ _ _ _ Hi Hfl E) as (l1 & H1). destruct (IH _ _ _ H1 Hf H) as (l2 & H2).
    exists (l1 ++ l2). by rewrite app_assoc.
Qed.

(** *** Every call comes back *)

Definition conn_cost k : nat := 2 * (length (pending k) + if tn_open k then 1 else 0) + match tn_hello k with None => 1 | Some _ => 0 end.
Definition thr_cost (t : xthr) : nat := match t with XHand _ => 3 | XFree => 2 | XIn _ => 1 | XDown => 0 end.
Definition cli_cost c : nat := 3 * length (cl_flight c) + if cl_now c then 1 else 0.
Definition yleft_to_do s : nat :=
  msum cli_cost (ys_clients s) + msum conn_cost (xs_conns (ys_sys s)) + thr_cost (xs_thr (ys_sys s)).

Lemma yserve_less w0 s log i k wr m : yinv w0 s log -> X i \/ big M wr -> xs_conns (ys_sys s) !! i = Some k ->
  tn_open k = true -> tn_wire k <> [] \/ tn_fin k = true -> m = [] \/ m = [SGap] /\ X i ->
  let h := xread hit ro e wr m i k (ys_sys s) in
  xs_thr (ys_sys s) = XFree \/ xs_thr (ys_sys s) = XIn i /\ xs_thr h <> XIn i ->
  yleft_to_do (YSys h (ys_clients s)) < yleft_to_do s.
Proof.
  intros Hinv Hwr Hk Ho Hin Hm h Hthr. pose proof Hinv as (Hser & Hloc & Ht). pose proof (Hloc i) as Hli. rewrite Hk in Hli.
  assert (Hw : exists n, thr_cost (xs_thr (ys_sys s)) = n /\ 1 <= n <= 2 /\ (xs_thr h = XIn i -> n = 2)).
  { destruct Hthr as [Hthr|[Hthr ?]]; rewrite Hthr; cbn [thr_cost]; eexists; (split; [done|]); split; try lia; done. }
  destruct Hw as (n & Hn & Hn1 & Hn2). unfold yleft_to_do. cbn [ys_sys ys_clients]. rewrite Hn. clear Hthr.
  assert (Hread : forall k', xs_thr h = XFree -> xs_conns h = <[i := k']> (xs_conns (ys_sys s)) -> tn_hello k' = tn_hello k ->
    length (pending k') <= length (pending k) -> tn_open k' = false \/ length (pending k') < length (pending k) ->
    msum cli_cost (ys_clients s) + msum conn_cost (xs_conns h) + thr_cost (xs_thr h) <
    msum cli_cost (ys_clients s) + msum conn_cost (xs_conns (ys_sys s)) + n).
  { intros k' -> -> Hh Hle Hor. pose proof (msum_insert conn_cost _ i k k' Hk) as Hm1. unfold conn_cost in Hm1 at 2 4. rewrite Ho, Hh in Hm1.
    cbn [thr_cost]. destruct Hor as [Hor|Hor]; [rewrite Hor in Hm1; lia|]. destruct (tn_open k'); lia. }
  destruct (ys_clients s !! i) as [c|] eqn:Hc.
  - assert (HX := proj1 Hli). destruct Hwr as [Hwr|Hwr]; [done|]. destruct Hm as [-> |[_ ?]]; [|done].
    destruct (decide (tn_wire k = [])) as [Hw|Hw].
    + destruct Hin as [?|Hfin]; [done|]. destruct Hli as (_ & [Hc1 Hc2 Hc3 Hc4 Hc5 Hc6] & _).
      apply (Hread (TConn [] (records_of []) true (tn_hello k) (tn_est k) false (tn_out k ++ []) (tn_sent k ++ [])));
        try (unfold h, xread; rewrite Hc3, Hw, Hfin, tls_server_leave; done); [done|unfold pending; cbn; lia|by left].
    + destruct (yserve_asked w0 s log i c k wr Hinv Hwr Hc Hk Hw) as [[_ E]|(_ & E & (k' & Ek & Hp & Hh & Ho') & _)]; fold h in E.
      * rewrite E in *. cbn [xs_thr xs_conns thr_cost] in *. specialize (Hn2 eq_refl). lia.
      * apply (Hread k' E Ek Hh); rewrite Hp; cbn [length]; [lia|]. right.
        destruct Hli as (_ & [Hc1 Hc2 Hc3 Hc4 Hc5 Hc6] & _). destruct (pending k) eqn:E0; [|cbn; lia].
        exfalso. unfold pending in E0. apply app_eq_nil in E0 as [_ E0]. by apply filled_concat_nil in E0.
  - destruct (yserve_other w0 s log i k wr m Hinv Hc Hk Ho Hin) as (_ & _ & H & _); [clear -Hm; tauto|]. fold h in H.
    destruct H as [E|[E|(E & k' & E1 & E2 & E3 & E4)]]; [rewrite E in *; cbn [xs_thr xs_conns thr_cost] in *..|by apply (Hread k')];
      [specialize (Hn2 eq_refl)|]; lia.
Qed.

Lemma yless_to_do w0 s log l s' : yinv w0 s log -> ygoes_on_with X M W ro l -> y_step hit ro e s l = Some s' -> yleft_to_do s' < yleft_to_do s.
Proof.
  intros Hinv [Hfair Hgo] Hl. pose proof Hinv as (Hser & Hloc & Ht).
  destruct l as [i|i|i|i chit crit q|i n|l|i rs|l]; cbn [y_step] in Hl; try done.
  - destruct (ys_clients s !! i) as [c|] eqn:Hc; [|done]. cbn [mbind option_bind] in Hl.
    destruct (xstep hit ro e (ys_sys s) (XHello i true)) as [h|] eqn:E; [|done]. cbn [mbind option_bind] in Hl. injection Hl as <-.
    apply xstep_cases in E as (k & Hk & Ho & Hf & Hh & ->). cbn [xabout] in Hk.
    unfold yleft_to_do. cbn [ys_sys ys_clients xwith xs_thr xs_conns].
    match goal with |- context [<[i := ?k']> (xs_conns (ys_sys s))] => pose proof (msum_insert conn_cost _ i k k' Hk) as H3 end.
    unfold conn_cost in H3 at 2 4. unfold pending in H3. cbn [tn_buf tn_wire tn_open tn_hello] in H3. rewrite Hh in H3. lia.
  - destruct (ys_clients s !! i) as [c|] eqn:Hc; [|done]. cbn [mbind option_bind] in Hl. case_decide as Hn; [|done].
    destruct (xstep hit ro e (ys_sys s) (XSend i _)) as [h|] eqn:E; [|done]. cbn [mbind option_bind] in Hl. injection Hl as <-.
    apply xstep_cases in E as (k & Hk & Ho & Hf & Hh & ->). cbn [xabout] in Hk.
    unfold yleft_to_do. cbn [ys_sys ys_clients xwith xs_thr xs_conns].
    match goal with |- context [<[i := ?c']> (ys_clients s)] => pose proof (msum_insert cli_cost _ i c c' Hc) as H1 end.
    match goal with |- context [<[i := ?k']> (xs_conns (ys_sys s))] => pose proof (msum_insert conn_cost _ i k k' Hk) as H3 end.
    unfold cli_cost in H1 at 2 4. unfold conn_cost in H3 at 2 4. unfold pending in H3.
    cbn [cl_flight cl_now tn_buf tn_wire tn_open tn_hello] in H1, H3. rewrite drop_length in H1.
    rewrite concat_app, !app_length in H3. cbn [concat] in H3. rewrite app_nil_r, take_length in H3. lia.
  - assert (Hl' : exists h, xstep hit ro e (ys_sys s) l = Some h /\ s' = YSys h (ys_clients s)).
    { destruct l; try done; (destruct (xstep hit ro e (ys_sys s) _) as [h|]; [|done]); injection Hl as <-; by exists h. }
    destruct Hl' as (h & E & ->). clear Hl. apply xstep_cases in E.
    assert (Hshut : forall j k k', xs_conns (ys_sys s) !! j = Some k -> pending k' = pending k -> tn_hello k' = tn_hello k ->
      (tn_open k' = true -> tn_open k = true) ->
      2 < thr_cost (xs_thr (ys_sys s)) \/ 2 <= thr_cost (xs_thr (ys_sys s)) /\ tn_open k = true /\ tn_open k' = false ->
      yleft_to_do (YSys (xwith (ys_sys s) XFree j k') (ys_clients s)) < yleft_to_do s).
    { intros j k k' Hk Hp Hh Ho Hc. unfold yleft_to_do. cbn [ys_sys ys_clients xwith xs_thr xs_conns thr_cost].
      pose proof (msum_insert conn_cost _ j k k' Hk) as H3. unfold conn_cost in H3 at 2 4. rewrite Hp, Hh in H3.
      destruct (tn_open k'), (tn_open k); try (discriminate (Ho eq_refl)); (destruct Hc as [?|(? & ? & ?)]; [lia|]); first [discriminate|lia]. }
    assert (Hin : forall j k, xs_thr (ys_sys s) = XIn j -> xs_conns (ys_sys s) !! j = Some k -> tn_open k = true /\ (tn_wire k <> [] \/ tn_fin k = true)).
    { intros j k Hd Hk. unfold ythr_ok in Ht. rewrite Hd in Ht. destruct Ht as (k0 & Hk0 & H1 & H2 & _).
      rewrite Hk in Hk0. by injection Hk0 as <-. }
    destruct l as [j|j g|j bs|j|j|j lv wr|j wr|j wr]; try done; cbn [yfair_with xabout] in *.
    + destruct E as (k & Hk & Hd & [[Hh ->]|[Hh ->]]); (eapply Hshut; [exact Hk|done|done|done|left; rewrite Hd; cbn [thr_cost]; lia]).
    + destruct E as (k & Hk & Hd & Ho & Hor & E). destruct lv.
      * destruct E as [Hfin ->]. eapply Hshut; [exact Hk|done|done|done|right; rewrite Hd; cbn [thr_cost]; split; [lia|done]].
      * subst h. apply (yserve_less w0 s log j k wr []); try done; by left.
    + destruct E as (k & Hk & Hd & -> & Hne). destruct (Hin j k Hd Hk). apply (yserve_less w0 s log j k wr []); try done; [by left|by right].
    + destruct E as (k & Hk & [[Hd ->]|[Hd ->]]).
      * eapply Hshut; [exact Hk|done|done|done|left; rewrite Hd; cbn [thr_cost]; lia].
      * destruct (Hin j k Hd Hk). apply (yserve_less w0 s log j k wr [SGap]); try done; [by left|by right|right; split; [done|]].
        pose proof (Hloc j) as Hlj. rewrite Hk in Hlj. destruct (ys_clients s !! j) as [c|] eqn:Hc; [by destruct (proj1 Hlj)|].
        destruct (yserve_other w0 s log j k wr [SGap] Hinv Hc Hk) as (_ & Hg & _); try done; [by right|]. by apply Hg.
  - destruct (ys_clients s !! i) as [c|] eqn:Hc; [|done]. cbn [mbind option_bind] in Hl.
    destruct (cl_now c) as [x|] eqn:En; [|done]. cbn [mbind option_bind] in Hl.
    destruct (xs_conns (ys_sys s) !! i) as [k|] eqn:Hk; [|done]. cbn [mbind option_bind] in Hl.
    destruct x as [[chit crit] q]. cbv zeta in Hl. case_decide; [|done].
    assert (Hs' : exists c', s' = YSys (ys_sys s) (<[i := c']> (ys_clients s)) /\ cl_flight c' = cl_flight c /\ cl_now c' = None).
    { destruct (client_send_tls _ _ _ _ _ _) as [[y t]| | | | |]; try done; injection Hl as <-; by eexists. }
    destruct Hs' as (c' & -> & Hfl & Hnow). unfold yleft_to_do. cbn [ys_sys ys_clients].
    pose proof (msum_insert cli_cost _ i c c' Hc) as H1. unfold cli_cost in H1 at 2 4. rewrite Hfl, En, Hnow in H1. lia.
Qed.

Lemma ybounded w0 ls : forall s log s', yinv w0 s log -> Forall (ygoes_on_with X M W ro) ls -> y_run hit ro e s ls = Some s' ->
  length ls <= yleft_to_do s.
Proof.
  induction ls as [|l ls IH]; intros s log s' Hi Hf H; cbn [y_run length] in *; [lia|].
  apply Forall_cons in Hf as [Hfl Hf]. destruct (y_step hit ro e s l) as [s1|] eqn:E; [|done]. cbn [mbind option_bind] in H.
  pose proof (yless_to_do _ _ _ _ _ Hi Hfl E). destruct (yinv_step _ _ _ _ _ Hi (proj1 Hfl) E) as (l1 & H1).
  pose proof (IH _ _ _ H1 Hf H). lia.
Qed.

Lemma ystuck_none_waits w0 s log : yinv w0 s log -> (forall l, ygoes_on_with X M W ro l -> y_step hit ro e s l = None) ->
  xs_thr (ys_sys s) = XDown \/
  (forall i c, ys_clients s !! i = Some c -> cl_now c = None /\ length (cl_done c) = length (cl_calls c)) /\
  forall i k, xs_conns (ys_sys s) !! i = Some k -> tn_fin k = true -> tn_open k = false.
Proof.
  intros Hinv Hst. pose proof Hinv as (Hser & Hloc & Ht).
  assert (Hbig : big M (WTake M)) by (by exists M).
  assert (Hfl : forall i c, ys_clients s !! i = Some c -> cl_flight c = []).
  { intros i c Hc. destruct (cl_flight c) as [|ch fl] eqn:Ef; [done|exfalso].
    pose proof (Hloc i) as Hli. rewrite Hc in Hli.
    destruct (xs_conns (ys_sys s) !! i) as [k|] eqn:Hk; [|done].
    apply ylocal_live in Hli as (Ho & Hf & Hhe & _); [|right; right; by rewrite Ef].
    specialize (Hst (YFlow i 1)). cbn [y_step] in Hst. rewrite Hc in Hst. cbn [mbind option_bind] in Hst.
    rewrite Ef in Hst. rewrite decide_True in Hst by (cbn; lia). cbn [xstep] in Hst. rewrite Hk in Hst.
    cbn [mbind option_bind] in Hst. rewrite decide_True in Hst by done. by discriminate Hst. }
  assert (Hfree : xs_thr (ys_sys s) = XFree \/ xs_thr (ys_sys s) = XDown).
  { unfold ythr_ok in Ht. destruct (xs_thr (ys_sys s)) as [|j|j|] eqn:Ed; [by left|exfalso..|by right]; destruct Ht as (k & Hk & Hx);
      pose proof (Hloc j) as Hlj; rewrite Hk in Hlj; destruct (ys_clients s !! j) as [c|] eqn:Hc.
    - destruct (tn_hello k) as [b|] eqn:Eh.
      { specialize (Hst (YServer (XShake j)) (conj I I)). cbn [y_step xstep] in Hst. rewrite Hk in Hst. cbn [mbind option_bind] in Hst.
        rewrite decide_True in Hst by done. rewrite Eh in Hst. destruct b; by discriminate Hst. }
      destruct (tn_fin k) eqn:Ef.
      { specialize (Hst (YServer (XShake j)) (conj I I)). cbn [y_step xstep] in Hst. rewrite Hk in Hst. cbn [mbind option_bind] in Hst.
        rewrite decide_True in Hst by done. rewrite Eh, Ef in Hst. by discriminate Hst. }
      specialize (Hst (YHello j) (conj I I)). cbn [y_step xstep] in Hst. rewrite Hc, Hk in Hst. cbn [mbind option_bind] in Hst.
      rewrite decide_True in Hst by done. by discriminate Hst.
    - specialize (Hst (YServer (XTimeout j (WTake M))) (conj Hlj I)). cbn [y_step xstep] in Hst. rewrite Hk in Hst.
      cbn [mbind option_bind] in Hst. rewrite decide_True in Hst by done. by discriminate Hst.
    - destruct Hx as (H1 & _ & H3). rewrite Hc in H3. specialize (H3 ltac:(done)).
      destruct (yserve_asked w0 s log j c k (WTake M) Hinv Hbig Hc Hk H3) as [[H _]|(_ & E & _)]; [by rewrite (Hfl j c Hc) in H|].
      specialize (Hst (YServer (XResume j (WTake M))) (conj (or_intror Hbig) I)). cbn [y_step xstep] in Hst. rewrite Hk in Hst.
      cbn [mbind option_bind] in Hst. rewrite decide_True in Hst by done. cbv zeta in Hst.
      rewrite E in Hst. rewrite decide_False in Hst by done. by discriminate Hst.
    - specialize (Hst (YServer (XTimeout j (WTake M))) (conj Hlj I)). cbn [y_step xstep] in Hst. rewrite Hk in Hst.
      cbn [mbind option_bind] in Hst. rewrite decide_False, decide_True in Hst by congruence. by discriminate Hst. }
  destruct Hfree as [Hfree|Hfree]; [right|by left].
  assert (Hserve : forall i k, xs_conns (ys_sys s) !! i = Some k -> tn_open k = true -> tn_wire k <> [] \/ tn_fin k = true -> False).
  { intros i k Hk Ho Hor. specialize (Hst (YServer (XServe i false (WTake M))) (conj (or_intror Hbig) I)). cbn [y_step xstep] in Hst. rewrite Hk in Hst.
    cbn [mbind option_bind] in Hst. rewrite decide_True in Hst by done. by discriminate Hst. }
  split.
  2: { intros i k Hk Hfin. destruct (tn_open k) eqn:Eo; [exfalso|done]. eapply Hserve; [exact Hk|done|by right]. }
  intros i c Hc. pose proof (Hloc i) as Hli. rewrite Hc in Hli.
  destruct (xs_conns (ys_sys s) !! i) as [k|] eqn:Hk; [|done].
  destruct (cl_now c) as [x0|] eqn:En.
  2: { destruct Hli as (_ & _ & Hp & _ & _). destruct Hp as [H3 H4 H5 H6 H7 H8|x qs H3|x bf r p H3]; [done|congruence..]. }
  apply ylocal_live in Hli as (Ho & Hf & _ & _ & Hp); [|left; by rewrite En].
  destruct Hp as [H3 H4 H5 H6 H7 H8|x qs H3 H4 H5 H6 H7 H8 H9 H10 H11|x bf r p H3 H4 H5 H6 H6b H7 H8 H8b H9 H10 H11 H12]; [congruence| |]; exfalso.
  - rewrite (Hfl i c Hc), app_nil_r in H7. destruct (msg_built M W ro hit e Hit x H6) as [_ Hne].
    eapply Hserve; [exact Hk|done|]. left. intros E. rewrite E in H7. by rewrite <- H7 in Hne.
  - specialize (Hst (YReturn i [text_of hit p]) (conj I I)). cbn [y_step] in Hst. rewrite Hc in Hst. cbn [mbind option_bind] in Hst.
    rewrite H3, Hk in Hst. cbn [mbind option_bind] in Hst. destruct x as [[chit crit] q]. cbv zeta in Hst.
    assert (Ec : concat [text_of hit p] = text_of hit p) by (cbn [concat]; by rewrite app_nil_r).
    rewrite Ec in Hst. rewrite decide_True in Hst by (by rewrite H9, firstn_all).
    rewrite Ho in Hst. cbn [orb] in Hst.
    destruct (tls_client_whole M W ro hit e Hit (chit, crit, q) p [text_of hit p] H4 H5 H6 H6b Ec) as (y & t & Hy & _).
    cbn [fst snd] in Hy. rewrite Hy in Hst. by discriminate Hst.
Qed.

(** *** Who stops the server *)

Lemma ydown_step w0 s log l s' : yinv w0 s log -> yfair_with X M W ro l -> y_step hit ro e s l = Some s' ->
  xs_thr (ys_sys s) <> XDown -> xs_thr (ys_sys s') = XDown ->
  exists i k wr, X i /\ xs_conns (ys_sys s) !! i = Some k /\
    (l = YServer (XServe i false wr) \/ l = YServer (XResume i wr) \/ l = YServer (XTimeout i wr)) /\
    (~ short (pending k) \/ LF ∈ take 3 (pending k) \/ wr = WSig \/ handlers_fail ro (xs_world (ys_sys s)) (pending k)).
Proof.
  intros Hinv Hfair Hl Hup Hd. pose proof Hinv as (Hser & Hloc & Ht).
  assert (Hserve : forall i wr m k, X i \/ big M wr -> xs_conns (ys_sys s) !! i = Some k -> m = [] \/ m = [SGap] /\ X i ->
    tn_open k = true -> tn_wire k <> [] \/ tn_fin k = true -> xs_thr (xread hit ro e wr m i k (ys_sys s)) = XDown ->
    X i /\ (~ short (pending k) \/ LF ∈ take 3 (pending k) \/ wr = WSig \/ handlers_fail ro (xs_world (ys_sys s)) (pending k))).
  { intros i wr m k Hwr Hk Hm Ho Hin Hdn. split; [|apply (xread_down hit ro e wr m i k (ys_sys s)); [clear -Hm; tauto|done]].
    pose proof (Hloc i) as Hli. rewrite Hk in Hli. destruct (ys_clients s !! i) as [c|] eqn:Hc; [exfalso|done].
    assert (HX := proj1 Hli). destruct Hm as [-> |[_ ?]]; [|done]. destruct Hwr as [?|Hwr]; [done|].
    destruct (decide (tn_wire k = [])) as [Hne|Hne].
    - destruct Hin as [?|Hfin]; [done|]. destruct Hli as (_ & [Hc1 Hc2 Hc3 Hc4 Hc5 Hc6] & _).
      unfold xread in Hdn. rewrite Hc3, Hne, Hfin, tls_server_leave in Hdn. discriminate Hdn.
    - destruct (yserve_asked w0 s log i c k wr Hinv Hwr Hc Hk Hne) as [[_ E]|(_ & E & _)]; rewrite E in Hdn; done. }
  assert (Hbusy : forall j k, xs_thr (ys_sys s) = XIn j -> xs_conns (ys_sys s) !! j = Some k -> tn_open k = true /\ (tn_wire k <> [] \/ tn_fin k = true)).
  { intros j k Hj Hk. unfold ythr_ok in Ht. rewrite Hj in Ht. destruct Ht as (k0 & Hk0 & H1 & H2 & _). rewrite Hk in Hk0. by injection Hk0 as <-. }
  destruct l as [i|i|i|i chit crit q|i n|l|i rs|l]; cbn [y_step] in Hl.
  - destruct (xstep hit ro e (ys_sys s) _) as [h|] eqn:E; [|done]. injection Hl as <-. apply xstep_cases in E as (_ & _ & ->). done.
  - destruct (ys_clients s !! i); [|done]. cbn [mbind option_bind] in Hl.
    destruct (xstep hit ro e (ys_sys s) _) as [h|] eqn:E; [|done]. injection Hl as <-. by apply xstep_cases in E as (k & _ & _ & _ & _ & ->).
  - destruct (ys_clients s !! i); [|done]. cbn [mbind option_bind] in Hl. case_decide; [|done].
    destruct (xstep hit ro e (ys_sys s) _) as [h|] eqn:E; [|done]. injection Hl as <-. by apply xstep_cases in E as (k & _ & _ & ->).
  - destruct (ys_clients s !! i) as [c|]; [|done]. cbn [mbind option_bind] in Hl. destruct (xs_conns _ !! i) as [k|]; [|done].
    cbn [mbind option_bind] in Hl. case_decide; [|done]. destruct (req_build _ _ _ _) as [[rc q'] msg].
    destruct (rc =? _)%Z; injection Hl as <-; done.
  - destruct (ys_clients s !! i); [|done]. cbn [mbind option_bind] in Hl. case_decide; [|done].
    destruct (xstep hit ro e (ys_sys s) _) as [h|] eqn:E; [|done]. injection Hl as <-. by apply xstep_cases in E as (k & _ & _ & _ & _ & ->).
  - assert (Hl' : exists h, xstep hit ro e (ys_sys s) l = Some h /\ s' = YSys h (ys_clients s)).
    { destruct l; try done; (destruct (xstep hit ro e (ys_sys s) _) as [h|]; [|done]); injection Hl as <-; by exists h. }
    destruct Hl' as (h & E & ->). clear Hl. apply xstep_cases in E. cbn [ys_sys] in Hd.
    destruct l as [j|j g|j bs|j|j|j lv wr|j wr|j wr]; try done; cbn [yfair_with xabout] in *.
    + by destruct E as (k & _ & _ & [[_ ->]|[_ ->]]).
    + destruct E as (k & Hk & H1 & H2 & H3 & E). exists j, k, wr. destruct lv; [by destruct E as [_ ->]|]. subst h.
      destruct (Hserve j wr [] k) as [HX Hr]; [done|done|by left|done..|]. split; [done|]. split; [done|]. split; [by auto|done].
    + destruct E as (k & Hk & H1 & -> & _). exists j, k, wr. destruct (Hbusy j k H1 Hk).
      destruct (Hserve j wr [] k) as [HX Hr]; [done|done|by left|done..|]. split; [done|]. split; [done|]. split; [by auto|done].
    + destruct E as (k & Hk & [[H1 ->]|[H1 ->]]); [done|]. exists j, k, wr. destruct (Hbusy j k H1 Hk).
      destruct (Hserve j wr [SGap] k) as [HX Hr]; [by left|done|by right|done..|]. split; [done|]. split; [done|]. split; [by auto|done].
  - destruct (ys_clients s !! i) as [c|]; [|done]. cbn [mbind option_bind] in Hl. destruct (cl_now c) as [[[ch cr] q]|]; [|done].
    cbn [mbind option_bind] in Hl. destruct (xs_conns _ !! i) as [k|]; [|done]. cbn [mbind option_bind] in Hl. cbv zeta in Hl. case_decide; [|done].
    destruct (client_send_tls _ _ _ _ _ _) as [[y t]| | | | |]; try done; injection Hl as <-; done.
  - assert (Hl' : exists h, xstep hit ro e (ys_sys s) l = Some h /\ s' = YSys h (ys_clients s)).
    { destruct l as [i|i g|i bs|i|i|i lv wr|i wr|i wr]; try done; cbn [mbind option_bind] in Hl;
        (destruct (ys_clients s !! i); [done|]); (destruct (xstep hit ro e (ys_sys s) _) as [h|]; [|done]); injection Hl as <-; by exists h. }
    destruct Hl' as (h & E & ->). apply xstep_cases in E. cbn [ys_sys] in Hd.
    destruct l as [i|i g|i bs|i|i|i lv wr|i wr|i wr]; try done.
    + by destruct E as (_ & _ & ->).
    + by destruct E as (k & _ & _ & _ & _ & ->).
    + by destruct E as (k & _ & _ & _ & _ & ->).
    + by destruct E as (k & _ & _ & ->).
Qed.

Lemma ydown_run w0 ls : forall s log s', yinv w0 s log -> Forall (yfair_with X M W ro) ls -> y_run hit ro e s ls = Some s' ->
  xs_thr (ys_sys s) <> XDown -> xs_thr (ys_sys s') = XDown ->
  exists ls1 l ls2 s1 i k wr, ls = ls1 ++ l :: ls2 /\ y_run hit ro e s ls1 = Some s1 /\
    X i /\ xs_conns (ys_sys s1) !! i = Some k /\
    (l = YServer (XServe i false wr) \/ l = YServer (XResume i wr) \/ l = YServer (XTimeout i wr)) /\
    (~ short (pending k) \/ LF ∈ take 3 (pending k) \/ wr = WSig \/ handlers_fail ro (xs_world (ys_sys s1)) (pending k)).
Proof.
  induction ls as [|l ls IH]; intros s log s' Hi Hf H Hup Hd; cbn [y_run] in H; [congruence|].
  apply Forall_cons in Hf as [Hfl Hf]. destruct (y_step hit ro e s l) as [s1|] eqn:E; [|done]. cbn [mbind option_bind] in H.
  destruct (yinv_step _ _ _ _ _ Hi Hfl E) as (l1 & H1).
  destruct (decide (xs_thr (ys_sys s1) = XDown)) as [Hd1|Hup1].
  - destruct (ydown_step _ _ _ _ _ Hi Hfl E Hup Hd1) as (i & k & wr & Hx). exists [], l, ls, s, i, k, wr. done.
  - destruct (IH _ _ _ H1 Hf H Hup1 Hd) as (ls1 & l' & ls2 & s2 & i & k & wr & -> & Hr & Hx).
    exists (l :: ls1), l', ls2, s2, i, k, wr. split; [done|]. split; [|done]. cbn [y_run]. by rewrite E.
Qed.
End runs.

(** ** Theorems *)

(** C191.  Over HTTPS too, and whatever strangers do, there is one order of all requests,
    the same for all clients, that grows with time and explains every answer to a client. *)
Theorem https_calls_are_serial : forall U (X : nat -> Prop) M (W : world U -> Prop) (ro : router U) hit e w ls1 ls2 s1 s2,
  valid_order hit -> W w -> ((exists i, X i) -> keeps W ro) ->
  Forall (yfair_with X M W ro) ls1 -> Forall (yfair_with X M W ro) ls2 ->
  y_run hit ro e (y_new w) ls1 = Some s1 -> y_run hit ro e s1 ls2 = Some s2 ->
  exists log1 log2, explained_with X ro w (xs_world (ys_sys s1)) (ys_clients s1) log1 /\
    explained_with X ro w (xs_world (ys_sys s2)) (ys_clients s2) (log1 ++ log2) /\
    forall i, X i -> ys_clients s2 !! i = None.
Proof.
  intros U X M W ro hit e w ls1 ls2 s1 s2 Hit HW Hk0 H1 H2 R1 R2.
  assert (Hk : forall i, X i -> keeps W ro) by (intros i Hi; apply Hk0; by exists i).
  destruct (yinv_run X M W ro hit e Hit Hk w ls1 _ [] _ (yinv_new X M W ro hit w HW) H1 R1) as (log1 & I1). cbn [app] in I1.
  destruct (yinv_run X M W ro hit e Hit Hk w ls2 _ log1 _ I1 H2 R2) as (log2 & I2).
  exists log1, log2. split; [by eapply yinv_explains|]. split; [by eapply yinv_explains|].
  intros i HX. destruct I2 as (_ & Hl & _). specialize (Hl i). destruct (ys_clients s2 !! i); [|done].
  destruct (xs_conns (ys_sys s2) !! i); [|done]. by destruct Hl.
Qed.

(** C192.  As long as the server runs, every call of Send comes back with success, and the
    connection of everybody who has left is closed. *)
Theorem https_every_call_returns : forall U (X : nat -> Prop) M (W : world U -> Prop) (ro : router U) hit e w ls s,
  valid_order hit -> W w -> ((exists i, X i) -> keeps W ro) ->
  Forall (yfair_with X M W ro) ls -> y_run hit ro e (y_new w) ls = Some s ->
  (exists n, forall ls' s', Forall (ygoes_on_with X M W ro) ls' -> y_run hit ro e s ls' = Some s' -> length ls' <= n) /\
  ((forall l, ygoes_on_with X M W ro l -> y_step hit ro e s l = None) -> xs_thr (ys_sys s) <> XDown ->
   (forall i c, ys_clients s !! i = Some c ->
     cl_now c = None /\ length (cl_done c) = length (cl_calls c) /\
     Forall (fun o => exists y, o = Ok y /\ st_rc y = kSuccess) (cl_done c)) /\
   forall i k, xs_conns (ys_sys s) !! i = Some k -> tn_fin k = true -> tn_open k = false).
Proof.
  intros U X M W ro hit e w ls s Hit HW Hk0 H1 R1.
  assert (Hk : forall i, X i -> keeps W ro) by (intros i Hi; apply Hk0; by exists i).
  destruct (yinv_run X M W ro hit e Hit Hk w ls _ [] _ (yinv_new X M W ro hit w HW) H1 R1) as (log & Hi). cbn [app] in Hi.
  split.
  - exists (yleft_to_do s). intros ls' s' Hg Hr. by eapply (ybounded X M W ro hit e Hit Hk).
  - intros Hst Hd. destruct (ystuck_none_waits X M W ro hit e Hit Hk w s log Hi Hst) as [?|[Ha Hb]]; [done|].
    split; [|done]. intros i c Hc. destruct (Ha i c Hc). do 2 (split; [done|]).
    eapply done_well; [by eapply (yinv_explains X)|done].
Qed.

(** C193.  Only strangers stop the HTTPS server, in the ways of C184. *)
Theorem only_strangers_stop_the_https_server : forall U (X : nat -> Prop) M (W : world U -> Prop) (ro : router U) hit e w ls s,
  valid_order hit -> W w -> ((exists i, X i) -> keeps W ro) ->
  Forall (yfair_with X M W ro) ls -> y_run hit ro e (y_new w) ls = Some s -> xs_thr (ys_sys s) = XDown ->
  exists ls1 l ls2 s1 i k wr, ls = ls1 ++ l :: ls2 /\ y_run hit ro e (y_new w) ls1 = Some s1 /\
    X i /\ xs_conns (ys_sys s1) !! i = Some k /\
    (l = YServer (XServe i false wr) \/ l = YServer (XResume i wr) \/ l = YServer (XTimeout i wr)) /\
    (~ short (pending k) \/ LF ∈ take 3 (pending k) \/ wr = WSig \/ handlers_fail ro (xs_world (ys_sys s1)) (pending k)).
Proof.
  intros U X M W ro hit e w ls s Hit HW Hk0 H1 R1 Hd.
  assert (Hk : forall i, X i -> keeps W ro) by (intros i Hi; apply Hk0; by exists i).
  by eapply (ydown_run X M W ro hit e Hit Hk w ls _ [] _ (yinv_new X M W ro hit w HW)).
Qed.

(** ** Examples *)

Definition yseen {U} (s : ysys U) : list (nat * list bytes) :=
  map (fun x => (x.1, map (fun o => match o with Ok y => rs_body (st_resp y) | _ => [] end) (cl_done x.2)))
    (map_to_list (ys_clients s)).
Definition ywaiting {U} (s : ysys U) : list (nat * bool * nat) :=
  map (fun x => (x.1, match cl_now x.2 with Some _ => true | None => false end, length (cl_done x.2))) (map_to_list (ys_clients s)).

(** Strangers 7, 8 and 9, clients 0 and 1 (the handler of ClientServerProps.v).  7 does not
    shake hands and is given up; 8 sends a request in one record with a part of the next
    one, and draws the first ticket; 9 sends an empty record, and the server waits for it.
    The calls of 0 and 1 arrive meanwhile, that of 0 in two records. *)
Definition tls_mixed : list ylab :=
  [YOther (XOpen 7); YServer (XTimeout 7 (WTake 0)); YOther (XOpen 8); YOther (XHello 8 true); YServer (XShake 8);
   YConnect 0; YHello 0; YServer (XShake 0); YConnect 1; YHello 1; YServer (XShake 1);
   YOther (XOpen 9); YOther (XHello 9 true); YServer (XShake 9);
   YOther (XSend 8 (msg_of (map_to_list, map_to_list, ask (B "zz")) ++ B "GET")); YOther (XSend 9 []);
   YServer (XServe 8 false WFail); YServer (XServe 9 false (WTake 0));
   YCall 0 map_to_list map_to_list (ask (B "ab")); YCall 1 map_to_list map_to_list (ask (B "cd"));
   YFlow 0 20; YFlow 1 66; YFlow 0 46].
(** The time-out ends the waiting for 9; both calls come back, with the answers in records
    of different sizes. *)
Definition tls_mixed' : list ylab :=
  [YServer (XTimeout 9 (WTake 0)); YServer (XServe 1 false (WTake 99)); YServer (XServe 0 false (WTake 99));
   YReturn 0 [B "HTTP/1.1 2"; B "00 OK" ++ CRLF ++ B "Content-Length: 3" ++ CRLF ++ CR :: []; LF :: B "2ab"];
   YReturn 1 [B "HTTP/1.1 200 OK" ++ CRLF ++ B "Content-Length: 3" ++ CRLF ++ CRLF ++ B "1cd"]].

Lemma tls_mixed_fair : Forall (yfair_with odd_peers 99 (fun _ => True) ticket_ro) tls_mixed /\
  Forall (yfair_with odd_peers 99 (fun _ => True) ticket_ro) tls_mixed'.
Proof.
  assert (Hg : good_call 99 (fun _ => True) ticket_ro (ask (B "ab"))) by (apply ask_good; by_compute).
  assert (Hg2 : good_call 99 (fun _ => True) ticket_ro (ask (B "cd"))) by (apply ask_good; by_compute).
  unfold odd_peers. split; repeat (apply Forall_cons; split; [|]); try apply Forall_nil_2; cbn [yfair_with];
    first [exact I|lia|(left; lia)|(right; by exists 99)|(do 2 (split; [apply valid_order_sorted|]); first [exact Hg|exact Hg2])].
Qed.

Lemma tls_mixed_run : exists s1 s2,
  y_run map_to_list ticket_ro [] (y_new wn) tls_mixed = Some s1 /\ ywaiting s1 = [(0, true, 0); (1, true, 0)] /\ xs_thr (ys_sys s1) = XIn 9 /\
  y_run map_to_list ticket_ro [] s1 tls_mixed' = Some s2 /\ yseen s2 = [(0, [B "2ab"]); (1, [B "1cd"])] /\ xs_thr (ys_sys s2) = XFree.
Proof.
  assert (H : match y_run map_to_list ticket_ro [] (y_new wn) tls_mixed with
    | Some s1 =>
        match y_run map_to_list ticket_ro [] s1 tls_mixed' with
        | Some s2 => Some (ywaiting s1, xs_thr (ys_sys s1), yseen s2, xs_thr (ys_sys s2))
        | None => None
        end
    | None => None
    end = Some ([(0, true, 0); (1, true, 0)], XIn 9, [(0, [B "2ab"]); (1, [B "1cd"])], XFree)) by (by vm_compute).
  destruct (y_run map_to_list ticket_ro [] (y_new wn) tls_mixed) as [s1|]; [|discriminate].
  destruct (y_run map_to_list ticket_ro [] s1 tls_mixed') as [s2|] eqn:E; [|discriminate].
  exists s1, s2. apply Some_inj in H.
  assert (H1 := f_equal (fun x => x.1.1.1) H). assert (H2 := f_equal (fun x => x.1.1.2) H).
  assert (H3 := f_equal (fun x => x.1.2) H). assert (H4 := f_equal snd H).
  cbn [fst snd] in *. split; [reflexivity|]. split; [exact H1|]. split; [exact H2|]. split; [exact E|]. split; [exact H3|exact H4].
Qed.

Example https_calls_are_serial_ex : exists s1 s2 log1 log2,
  y_run map_to_list ticket_ro [] (y_new wn) tls_mixed = Some s1 /\
  y_run map_to_list ticket_ro [] s1 tls_mixed' = Some s2 /\ yseen s2 = [(0, [B "2ab"]); (1, [B "1cd"])] /\
  explained_with odd_peers ticket_ro wn (xs_world (ys_sys s1)) (ys_clients s1) log1 /\
  explained_with odd_peers ticket_ro wn (xs_world (ys_sys s2)) (ys_clients s2) (log1 ++ log2).
Proof.
  destruct tls_mixed_run as (s1 & s2 & E1 & _ & _ & E2 & H2 & _).
  destruct (https_calls_are_serial nat odd_peers 99 (fun _ => True) ticket_ro map_to_list [] wn tls_mixed tls_mixed' s1 s2
    valid_order_sorted I (fun _ => ticket_keeps) (proj1 tls_mixed_fair) (proj2 tls_mixed_fair) E1 E2) as (log1 & log2 & H3 & H4 & _).
  exists s1, s2, log1, log2. tauto.
Qed.

Example https_every_call_returns_ex : exists s1 s2,
  y_run map_to_list ticket_ro [] (y_new wn) tls_mixed = Some s1 /\ ywaiting s1 = [(0, true, 0); (1, true, 0)] /\ xs_thr (ys_sys s1) = XIn 9 /\
  (exists n, forall ls' s', Forall (ygoes_on_with odd_peers 99 (fun _ => True) ticket_ro) ls' ->
    y_run map_to_list ticket_ro [] s1 ls' = Some s' -> length ls' <= n) /\
  y_run map_to_list ticket_ro [] s1 tls_mixed' = Some s2 /\ Forall (ygoes_on_with odd_peers 99 (fun _ => True) ticket_ro) tls_mixed' /\
  yseen s2 = [(0, [B "2ab"]); (1, [B "1cd"])] /\ xs_thr (ys_sys s2) = XFree.
Proof.
  destruct tls_mixed_run as (s1 & s2 & E1 & H1 & H2 & E2 & H3 & H4).
  exists s1, s2. split; [exact E1|]. split; [exact H1|]. split; [exact H2|]. split.
  { apply (https_every_call_returns nat odd_peers 99 (fun _ => True) ticket_ro map_to_list [] wn tls_mixed s1 valid_order_sorted I
      (fun _ => ticket_keeps) (proj1 tls_mixed_fair) E1). }
  split; [exact E2|]. split; [|split; [exact H3|exact H4]].
  clear. destruct tls_mixed_fair as [_ H]. unfold tls_mixed' in *. repeat (apply Forall_cons in H as [? H]). repeat (apply Forall_cons_2; [split; [assumption|exact I]|]). apply Forall_nil_2.
Qed.

(** Without the proviso that the server still runs. *)
Definition https_every_call_returns_full : Prop := forall U (X : nat -> Prop) M (W : world U -> Prop) (ro : router U) hit e w ls s,
  valid_order hit -> W w -> ((exists i, X i) -> keeps W ro) ->
  Forall (yfair_with X M W ro) ls -> y_run hit ro e (y_new w) ls = Some s ->
  (forall l, ygoes_on_with X M W ro l -> y_step hit ro e s l = None) ->
  forall i c, ys_clients s !! i = Some c -> cl_now c = None.

(** A stranger sends a line feed in a record; the call of client 0 does not come back. *)
Definition tls_line_feed : list ylab :=
  [YConnect 0; YHello 0; YServer (XShake 0); YCall 0 map_to_list map_to_list (ask (B "ab")); YFlow 0 66;
   YOther (XOpen 7); YOther (XHello 7 true); YServer (XShake 7); YOther (XSend 7 [LF]); YServer (XServe 7 false (WTake 0))].
Lemma tls_line_feed_fair : Forall (yfair_with odd_peers 99 (fun _ => True) ticket_ro) tls_line_feed.
Proof.
  assert (Hg : good_call 99 (fun _ => True) ticket_ro (ask (B "ab"))) by (apply ask_good; by_compute).
  unfold odd_peers. repeat (apply Forall_cons; split; [|]); try apply Forall_nil_2; cbn [yfair_with];
    first [exact I|lia|(left; lia)|(do 2 (split; [apply valid_order_sorted|]); exact Hg)].
Qed.
Lemma tls_line_feed_run : exists s c k, y_run map_to_list ticket_ro [] (y_new wn) tls_line_feed = Some s /\ xs_thr (ys_sys s) = XDown /\
  map fst (map_to_list (ys_clients s)) = [0] /\ ys_clients s !! 0 = Some c /\ cl_read c = 0 /\ cl_flight c = [] /\
  cl_now c = Some (map_to_list, map_to_list, ask (B "ab")) /\
  xs_conns (ys_sys s) !! 0 = Some k /\ tn_sent k = [] /\ tn_open k = true /\ tn_hello k = Some true.
Proof.
  assert (H : match y_run map_to_list ticket_ro [] (y_new wn) tls_line_feed with
    | Some s => match ys_clients s !! 0, xs_conns (ys_sys s) !! 0 with
                | Some c, Some k => Some (xs_thr (ys_sys s), map fst (map_to_list (ys_clients s)), cl_read c, cl_flight c, cl_now c, tn_sent k, tn_open k, tn_hello k)
                | _, _ => None
                end
    | None => None
    end = Some (XDown, [0], 0, [], Some (map_to_list, map_to_list, ask (B "ab")), [], true, Some true)) by (by vm_compute).
  destruct (y_run map_to_list ticket_ro [] (y_new wn) tls_line_feed) as [s|]; [|discriminate].
  destruct (ys_clients s !! 0) as [c|] eqn:Hc; [|discriminate]. destruct (xs_conns (ys_sys s) !! 0) as [k|] eqn:Hk; [|discriminate].
  exists s, c, k. apply Some_inj in H.
  assert (H1 := f_equal (fun x => x.1.1.1.1.1.1.1) H). assert (H2 := f_equal (fun x => x.1.1.1.1.1.1.2) H).
  assert (H3 := f_equal (fun x => x.1.1.1.1.1.2) H). assert (H4 := f_equal (fun x => x.1.1.1.1.2) H).
  assert (H5 := f_equal (fun x => x.1.1.1.2) H). assert (H6 := f_equal (fun x => x.1.1.2) H). assert (H7 := f_equal (fun x => x.1.2) H).
  assert (H8 := f_equal snd H). clear H.
  cbn [fst snd] in *. split; [reflexivity|]. split; [exact H1|]. split; [exact H2|]. split; [exact Hc|]. split; [exact H3|].
  split; [exact H4|]. split; [exact H5|]. split; [exact Hk|]. split; [exact H6|]. split; [exact H7|exact H8].
Qed.
Theorem https_every_call_returns_refuted : ~ https_every_call_returns_full.
Proof.
  intros H. destruct tls_line_feed_run as (s & c & k & E & Hd & Hall & Hc & Hrd & Hfl & Hnow & Hk & Hsent & Ho & Hhe).
  assert (Hst : forall l, ygoes_on_with odd_peers 99 (fun _ => True) ticket_ro l -> y_step map_to_list ticket_ro [] s l = None).
  { clear E H. assert (Honly : forall i c', ys_clients s !! i = Some c' -> i = 0).
    { intros i c' Hi. apply elem_of_map_to_list in Hi. apply (elem_of_list_fmap_1 fst) in Hi.
      change (i ∈ map fst (map_to_list (ys_clients s))) in Hi. rewrite Hall in Hi. by apply elem_of_list_singleton in Hi. }
    intros l [_ Hg]. destruct l as [i|i|i|i h r q|i n|l|i rs|l]; try done; cbn [y_step].
    - destruct (ys_clients s !! i) as [c'|] eqn:Hi; [|done]. assert (i = 0) as -> by exact (Honly i c' Hi).
      cbn [mbind option_bind xstep]. rewrite Hk. cbn [mbind option_bind]. rewrite Hhe. rewrite decide_False by (by intros (_ & _ & ?)). done.
    - destruct (ys_clients s !! i) as [c'|] eqn:Hi; [|done]. assert (i = 0) as -> by exact (Honly i c' Hi). rewrite Hc in Hi. apply Some_inj in Hi. subst c'.
      cbn [mbind option_bind]. rewrite Hfl. cbn [length]. rewrite decide_False by lia. done.
    - destruct l; try done; cbn [xstep]; (destruct (xs_conns (ys_sys s) !! i) as [k'|]; [|done]); cbn [mbind option_bind]; rewrite Hd.
      + by rewrite decide_False.
      + rewrite decide_False; [done|]. by intros [? _].
      + by rewrite decide_False.
      + rewrite decide_False by done. by rewrite decide_False.
    - destruct (ys_clients s !! i) as [c'|] eqn:Hi; [|done]. assert (i = 0) as -> by exact (Honly i c' Hi). rewrite Hc in Hi. apply Some_inj in Hi. subst c'.
      cbn [mbind option_bind]. rewrite Hnow, Hk. cbn [mbind option_bind]. rewrite Hsent, Ho, Hrd. rewrite drop_nil, take_nil. cbv zeta.
      case_decide as Hgot; [|done]. cbn [orb].
      assert (Hg99 : good_call 99 (fun _ => True) ticket_ro (ask (B "ab"))) by (apply ask_good; by_compute).
      pose proof (client_nothing 99 (fun _ => True) ticket_ro map_to_list [] valid_order_sorted (map_to_list, map_to_list, ask (B "ab")) Hg99) as Hn.
      apply (tls_client_blocked 99 (fun _ => True) ticket_ro (map_to_list, map_to_list, ask (B "ab")) rs [] valid_order_sorted valid_order_sorted Hg99 Hgot) in Hn.
      cbn [fst snd] in Hn. by rewrite Hn. }
  pose proof (H nat odd_peers 99 (fun _ => True) ticket_ro map_to_list [] wn tls_line_feed s valid_order_sorted I (fun _ => ticket_keeps) tls_line_feed_fair E Hst 0 _ Hc) as Hx.
  congruence.
Qed.

Example only_strangers_stop_the_https_server_ex : exists s ls1 l ls2 s1 i k wr,
  y_run map_to_list ticket_ro [] (y_new wn) tls_line_feed = Some s /\ xs_thr (ys_sys s) = XDown /\
  tls_line_feed = ls1 ++ l :: ls2 /\ y_run map_to_list ticket_ro [] (y_new wn) ls1 = Some s1 /\
  odd_peers i /\ xs_conns (ys_sys s1) !! i = Some k /\
  (l = YServer (XServe i false wr) \/ l = YServer (XResume i wr) \/ l = YServer (XTimeout i wr)) /\
  (~ short (pending k) \/ LF ∈ take 3 (pending k) \/ wr = WSig \/ handlers_fail ticket_ro (xs_world (ys_sys s1)) (pending k)).
Proof.
  destruct tls_line_feed_run as (s & _ & _ & E & Hd & _).
  destruct (only_strangers_stop_the_https_server nat odd_peers 99 (fun _ => True) ticket_ro map_to_list [] wn tls_line_feed s valid_order_sorted I
    (fun _ => ticket_keeps) tls_line_feed_fair E Hd) as (ls1 & l & ls2 & s1 & i & k & wr & Hx).
  exists s, ls1, l, ls2, s1, i, k, wr. split; [exact E|]. split; [exact Hd|exact Hx].
Qed.

Print Assumptions https_calls_are_serial.
Print Assumptions https_every_call_returns.
Print Assumptions https_every_call_returns_refuted.
Print Assumptions only_strangers_stop_the_https_server.
