(** Proofs about error texts and the server's log. *)
From Verif.Proof Require Export ServerProof.
From Verif.Model Require Export Messages.

(** ** Why a request is rejected *)

(** [reason s m]: [m] is the text for what is wrong with the request [s]. *)
Inductive reason : bytes -> bytes -> Prop :=
| why_empty : reason [] (B "[logicerr]:empty http request")
| why_open s : s <> [] -> ~ contains CRLFCRLF s -> reason s (B "[logicerr]:can't find endof header")
| why_words s first hdrs body : message s first hdrs body -> (forall m t v, ~ request_line first m t v) ->
    reason s (B "[logicerr]:invalid http request")
| why_method s first hdrs body m t v : message s first hdrs body -> request_line first m t v -> m ∉ known_methods ->
    reason s (B "[logicerr]:invalid http method")
| why_path s first hdrs body m v : message s first hdrs body -> request_line first m [] v -> m ∈ known_methods ->
    reason s (B "path is empty")
| why_version s first hdrs body m t v : message s first hdrs body -> request_line first m t v -> m ∈ known_methods ->
    t <> [] -> v ∉ known_versions -> reason s (B "[logicerr]:invalid http version").

(** The part of [HttpReq::Parse] after the header block. *)
Definition req_line_text (t : req_text) (r : req) (first : bytes) : outcome req_text :=
  single ← str_split first (B " ") [] false;
  match single with
  | [m; target; v] =>
      if decide (to_method m = mUNKNOWN) then Ok (qt_say t (B "[logicerr]:invalid http method"))
      else
      rp ← route_parse (rq_route r) target;
      let t2 := ReqText (qt_own t) (qt_header t) (route_parse_text (qt_route t) target) in
      if negb (rp.1 =? kSuccess)%Z then Ok (qt_say t2 (qt_route t2))
      else if decide (to_version v = vUNKNOWN) then Ok (qt_say t2 (B "[logicerr]:invalid http version"))
      else Ok t2
  | _ => Ok (qt_say t (B "[logicerr]:invalid http request"))
  end.

Lemma header_parse_text_ok old h s x :
  header_parse h s = Ok x -> exists m, header_parse_text old h s = Ok m.
Proof. intros H. destruct s as [|c s]; [by eexists|]. unfold header_parse_text. rewrite H. by eexists. Qed.

Lemma req_parse_text_message t r s first hdrs body kvs :
  fits s -> message s first hdrs body -> leading_fields hdrs kvs ->
  exists ht, req_parse_text t r s = req_line_text (ReqText (qt_own t) ht (qt_route t)) r first.
Proof.
  intros Hf Hm HL.
  pose proof (message_find_crlf _ _ _ _ Hm) as H1.
  pose proof (message_find_crlf2 _ _ _ _ Hm) as H2.
  destruct Hm as (Hs & Hone & HF).
  assert (Hlen : length s = length first + 2 + length (crlf_lines hdrs) + 2 + length body).
  { rewrite Hs, !app_length. simpl. lia. }
  assert (Hb : (N.of_nat (length s) < 2 ^ 63)%N) by exact Hf.
  unfold req_parse_text. destruct s as [|c s']; [simpl in Hlen; lia|].
  set (s := c :: s') in *. rewrite !str_find_0, H1, H2. cbn [opt_pos].
  destruct (N.eqb_spec (N.of_nat (length first + length (crlf_lines hdrs))) npos) as [E|_].
  { exfalso. revert E. apply (lt_npos s); [done|lia]. }
  destruct (N.eqb_spec (N.of_nat (length first)) npos) as [E|_].
  { exfalso. revert E. apply (lt_npos s); [done|lia]. }
  change 2%N with (N.of_nat 2). rewrite !szadd_nat by lia.
  rewrite substr_nat by lia. cbn [mbind outcome_bind].
  assert (Hd : drop (length first + 2) s = crlf_lines hdrs ++ CRLF ++ body).
  { rewrite Hs, <- drop_drop, drop_app. done. }
  rewrite Hd.
  pose proof (header_parse_block (rq_header r) first hdrs body kvs) as Hh.
  match type of Hh with ?P -> _ => assert (Hp : P) by (by rewrite <- Hs) end.
  specialize (Hh Hp HF HL).
  rewrite Hh. cbn [mbind outcome_bind fst].
  destruct (header_parse_text_ok (qt_header t) (rq_header r) _ _ Hh) as [ht Ht]. rewrite Ht. cbn [mbind outcome_bind].
  change (kLogicErr =? 0)%Z with false. cbv iota.
  change 0%N with (N.of_nat 0). rewrite substr_nat by lia. rewrite drop_0. cbn [mbind outcome_bind].
  assert (Htk : take (length first) s = first) by (by rewrite Hs, take_app). rewrite Htk.
  by exists ht.
Qed.

Lemma message_first_unique s first hdrs body first' hdrs' body' :
  message s first hdrs body -> message s first' hdrs' body' -> first = first'.
Proof.
  intros Hm Hm'.
  assert (Hl : length first = length first').
  { apply message_find_crlf in Hm. apply message_find_crlf in Hm'. congruence. }
  destruct Hm as (E & _), Hm' as (E' & _). rewrite E in E'. by apply app_inj_1 in E' as [? _].
Qed.

Lemma req_line_reason t r h body s first hdrs rc r' :
  short s -> message s first hdrs body -> req_line r h body first = Ok (rc, r') ->
  exists t', req_line_text t r first = Ok t' /\
    (rc = kSuccess -> qt_own t' = qt_own t) /\ (rc <> kSuccess -> reason s (qt_own t')).
Proof.
  intros Hs Hm. pose proof (message_short_first _ _ _ _ Hs Hm) as Hsf. unfold req_line, req_line_text.
  destruct (split_spec first [SP] [] false (short_fits _ Hsf) ltac:(done)) as (l & Hp & Heq).
  change (B " ") with [SP]. rewrite Heq. cbn [mbind outcome_bind app].
  assert (Hbad : (forall m tg v, l <> [m; tg; v]) -> reason s (B "[logicerr]:invalid http request")).
  { intros Hl. eapply why_words; [exact Hm|]. intros m tg v Hrl. apply request_line_pieces in Hrl.
    by apply (Hl m tg v), (pieces_det [SP] first). }
  destruct l as [|m [|tg [|v [|x l]]]];
    try (intros [= <- <-]; eexists; (split; [reflexivity|]); split; [done|]; intros _; apply Hbad; naive_solver).
  clear Hbad. apply pieces_request_line in Hp as Hrl.
  assert (Hst : short tg).
  { destruct Hrl as (-> & _). unfold short in *. rewrite app_length in Hsf. simpl in Hsf. rewrite app_length in Hsf. lia. }
  destruct (decide (to_method m = mUNKNOWN)) as [Hmk|Hmk].
  { intros [= <- <-]. eexists. split; [reflexivity|]. split; [done|]. intros _. cbn [qt_own qt_say].
    eapply why_method; [exact Hm|exact Hrl|]. intros Hk. by apply to_method_known in Hk. }
  apply to_method_known in Hmk.
  destruct (route_parse_total (rq_route r) tg Hst) as (rrc & rt & Hr). rewrite Hr. cbn [mbind outcome_bind fst].
  destruct (route_parse_rc _ _ _ _ Hst Hr) as [[-> Ht]|(-> & -> & _)].
  2:{ intros [= <- <-]. eexists. split; [reflexivity|]. split; [done|]. intros _. cbn [qt_own qt_say qt_route route_parse_text].
      by eapply why_path. }
  change (negb (kSuccess =? kSuccess)%Z) with false. cbv iota.
  destruct (decide (to_version v = vUNKNOWN)) as [Hv|Hv].
  { intros [= <- <-]. eexists. split; [reflexivity|]. split; [done|]. intros _. cbn [qt_own qt_say].
    eapply why_version; [exact Hm|exact Hrl|done|done|]. intros Hk. by apply to_version_known in Hk. }
  intros [= <- <-]. eexists. split; [reflexivity|]. by split.
Qed.

Lemma req_parse_reason t r s rc r' :
  short s -> req_parse r s = Ok (rc, r') ->
  exists t', req_parse_text t r s = Ok t' /\
    (rc = kSuccess -> qt_own t' = qt_own t) /\ (rc <> kSuccess -> reason s (qt_own t')).
Proof.
  intros Hs H. pose proof (short_fits _ Hs) as Hf.
  destruct (find_idx CRLFCRLF s) as [i|] eqn:Ei.
  - assert (Hc : contains CRLFCRLF s) by (apply find_idx_contains; by rewrite Ei).
    destruct (message_exists (length s) s ltac:(lia) Hc) as (first & hdrs & body & Hm).
    destruct (leading_fields_exists hdrs) as [kvs HL].
    rewrite (req_parse_message _ _ _ _ _ _ Hf Hm HL) in H.
    destruct (req_parse_text_message t r s _ _ _ _ Hf Hm HL) as [ht ->].
    by eapply (req_line_reason (ReqText (qt_own t) ht (qt_route t))).
  - apply find_idx_None_contains in Ei. rewrite req_parse_no_blank in H by done. injection H as <- <-.
    unfold req_parse_text. destruct s as [|c s].
    { eexists. split; [reflexivity|]. split; [done|]. intros _. apply why_empty. }
    rewrite str_find_0, (proj2 (find_idx_None_contains _ _) Ei). cbn [opt_pos].
    eexists. split; [reflexivity|]. split; [done|]. intros _. by apply why_open.
Qed.

Lemma reason_unique s m m' : reason s m -> reason s m' -> m = m'.
Proof.
  assert (Hc : forall s first hdrs body, message s first hdrs body -> s <> [] /\ contains CRLFCRLF s).
  { clear. intros s first hdrs body Hm. pose proof (message_find_crlf2 _ _ _ _ Hm) as E. split.
    - destruct Hm as (-> & _). by destruct first.
    - apply find_idx_contains. by rewrite E. }
  assert (Hl : forall first a b c a' b' c', request_line first a b c -> request_line first a' b' c' -> a = a' /\ b = b' /\ c = c').
  { clear. intros first a b c a' b' c' H H'. apply request_line_pieces in H. apply request_line_pieces in H'.
    pose proof (pieces_det [SP] _ _ _ ltac:(done) H H') as E. by injection E as -> -> ->. }
  intros H H'.
  destruct H as [|s Hne Ho|s f h b Hm Hw|s f h b ? ? ? Hm Hr Hk|s f h b ? ? Hm Hr Hk|s f h b ? ? ? Hm Hr Hk Ht Hv].
  - inversion H' as [|? ? ?|? f h b Hm|? f h b ? ? ? Hm|? f h b ? ? Hm|? f h b ? ? ? Hm]; subst; try done;
      by destruct (Hc _ _ _ _ Hm).
  - inversion H' as [|? ? ?|? f h b Hm|? f h b ? ? ? Hm|? f h b ? ? Hm|? f h b ? ? ? Hm]; subst; try done;
      by destruct (Hc _ _ _ _ Hm).
  - destruct (Hc _ _ _ _ Hm) as [? ?].
    inversion H' as [|? ? ?|? f' h' b' Hm'|? f' h' b' ? ? ? Hm' Hr'|? f' h' b' ? ? Hm' Hr'|? f' h' b' ? ? ? Hm' Hr']; subst; try done;
      pose proof (message_first_unique _ _ _ _ _ _ _ Hm Hm'); subst; by destruct (Hw _ _ _ Hr').
  - destruct (Hc _ _ _ _ Hm) as [? ?].
    inversion H' as [|? ? ?|? f' h' b' Hm' Hw'|? f' h' b' ? ? ? Hm' Hr'|? f' h' b' ? ? Hm' Hr'|? f' h' b' ? ? ? Hm' Hr']; subst; try done;
      pose proof (message_first_unique _ _ _ _ _ _ _ Hm Hm'); subst; [by destruct (Hw' _ _ _ Hr)|..];
      destruct (Hl _ _ _ _ _ _ _ Hr Hr') as (-> & -> & ->); done.
  - destruct (Hc _ _ _ _ Hm) as [? ?].
    inversion H' as [|? ? ?|? f' h' b' Hm' Hw'|? f' h' b' ? ? ? Hm' Hr'|? f' h' b' ? ? Hm' Hr'|? f' h' b' ? ? ? Hm' Hr' Hk' Ht']; subst; try done;
      pose proof (message_first_unique _ _ _ _ _ _ _ Hm Hm'); subst; [by destruct (Hw' _ _ _ Hr)|..];
      destruct (Hl _ _ _ _ _ _ _ Hr Hr') as (-> & Hx & ->); done.
  - destruct (Hc _ _ _ _ Hm) as [? ?].
    inversion H' as [|? ? ?|? f' h' b' Hm' Hw'|? f' h' b' ? ? ? Hm' Hr'|? f' h' b' ? ? Hm' Hr'|? f' h' b' ? ? ? Hm' Hr' Hk' Ht']; subst; try done;
      pose proof (message_first_unique _ _ _ _ _ _ _ Hm Hm'); subst; [by destruct (Hw' _ _ _ Hr)|..];
      destruct (Hl _ _ _ _ _ _ _ Hr Hr') as (-> & Hx & ->); done.
Qed.

(** ** The log *)
Section log.
Context {U : Type}.
Implicit Types (w : world U) (ro : router U).

(** Texts are made whenever Parse returns. *)
Lemma req_parse_text_ok t r s x : req_parse r s = Ok x -> exists t', req_parse_text t r s = Ok t'.
Proof.
  unfold req_parse, req_parse_text. destruct s as [|c s]; [by eexists|].
  destruct (str_find (c :: s) CRLFCRLF 0 =? npos)%N; [by eexists|].
  destruct (str_find (c :: s) CRLF 0 =? npos)%N; [by eexists|].
  destruct (substr (c :: s) (szadd (str_find (c :: s) CRLF 0) 2) (str_find (c :: s) CRLFCRLF 0)) as [block| | | | |]; try done.
  cbn [mbind outcome_bind].
  destruct (header_parse (rq_header r) block) as [[hrc h]| | | | |] eqn:Hh; try done. cbn [mbind outcome_bind fst].
  destruct (header_parse_text_ok (qt_header t) _ _ _ Hh) as [ht ->]. cbn [mbind outcome_bind].
  destruct (hrc =? 0)%Z; [by eexists|].
  destruct (substr_from (c :: s) _) as [b| | | | |]; try done. cbn [mbind outcome_bind].
  destruct (substr (c :: s) 0 _) as [first| | | | |]; try done. cbn [mbind outcome_bind].
  destruct (str_split first (B " ") [] false) as [l| | | | |]; try done. cbn [mbind outcome_bind].
  destruct l as [|m [|tg [|v [|y l]]]]; try by eexists.
  destruct (decide (to_method m = mUNKNOWN)); [by eexists|].
  destruct (route_parse (rq_route r) tg) as [[rrc rt]| | | | |]; try done. cbn [mbind outcome_bind fst].
  destruct (negb (rrc =? kSuccess)%Z); [by eexists|]. destruct (decide (to_version v = vUNKNOWN)); by eexists.
Qed.

(** The reason for the head that is read from [s]. *)
Definition reason_text (s : stream) : bytes :=
  match read_until [] CRLFCRLF s with
  | Ok (_, buf, _) => match req_parse_text req_text_new req_new buf with Ok t => qt_own t | _ => [] end
  | _ => []
  end.

Lemma respond_log_only fd werr hit wr p w s e : (respond_log fd werr hit wr p w s).2 = respond hit wr p e w s.
Proof.
  unfold respond_log, respond.
  set (p1 := if decide (rs_status p = sUNKNOWN) then resp_not_found p else p).
  assert (Hst : rs_status p1 <> sUNKNOWN) by (unfold p1; by destruct (decide (rs_status p = sUNKNOWN))).
  rewrite (resp_build_ok hit p1 [] Hst). change (negb (kSuccess =? kSuccess)%Z) with false. cbv iota beta.
  unfold log_say. cbn [snd]. destruct (sock_write wr _) as [[len out]| | | | |]; cbn [mbind outcome_bind log_bind fst snd]; try done.
  by destruct (len <? 0)%Z.
Qed.

Lemma answer_log_only fd werr hit wr ro r w s e : (answer_log fd werr hit wr ro r w s).2 = answer hit wr ro r e w s.
Proof.
  unfold answer_log, answer, log_say. cbn [snd].
  destruct (dispatch _ _ _ _) as [cw| | | | |]; cbn [mbind outcome_bind log_bind]; try done. apply respond_log_only.
Qed.

(** Logging changes nothing else. *)
Lemma handle_read_log_only fd rerr werr hit wr ro w s :
  (handle_read_log fd rerr werr hit wr ro w s).2 = handle_read hit wr ro (reason_text s) w s.
Proof.
  unfold handle_read_log, handle_read, reason_text.
  destruct (read_until [] CRLFCRLF s) as [[[len buf] s1]| | | | |]; cbn [mbind outcome_bind log_bind]; try done.
  destruct (Z.eqb_spec len 0) as [->|Hn]; [done|].
  destruct (Z.ltb_spec len 0) as [Hlt|Hge].
  { by rewrite (proj2 (Z.leb_le _ _)) by lia. }
  rewrite (proj2 (Z.leb_gt _ _)) by lia.
  destruct (req_parse req_new buf) as [[rc r]| | | | |] eqn:Hp; cbn [mbind outcome_bind log_bind]; try done.
  destruct (req_parse_text_ok req_text_new _ _ _ Hp) as [t Ht]. rewrite Ht. cbn [log_bind].
  destruct (negb (rc =? kSuccess)%Z).
  { destruct (resp_build hit (resp_bad_request resp_new (qt_own t)) []) as [[c p] b].
    unfold log_say. cbn [snd]. by destruct (sock_write wr b) as [[len' out]| | | | |]. }
  destruct (0 <? header_get_content_length (rq_header r))%Z; [|apply answer_log_only].
  destruct (read_string true 0 _ s1) as [[[rc2 body] s2]| | | | |]; cbn [mbind outcome_bind log_bind]; try done.
  destruct (Z.eqb_spec rc2 0) as [->|Hn2]; [done|].
  destruct (Z.ltb_spec rc2 0) as [Hlt2|Hge2].
  { by rewrite (proj2 (Z.leb_le _ _)) by lia. }
  rewrite (proj2 (Z.leb_gt _ _)) by lia. apply answer_log_only.
Qed.
End log.
