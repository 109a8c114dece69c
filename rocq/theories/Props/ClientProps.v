(** C48-C50: a client and a server talking to each other
    (src/cppnet/http/client/http_client.cpp, HttpServer::HandleRead). *)
From Verif.Proof Require Import ServerProof.
From Verif.Props Require Import MessageProps RouterProps ServerProps.

Local Notation host := (B "Host").
Local Notation clen := (B "Content-Length").

(** What the application put into [q] is what [r] holds; Build adds
    Content-Length and a Host. *)
Definition same_request (q r : req) : Prop :=
  rq_method r = rq_method q /\ rq_version r = rq_version q /\ rq_route r = rq_route q /\ rq_body r = rq_body q /\
  (forall k, k <> clen -> k <> host -> rq_header r !! k = rq_header q !! k) /\
  (forall c v, rq_header q !! host = Some (c :: v) -> rq_header r !! host = Some (c :: v)).

(** ** C48 *)
Definition request_arrives_full : Prop := forall hit rit hit' q q1 msg ro e k l t,
  valid_order hit -> valid_order rit -> valid_order hit' ->
  req_build hit rit q [] = (kSuccess, q1, msg) -> short msg -> sendable (rq_header q) ->
  ascii_only (rt_path (rq_route q)) -> rt_path (rq_route q) <> [] -> "?"%char ∉ rt_path (rq_route q) ->
  register [] [] recorder router_new = Ok (kSuccess, ro) ->
  exists v r, handle_read hit' (WTake k) ro e wr0 (Stream (map Byte msg ++ l) t) = Ok v /\
    w_user (sv_world v) = [r] /\ same_request q r.

Lemma built_same q : same_request q (Req (rq_method q) (rq_version q) (built_header q) (rq_route q) (rq_body q)).
Proof.
  do 4 (split; [done|]). cbn [rq_header]. unfold built_header. split.
  - intros k Hc Hh. rewrite lookup_insert_ne by done.
    destruct (header_get (rq_header q) host); [by rewrite lookup_insert_ne|done].
  - intros c v Hq. rewrite lookup_insert_ne by done.
    unfold header_get. rewrite Hq. cbn. done.
Qed.

Lemma plain_ascii seps s : plain_except seps s -> ascii_only s.
Proof.
  intros H. unfold ascii_only. eapply Forall_impl; [exact H|]. intros c [Hc _]. revert Hc.
  by destruct c as [[] [] [] [] [] [] [] []]; vm_compute.
Qed.

Lemma built_handled {U} hit rit hit' q q1 msg (ro : router U) wr e w l t :
  valid_order hit -> valid_order rit ->
  req_build hit rit q [] = (kSuccess, q1, msg) -> short msg -> sendable (rq_header q) ->
  plain_except (B "?") (rt_path (rq_route q)) ->
  (rt_path (rq_route q) <> [] \/ rt_params (rq_route q) <> ∅) ->
  (forall k v, rt_params (rq_route q) !! k = Some v -> plain_except (B "=&") k /\ "&"%char ∉ v) ->
  NUL ∉ rq_body q ->
  handle_read hit' wr ro e w (Stream (map Byte msg ++ l) t) =
    answer hit' wr ro (Req (rq_method q) (rq_version q) (built_header q) (rq_route q) (rq_body q)) e w (Stream l t).
Proof.
  intros Hhit Hrit Hb Hs Hsend Hpath Hne Hkv Hnul.
  destruct (req_round_trip hit rit q [] msg q1 Hhit Hrit Hb Hs Hsend Hpath Hne Hkv) as [Hp _].
  assert (Hm : rq_method q <> mUNKNOWN).
  { intros E. unfold req_build in Hb. by rewrite E in Hb. }
  assert (Hv : rq_version q <> vUNKNOWN).
  { intros E. unfold req_build in Hb. rewrite decide_False in Hb by done. by rewrite E in Hb. }
  rewrite req_build_ok in Hb by done. apply (f_equal snd) in Hb; cbn [snd] in Hb; subst.
  destruct (built_message hit rit q Hhit Hsend) as [Hmsg HL].
  set (r := Req _ _ _ _ (rq_body q)).
  set (first := built_line rit q) in *. set (hdrs := field_lines _) in *.
  destruct (message_head _ _ _ _ Hmsg) as (Ht & Hmh & _).
  assert (Hsh : short (head_of first hdrs)).
  { rewrite Ht in Hs. unfold short in *. rewrite app_length in Hs. lia. }
  rewrite (req_parse_message _ _ _ _ _ _ (short_fits _ Hs) Hmsg HL) in Hp.
  eapply (handle_read_message hit' wr ro e w _ first hdrs r); [done|exact Hmsg| |done| |].
  - destruct (req_line_total req_new (insert_all (rq_header req_new) (hit (built_header q))) (rq_body q) first)
      as (rc & r' & E & _ & Hiff); [by eapply message_short_first|].
    rewrite E in Hp. injection Hp as -> ->. by apply Hiff.
  - rewrite (req_parse_message _ _ _ _ _ _ (short_fits _ Hsh) Hmh HL).
    by apply (req_line_body _ _ _ [] _ _ _ Hp).
  - left. cbn [rq_header rq_body r]. apply content_length_of.
    + rewrite Ht in Hs. unfold short in Hs. rewrite app_length in Hs. lia.
    + unfold built_header. rewrite lookup_insert. do 2 f_equal. unfold size. apply to_int32_nat.
      rewrite Ht in Hs. unfold short in Hs. rewrite app_length in Hs. lia.
Qed.

(** Missing: paths and parameter names that are not plain (C13, C20), NUL bytes
    in the body. *)
Theorem request_arrives_partial : forall hit rit hit' q q1 msg ro e k l t,
  valid_order hit -> valid_order rit -> valid_order hit' ->
  req_build hit rit q [] = (kSuccess, q1, msg) -> short msg -> sendable (rq_header q) ->
  plain_except (B "?") (rt_path (rq_route q)) ->
  (rt_path (rq_route q) <> [] \/ rt_params (rq_route q) <> ∅) ->
  (forall k v, rt_params (rq_route q) !! k = Some v -> plain_except (B "=&") k /\ "&"%char ∉ v) ->
  NUL ∉ rq_body q ->
  register [] [] recorder router_new = Ok (kSuccess, ro) ->
  exists v r, handle_read hit' (WTake k) ro e wr0 (Stream (map Byte msg ++ l) t) = Ok v /\
    w_user (sv_world v) = [r] /\ same_request q r /\ sv_rest v = Stream l t.
Proof.
  intros hit rit hit' q q1 msg ro e k l t Hhit Hrit Hhit' Hb Hs Hsend Hpath Hne Hkv Hnul Hro.
  rewrite (built_handled hit rit hit' q q1 msg ro _ e wr0 l t) by done.
  destruct recorder_dispatch as (ro' & Hro' & Hdis). rewrite Hro in Hro'. injection Hro' as <-.
  set (r := Req _ _ _ _ (rq_body q)).
  rewrite (answer_ok _ _ _ _ _ _ _ _ _ (Hdis (rt_path (rq_route r)) (ctx_new r resp_new) wr0 (plain_ascii _ _ Hpath) eq_refl)).
  change (cx_resp _) with resp_new.
  destruct (respond_ok hit' (WTake k) resp_new e
      (World true (fun _ => Absent true) [] ∅ [r] : world (list req)) (Stream l t) Hhit') as (out & sent & cl & E & _);
    [intros ? ? Hx; cbn in Hx; by rewrite lookup_empty in Hx|done|done|done|].
  eexists _, r. split; [exact E|]. split; [done|]. split; [apply built_same|done].
Qed.

(** ** C49 *)

(** The response a client ends up with when the server sent [p]. *)
Definition same_response (p r : resp) : Prop :=
  rs_status r = rs_status p /\ rs_version r = rs_version p /\ rs_body r = rs_body p /\
  rs_header r !! clen = Some (int_to_string (Z.of_nat (length (rs_body p)))) /\
  forall k, k <> clen -> rs_header r !! k = rs_header p !! k.

Definition response_arrives_full : Prop := forall hit rit hit' q p p1 out k l t x,
  valid_order hit' -> resp_build hit' p [] = (kSuccess, p1, out) -> short out -> resp_sendable (rs_header p) ->
  client_send true hit rit (WTake (S k)) q resp_new (Stream (map Byte out ++ l) t) = Ok x -> st_rc x = kSuccess ->
  same_response p (st_resp x).

Lemma version_start v rest : LF ∉ take 3 (version_str v ++ rest).
Proof. destruct v; by_compute. Qed.

(** Missing: NUL bytes in the body. *)
Theorem response_arrives_partial : forall hit rit hit' q p p1 out k l t,
  valid_order hit' -> resp_build hit' p [] = (kSuccess, p1, out) -> short out -> resp_sendable (rs_header p) ->
  NUL ∉ rs_body p -> rs_version p <> vUNKNOWN ->
  rq_method q <> mUNKNOWN -> rq_version q <> vUNKNOWN ->
  exists x, client_send true hit rit (WTake (S k)) q resp_new (Stream (map Byte out ++ l) t) = Ok x /\
    st_rc x = kSuccess /\ same_response p (st_resp x) /\ st_rest x = Stream l t.
Proof.
  intros hit rit hit' q p p1 out k l t Hit Hb Hs Hsend Hnul Hver Hm Hv.
  assert (Hst : rs_status p <> sUNKNOWN).
  { intros E. unfold resp_build in Hb. by rewrite E in Hb. }
  rewrite resp_build_ok in Hb by done. apply (f_equal snd) in Hb; cbn [snd] in Hb; subst.
  destruct (resp_built_message hit' p Hit Hsend) as (Hmsg & HF & Hone & Hne).
  destruct (resp_built_line_ok p) as [Hl _].
  set (first := resp_built_line p) in *. set (hdrs := field_lines _) in *.
  destruct (message_head _ _ _ _ Hmsg) as (Ht & Hmh & Hsh).
  assert (Hsz : short (head_of first hdrs) /\ (N.of_nat (length (rs_body p)) < 2 ^ 31)%N).
  { rewrite Ht in Hs. unfold short in *. rewrite app_length in Hs. lia. }
  destruct Hsz as [Hshort Hbl].
  rewrite Ht, map_app, <- app_assoc.
  destruct (read_until_head (head_of first hdrs) (map Byte (rs_body p) ++ l) t Hsh Hshort) as [E Hpos].
  { unfold head_of, first, resp_built_line. rewrite <- app_assoc. apply version_start. }
  unfold client_send. cbn [negb]. rewrite req_build_ok by done.
  change (negb (kSuccess =? kSuccess)%Z) with false. cbv iota. cbn [sock_write mbind outcome_bind].
  set (text := built_line rit q ++ _).
  assert (Hw : (rc_of (take (S k) text) <=? 0)%Z = false).
  { apply Z.leb_gt. unfold rc_of. rewrite take_length.
    assert (0 < length text); [|lia]. unfold text. rewrite !app_length. simpl. lia. }
  rewrite Hw, E. cbn [mbind outcome_bind]. rewrite (proj2 (Z.leb_gt _ _) Hpos).
  assert (Hparse : resp_parse resp_new (head_of first hdrs) =
    Ok (kSuccess, Resp (rs_status p) (rs_version p) (resp_built_header p) [])).
  { rewrite (resp_parse_message _ _ _ _ _ (short_fits _ Hshort) Hmh).
    destruct (fits_resp_block _ _ _ _ (short_fits _ Hshort) Hmh) as [Hff Hfb].
    rewrite (resp_line_ok _ _ _ _ _ _ _ Hff Hl).
    rewrite stoi_int_to_string by (destruct (rs_status p); unfold int_min, int_max; simpl; lia).
    unfold hdrs in *. destruct (field_lines (hit' (resp_built_header p))) as [|h ls] eqn:El; [done|].
    cbn [resp_block] in Hfb |- *.
    rewrite (header_parse_fields _ _ _ Hfb ltac:(done) Hone HF). cbn [mbind outcome_bind rs_header resp_new].
    rewrite (insert_all_map (resp_built_header p)) by (apply Hit).
    by rewrite status_of_num_num, to_version_str. }
  rewrite Hparse. cbn [mbind outcome_bind rs_header rs_status rs_version].
  change (negb (kSuccess =? kSuccess)%Z) with false. cbv iota.
  assert (Hcl : resp_built_header p !! clen = Some (int_to_string (Z.of_nat (length (rs_body p))))).
  { unfold resp_built_header. rewrite lookup_insert. do 2 f_equal. unfold size. by apply to_int32_nat. }
  rewrite (content_length_of _ _ Hbl Hcl).
  assert (Hsame : same_response p (Resp (rs_status p) (rs_version p) (resp_built_header p) (rs_body p))).
  { do 3 (split; [done|]). split; [done|]. intros k' Hk. cbn [rs_header]. unfold resp_built_header.
    by rewrite lookup_insert_ne. }
  destruct (Z.ltb_spec 0 (Z.of_nat (length (rs_body p)))) as [Hlt|Hge].
  - unfold read_string. rewrite recv_all_enough by lia. cbn [mbind outcome_bind].
    rewrite Nat2Z.id, Z.eqb_refl. cbn [negb]. rewrite cstr_no_nul by done. by eexists.
  - assert (Hnil : rs_body p = []) by (apply nil_length_inv; lia). rewrite Hnil in *. by eexists.
Qed.

(** Both directions: the client gets the response the handlers made of its
    request. *)
Theorem exchange_partial : forall U hit rit hit' q q1 msg (ro : router U) e w c' w' n m,
  valid_order hit -> valid_order rit -> valid_order hit' ->
  req_build hit rit q [] = (kSuccess, q1, msg) -> short msg -> sendable (rq_header q) ->
  plain_except (B "?") (rt_path (rq_route q)) ->
  (rt_path (rq_route q) <> [] \/ rt_params (rq_route q) <> ∅) ->
  (forall k v, rt_params (rq_route q) !! k = Some v -> plain_except (B "=&") k /\ "&"%char ∉ v) ->
  NUL ∉ rq_body q ->
  dispatch ro (rt_path (rq_route q)) (ctx_new q1 resp_new) w = Ok (c', w') ->
  rs_status (cx_resp c') <> sUNKNOWN -> resp_sendable (rs_header (cx_resp c')) ->
  rs_version (cx_resp c') <> vUNKNOWN -> NUL ∉ rs_body (cx_resp c') ->
  (forall v, handle_read hit' (WTake n) ro e w (of_bytes msg Wait) = Ok v ->
    Forall (fun out => short out /\ length out <= n) (sv_wrote v)) ->
  exists v x, handle_read hit' (WTake n) ro e w (of_bytes msg Wait) = Ok v /\ sv_world v = w' /\
    client_send true hit rit (WTake (S m)) q resp_new (of_bytes (sv_sent v) Wait) = Ok x /\
    st_rc x = kSuccess /\ same_response (cx_resp c') (st_resp x).
Proof.
  intros U hit rit hit' q q1 msg ro e w c' w' n m Hhit Hrit Hhit' Hb Hs Hsend Hpath Hne Hkv Hnul Hd Hst Hrs Hrv Hrn Hlen.
  assert (Hm : rq_method q <> mUNKNOWN).
  { intros E. unfold req_build in Hb. by rewrite E in Hb. }
  assert (Hv : rq_version q <> vUNKNOWN).
  { intros E. unfold req_build in Hb. rewrite decide_False in Hb by done. by rewrite E in Hb. }
  pose proof (built_handled hit rit hit' q q1 msg ro (WTake n) e w [] Wait Hhit Hrit Hb Hs Hsend Hpath Hne Hkv Hnul) as Hr.
  rewrite app_nil_r in Hr. change (Stream (map Byte msg) Wait) with (of_bytes msg Wait) in Hr.
  assert (Hq1 : q1 = Req (rq_method q) (rq_version q) (built_header q) (rq_route q) (rq_body q)).
  { rewrite req_build_ok in Hb by done. by injection Hb as <- _. }
  rewrite <- Hq1 in Hr. assert (Hpq : rt_path (rq_route q) = rt_path (rq_route q1)) by by rewrite Hq1.
  rewrite Hpq in Hd. rewrite (answer_ok _ _ _ _ _ _ _ _ _ Hd) in Hr.
  unfold respond in Hr. rewrite decide_False in Hr by done. rewrite resp_build_ok in Hr by done.
  change (negb (kSuccess =? kSuccess)%Z) with false in Hr. cbn [negb sock_write mbind outcome_bind] in Hr.
  set (out := resp_built_line (cx_resp c') ++ _) in *.
  specialize (Hlen _ Hr). cbn [sv_wrote] in Hlen. apply Forall_cons in Hlen as [[Ho Hln] _].
  destruct (response_arrives_partial hit rit hit' q (cx_resp c') _ out m [] Wait Hhit' (resp_build_ok hit' _ [] Hst) Ho Hrs Hrn Hrv Hm Hv)
    as (x & Hx & Hrc & Hsame & _).
  rewrite app_nil_r in Hx. eexists _, x. split; [exact Hr|]. split; [done|]. cbn [sv_sent].
  rewrite take_ge by done. done.
Qed.

(** ** C50 *)

(** The exchange of a successful Send: the whole request was written, a complete
    response head was read, and as many bytes of body as it says. *)
Definition exchanged (q : req) (hit rit : iter_order) (s : stream) (x : sent) : Prop :=
  (exists q1, req_build hit rit q [] = (kSuccess, q1, st_bytes x)) /\
  exists head first hdrs b ver code reason raw,
    sm_items s = map Byte head ++ map Byte raw ++ sm_items (st_rest x) /\ message head first hdrs b /\
    status_line first ver code reason /\ is_ok (stoi code) /\ Forall (fun l => ":"%char ∈ l) hdrs /\
    forall n, (N.of_nat n < 2 ^ 31)%N -> rs_header (st_resp x) !! clen = Some (int_to_string (Z.of_nat n)) ->
      length raw = n.

Definition send_success_full : Prop := forall open hit rit wr q p s x,
  client_send open hit rit wr q p s = Ok x -> st_rc x = kSuccess -> open = true /\ exchanged q hit rit s x.

Lemma until_loop_prefix d l t ch buf rc b s' :
  until_loop d l t ch buf = Ok (rc, b, s') -> (0 < rc)%Z ->
  exists x, b = buf ++ x /\ l = map Byte x ++ sm_items s' /\ sm_tail s' = t /\
    exists c, until_goes_on d b c = Ok false.
Proof.
  revert ch buf. induction l as [|[c|] l IH]; intros ch buf; cbn [until_loop];
    destruct (until_goes_on d buf ch) as [[|]| | | | |] eqn:Eg; try done; cbn [mbind outcome_bind].
  - destruct t; [intros [= <- _ _]; lia|intros [= <- _ _]; lia|done].
  - intros [= _ <- <-] _. exists []. rewrite app_nil_r. by eauto.
  - intros H Hrc. destruct (IH _ _ H Hrc) as (x & -> & -> & Ht & Hg). exists (c :: x).
    rewrite <- app_assoc in Hg |- *. done.
  - intros [= _ <- <-] _. exists []. rewrite app_nil_r. by eauto.
  - intros [= <- _ _]. lia.
  - intros [= _ <- <-] _. exists []. rewrite app_nil_r. by eauto.
Qed.

Lemma goes_on_stops d b c : until_goes_on d b c = Ok false -> contains d b.
Proof.
  unfold until_goes_on. destruct (str_at d _) as [lc| | | | |]; try done. cbn [mbind outcome_bind].
  destruct (negb (Ascii.eqb c lc)); [done|].
  destruct (substr_from b _) as [u| | | | |] eqn:Es; try done. cbn [mbind outcome_bind].
  intros [= Hb]. apply negb_false_iff, bool_decide_eq_true in Hb. subst u.
  unfold substr_from, substr in Es. destruct (_ <? _)%N in Es; [done|]. injection Es as Es.
  set (n := N.to_nat _) in Es at 2. set (m := N.to_nat _) in Es.
  exists (take n b), (drop m (drop n b)). rewrite <- Es. by rewrite take_drop, take_drop.
Qed.

(** Missing: a write that fails (Send then returns success) or takes only part
    of the request. *)
Theorem send_success_partial : forall open hit rit k q p s x,
  (forall q1 msg, req_build hit rit q [] = (kSuccess, q1, msg) -> length msg <= k) ->
  (forall b rest, sm_items s = map Byte b ++ rest -> fits b) ->
  client_send open hit rit (WTake k) q p s = Ok x -> st_rc x = kSuccess -> open = true /\ exchanged q hit rit s x.
Proof.
  intros [|] hit rit k q p s x Hk Hfit H Hrc; [split; [done|]|by injection H as <-].
  unfold client_send in H. cbn [negb] in H.
  destruct (req_build hit rit q []) as [[rc q1] msg] eqn:Eb.
  destruct (Z.eqb_spec rc kSuccess) as [->|Hne]; cbn [negb] in H; [|injection H as <-; done].
  specialize (Hk _ _ eq_refl). cbn [sock_write mbind outcome_bind] in H. rewrite take_ge in H by done.
  assert (Hlen : 0 < length msg).
  { pose proof Eb as Eb'. unfold req_build in Eb'.
    repeat (destruct (decide _) in Eb'; [done|]). injection Eb' as _ <-. rewrite !app_length. simpl. lia. }
  rewrite (proj2 (Z.leb_gt _ _)) in H by (unfold rc_of; lia).
  destruct (read_until [] CRLFCRLF s) as [[[len head] s1]| | | | |] eqn:Eu; try done. cbn [mbind outcome_bind] in H.
  destruct (Z.leb_spec len 0) as [?|Hpos]; [by injection H as <-|].
  change (read_until [] CRLFCRLF s) with (until_loop CRLFCRLF (sm_items s) (sm_tail s) NUL []) in Eu.
  destruct (until_loop_prefix _ _ _ _ _ _ _ _ Eu Hpos) as (hd & -> & Hs & Ht & c & Hg). cbn [app] in *.
  assert (Hf : fits hd) by by eapply Hfit.
  apply goes_on_stops in Hg.
  destruct (message_exists (length hd) hd ltac:(lia) Hg) as (first & hdrs & b & Hm).
  destruct (response_accepted_iff p hd first hdrs b Hf Hm) as (rc2 & p1 & Hp & _ & _ & Hiff & _).
  rewrite Hp in H. cbn [mbind outcome_bind] in H.
  destruct (Z.eqb_spec rc2 kSuccess) as [->|Hne]; cbn [negb] in H; [|by injection H as <-].
  destruct (proj1 Hiff eq_refl) as (_ & Hcol & ver & code & reason & Hl & Hc).
  assert (Hgoal : forall raw, st_bytes x = msg -> sm_items s1 = map Byte raw ++ sm_items (st_rest x) ->
    (forall n, (N.of_nat n < 2 ^ 31)%N -> rs_header (st_resp x) !! clen = Some (int_to_string (Z.of_nat n)) -> length raw = n) ->
    exchanged q hit rit s x).
  { intros raw Hb Hr Hn. split; [exists q1; by rewrite Hb|].
    exists hd, first, hdrs, b, ver, code, reason, raw. rewrite Hs, Hr. done. }
  destruct (Z.ltb_spec 0 (header_get_content_length (rs_header p1))) as [Hlt|Hge].
  - destruct (read_string true 0 _ s1) as [[[rl body] s2]| | | | |] eqn:Er; try done. cbn [mbind outcome_bind] in H.
    destruct (Z.eqb_spec rl (header_get_content_length (rs_header p1))) as [->|?]; cbn [negb] in H; [|by injection H as <-].
    injection H as <-. unfold read_string in Er.
    destruct (recv_all _ s1) as [[[rl' raw] s2']| | | | |] eqn:Ea; try done. cbn [mbind outcome_bind] in Er.
    injection Er as -> <- ->.
    destruct (recv_all_spec _ _ _ _ _ Ea Hlt) as (Hlen2 & _ & _ & mid & Hr & Hmid).
    destruct Hmid as [->|[-> Hx]]; [|lia].
    apply (Hgoal raw); [done|done|]. cbn [st_resp rs_header]. intros n Hn Hh.
    rewrite (content_length_of _ _ Hn Hh) in Hlen2. lia.
  - injection H as <-. apply (Hgoal []); [done|done|]. cbn [st_resp rs_header]. intros n Hn Hh.
    rewrite (content_length_of _ _ Hn Hh) in Hge. simpl. lia.
Qed.

(** ** Examples and refutations *)
Definition ex_q (path : string) (body : bytes) : req := Req mPOST v1_1 {[ B "X-A" := B "1" ]} (Route (B path) ∅) body.

Lemma ex_q_sendable path body : sendable (rq_header (ex_q path body)).
Proof.
  intros k v Hk Hne. cbn [rq_header ex_q] in Hk. apply lookup_singleton_Some in Hk as [<- <-].
  split; [|by left]. repeat split; [by_compute| | |done]; intros H; by apply find_idx_None_contains in H.
Qed.

Example request_arrives_ex : exists q1 msg ro v r,
  req_build map_to_list map_to_list (ex_q "/a/b.html" (B "body")) [] = (kSuccess, q1, msg) /\
  handle_read map_to_list (WTake 0) ro [] wr0 (of_bytes msg Wait) = Ok v /\
  w_user (sv_world v) = [r] /\ same_request (ex_q "/a/b.html" (B "body")) r.
Proof.
  destruct recorder_dispatch as (ro & Hro & _).
  destruct (req_build map_to_list map_to_list (ex_q "/a/b.html" (B "body")) []) as [[rc q1] msg] eqn:E.
  assert (rc = kSuccess) as -> by (by vm_compute in E; injection E as <- _ _).
  assert (Hs : short msg) by (vm_compute in E; injection E as _ <-; by vm_compute).
  destruct (request_arrives_partial map_to_list map_to_list map_to_list _ q1 msg ro [] 0 [] Wait
    valid_order_sorted valid_order_sorted valid_order_sorted E Hs (ex_q_sendable _ _)) as (v & r & H & Hu & Hr & _).
  - unfold plain_except. by_compute.
  - by left.
  - intros k v Hk. cbn in Hk. by rewrite lookup_empty in Hk.
  - by_compute.
  - done.
  - rewrite app_nil_r in H. by exists q1, msg, ro, v, r.
Qed.

(** A NUL byte in the body. *)
Theorem request_arrives_refuted : ~ request_arrives_full.
Proof.
  intros H. destruct recorder_dispatch as (ro & Hro & _).
  pose (q := ex_q "/a" (B "x" ++ [NUL] ++ B "y")).
  destruct (req_build map_to_list map_to_list q []) as [[rc q1] msg] eqn:E.
  assert (rc = kSuccess) as -> by (by vm_compute in E; injection E as <- _ _).
  assert (Hs : short msg) by (vm_compute in E; injection E as _ <-; by vm_compute).
  destruct (H _ _ _ _ _ _ ro [] 0 [] Wait valid_order_sorted valid_order_sorted valid_order_sorted E Hs (ex_q_sendable _ _))
    as (v & r & Hv & Hu & (_ & _ & _ & Hb & _)); [by_compute|done|by_compute|done|].
  vm_compute in Hro. injection Hro as <-. vm_compute in E. injection E as _ <-.
  vm_compute in Hv. injection Hv as <-. cbn in Hu. injection Hu as <-. by vm_compute in Hb.
Qed.

Definition ex_p (body : bytes) : resp := Resp sOK v1_1 {[ B "X-B" := B "2" ]} body.
Lemma ex_p_sendable body : resp_sendable (rs_header (ex_p body)).
Proof.
  intros k v Hk Hne. cbn [rs_header ex_p] in Hk. apply lookup_singleton_Some in Hk as [<- <-].
  split; [|done]. repeat split; [by_compute| | |done]; intros H; by apply find_idx_None_contains in H.
Qed.

Example response_arrives_ex : exists p1 out x,
  resp_build map_to_list (ex_p (B "data")) [] = (kSuccess, p1, out) /\
  client_send true map_to_list map_to_list (WTake 500) (ex_q "/" []) resp_new (of_bytes out Eof) = Ok x /\
  st_rc x = kSuccess /\ same_response (ex_p (B "data")) (st_resp x).
Proof.
  destruct (resp_build map_to_list (ex_p (B "data")) []) as [[rc p1] out] eqn:E.
  assert (rc = kSuccess) as -> by (by vm_compute in E; injection E as <- _ _).
  assert (Hs : short out) by (vm_compute in E; injection E as _ <-; by vm_compute).
  destruct (response_arrives_partial map_to_list map_to_list map_to_list (ex_q "/" []) _ p1 out 499 [] Eof
    valid_order_sorted E Hs (ex_p_sendable _)) as (x & Hx & Hrc & Hsame & _); [by_compute|done|done|done|].
  rewrite app_nil_r in Hx. by exists p1, out, x.
Qed.

Theorem response_arrives_refuted : ~ response_arrives_full.
Proof.
  intros H. pose (p := ex_p (B "x" ++ [NUL] ++ B "y")).
  destruct (resp_build map_to_list p []) as [[rc p1] out] eqn:E.
  assert (rc = kSuccess) as -> by (by vm_compute in E; injection E as <- _ _).
  assert (Hs : short out) by (vm_compute in E; injection E as _ <-; by vm_compute).
  destruct (client_send true map_to_list map_to_list (WTake 500) (ex_q "/" []) resp_new (Stream (map Byte out ++ []) Eof))
    as [x| | | | |] eqn:Ex; try (vm_compute in E; injection E as _ <-; by vm_compute in Ex).
  pose proof (H _ _ _ _ p p1 out 499 [] Eof x valid_order_sorted E Hs (ex_p_sendable _) Ex) as (_ & _ & Hb & _).
  - vm_compute in E. injection E as _ <-. vm_compute in Ex. by injection Ex as <-.
  - vm_compute in E. injection E as _ <-. vm_compute in Ex. injection Ex as <-. by vm_compute in Hb.
Qed.

(** The write fails: nothing is sent, nothing received, and Send returns
    success. *)
Theorem failed_write_is_success : forall hit rit q p s,
  rq_method q <> mUNKNOWN -> rq_version q <> vUNKNOWN ->
  exists q1, client_send true hit rit WFail q p s = Ok (Sent kSuccess q1 p s []).
Proof.
  intros hit rit q p s Hm Hv. unfold client_send. cbn [negb]. rewrite req_build_ok by done.
  change (negb (kSuccess =? kSuccess)%Z) with false. cbv iota. by eexists.
Qed.

Theorem send_success_refuted : ~ send_success_full.
Proof.
  intros H. destruct (failed_write_is_success map_to_list map_to_list (ex_q "/" []) resp_new (Stream [] Wait))
    as (q1 & Hx); [done|done|].
  destruct (H _ _ _ _ _ _ _ _ Hx eq_refl) as [_ [_ (hd & f & hs & b & v & c & re & raw & Hi & Hm & _)]].
  cbn [sm_items] in Hi. destruct hd; [|done]. destruct Hm as (Hm & _). symmetry in Hm. by apply app_eq_nil in Hm as [_ Hm].
Qed.

Example send_success_ex : exists x,
  client_send true map_to_list map_to_list (WTake 500) (ex_q "/" []) resp_new
    (of_bytes (B "HTTP/1.1 200 OK" ++ CRLF ++ B "Content-Length: 2" ++ CRLFCRLF ++ B "hi!") Wait) = Ok x /\
  st_rc x = kSuccess /\ rs_body (st_resp x) = B "hi" /\ st_rest x = of_bytes (B "!") Wait.
Proof. eexists. split; [by vm_compute|]. by vm_compute. Qed.

(** ** C157 *)
(** Send with a response object that has been used gives what it gives with a new one.
    ([st_rest y <> s]: an answer was read, see [failed_write_is_success].) *)
Definition response_reuse_full : Prop := forall hit rit wr q p s y,
  client_send true hit rit wr q resp_new s = Ok y -> st_rc y = kSuccess -> st_rest y <> s ->
  client_send true hit rit wr q p s = Ok y.

Lemma header_lines_reuse l : forall h h1 rc m, header_lines h1 l = Ok (rc, m) ->
  header_lines (h1 ∪ h) l = Ok (rc, m ∪ h).
Proof.
  induction l as [|it l IH]; intros h h1 rc m H; cbn [header_lines] in *; [by injection H as <- <-|].
  destruct (header_line it) as [[[k v]|]| | | | |]; try done; cbn [mbind outcome_bind] in *.
  - unfold header_add in *. rewrite insert_union_l. by apply IH.
  - by injection H as <- <-.
Qed.

Lemma resp_parse_reuse p s rc p1 : resp_parse resp_new s = Ok (rc, p1) -> rc = kSuccess ->
  resp_parse p s = Ok (rc, Resp (rs_status p1) (rs_version p1) (rs_header p1 ∪ rs_header p) (rs_body p1)).
Proof.
  unfold resp_parse. intros H Hrc. destruct s as [|c0 s0]; [by injection H as <- _|]. set (s := c0 :: s0) in *.
  destruct (str_find s CRLF 0 =? npos)%N; [by injection H as <- _|].
  destruct (substr s 0 _) as [first| | | | |]; try done. cbn [mbind outcome_bind] in *.
  destruct (substr s _ _) as [hdr| | | | |]; try done. cbn [mbind outcome_bind] in *.
  destruct (substr_from s _) as [body| | | | |]; try done. cbn [mbind outcome_bind] in *.
  destruct (_ =? npos)%N; [by injection H as <- _|].
  destruct (_ =? npos)%N; [by injection H as <- _|].
  destruct (substr first 0 _) as [ver| | | | |]; try done. cbn [mbind outcome_bind] in *.
  destruct (substr first _ _) as [code| | | | |]; try done. cbn [mbind outcome_bind] in *.
  destruct (substr_from first _) as [reason| | | | |]; try done. cbn [mbind outcome_bind] in *.
  destruct (stoi code) as [n| | | | |]; try (by injection H as <- _).
  unfold header_parse in *. destruct hdr as [|c hdr].
  - cbn [mbind outcome_bind] in H. injection H as <- _. by vm_compute in Hrc.
  - destruct (str_split (c :: hdr) CRLF [] false) as [single| | | | |]; try done. cbn [mbind outcome_bind] in *.
    cbn [rs_header resp_new] in H. destruct (header_lines ∅ single) as [[hrc h]| | | | |] eqn:E; try done.
    apply (header_lines_reuse _ (rs_header p)) in E. rewrite (left_id_L ∅ (∪)) in E. rewrite E.
    cbn [mbind outcome_bind] in *. by injection H as <- <-.
Qed.

(** Missing: headers of the old response shine through where the new one has none. *)
Theorem response_reuse_partial : forall hit rit wr q p s y,
  client_send true hit rit wr q resp_new s = Ok y -> st_rc y = kSuccess -> st_rest y <> s ->
  rs_header (st_resp y) !! clen <> None \/ rs_header p !! clen = None ->
  client_send true hit rit wr q p s =
    Ok (Sent (st_rc y) (st_req y)
      (Resp (rs_status (st_resp y)) (rs_version (st_resp y)) (rs_header (st_resp y) ∪ rs_header p) (rs_body (st_resp y)))
      (st_rest y) (st_bytes y)).
Proof.
  intros hit rit wr q p s y H Hrc Hrest Hlen. unfold client_send in *. cbn [negb] in *.
  destruct (req_build hit rit q []) as [[rc q'] msg].
  destruct (negb (rc =? kSuccess)%Z); [injection H as <-; by destruct Hrest|].
  destruct (sock_write wr msg) as [[len out]| | | | |]; try done. cbn [mbind outcome_bind] in *.
  destruct (len <=? 0)%Z; [injection H as <-; by destruct Hrest|].
  destruct (read_until [] CRLFCRLF s) as [[[len1 str] s1]| | | | |]; try done. cbn [mbind outcome_bind] in *.
  destruct (len1 <=? 0)%Z; [by injection H as <-|].
  destruct (resp_parse resp_new str) as [[rc1 p1]| | | | |] eqn:Ep; try done. cbn [mbind outcome_bind] in *.
  destruct (Z.eqb_spec rc1 kSuccess) as [->|Hne]; [|cbn [negb] in H; injection H as <-; done].
  rewrite (resp_parse_reuse p _ _ _ Ep eq_refl). cbn [mbind outcome_bind negb] in *.
  cbn [rs_header].
  assert (Hcl : forall h, (rs_header p1 = h) -> (h !! clen <> None \/ rs_header p !! clen = None) ->
    header_get_content_length (h ∪ rs_header p) = header_get_content_length h).
  { intros h _ Hh. unfold header_get_content_length. change (B "Content-Length") with clen.
    destruct (h !! clen) as [v|] eqn:Ev.
    - by rewrite (lookup_union_Some_l _ _ _ _ Ev).
    - destruct Hh as [Hh|Hh]; [done|]. by rewrite lookup_union_r, Hh. }
  destruct (0 <? header_get_content_length (rs_header p1))%Z eqn:El.
  - destruct (read_string true 0 (Z.to_nat (header_get_content_length (rs_header p1))) s1) as [[[n body] s2]| | | | |] eqn:Er;
      try done. cbn [mbind outcome_bind] in *.
    destruct (negb (n =? header_get_content_length (rs_header p1))%Z) eqn:En; [injection H as <-; done|].
    injection H as <-. cbn [st_resp rs_header] in Hlen. rewrite (Hcl _ eq_refl Hlen), El, Er.
    cbn [mbind outcome_bind]. rewrite En. done.
  - injection H as <-. cbn [st_resp rs_header] in Hlen. rewrite (Hcl _ eq_refl Hlen), El. done.
Qed.

Definition no_length : bytes := B "HTTP/1.1 404 Not Found" ++ CRLF ++ B "X-A: 1" ++ CRLFCRLF.
(** The length of an old response makes the client wait for a body that never comes. *)
Theorem response_reuse_refuted : ~ response_reuse_full.
Proof.
  intros H.
  destruct (client_send true map_to_list map_to_list (WTake 500) (ex_q "/" []) resp_new (of_bytes no_length Wait))
    as [y| | | | |] eqn:E; try by vm_compute in E.
  assert (Hy : st_rc y = kSuccess /\ st_rest y <> of_bytes no_length Wait).
  { vm_compute in E. injection E as <-. done. }
  destruct Hy as [Hrc Hrest].
  pose proof (H _ _ _ _ (Resp sOK v1_1 {[ clen := B "5" ]} (B "hello")) _ _ E Hrc Hrest) as Hx.
  by vm_compute in Hx.
Qed.

Example response_reuse_ex : exists y,
  client_send true map_to_list map_to_list (WTake 500) (ex_q "/" []) resp_new (of_bytes no_length Wait) = Ok y /\
  st_rc y = kSuccess /\ st_rest y <> of_bytes no_length Wait /\
  client_send true map_to_list map_to_list (WTake 500) (ex_q "/" []) (Resp sOK v1_1 {[ B "X-B" := B "2" ]} (B "hello"))
    (of_bytes no_length Wait) = Ok (Sent 0 (st_req y) (Resp sNOT_FOUND v1_1 {[ B "X-A" := B "1"; B "X-B" := B "2" ]} [])
      (of_bytes [] Wait) (st_bytes y)).
Proof. eexists. split; [by vm_compute|]. split; [done|]. split; [done|]. by vm_compute. Qed.

Print Assumptions request_arrives_partial.
Print Assumptions request_arrives_refuted.
Print Assumptions response_arrives_partial.
Print Assumptions response_arrives_refuted.
Print Assumptions exchange_partial.
Print Assumptions send_success_partial.
Print Assumptions send_success_refuted.
Print Assumptions failed_write_is_success.
Print Assumptions response_reuse_partial.
Print Assumptions response_reuse_refuted.
