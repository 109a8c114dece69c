(** C200: bodies with NUL bytes, between a client and a server
    (src/cppnet/http/client/http_client.cpp, HttpServer::HandleRead, Socket::Read). *)
From Verif.Proof Require Import ServerProof.
From Verif.Props Require Import MessageProps RouterProps ServerProps ClientProps.

Local Notation host := (B "Host").
Local Notation clen := (B "Content-Length").

(** [part] is what [b] has before its first NUL byte. *)
Definition before_nul (b part : bytes) : Prop :=
  NUL ∉ part /\ exists rest, b = part ++ rest /\ (rest = [] \/ head rest = Some NUL).

Lemma before_nul_cstr b part : before_nul b part -> cstr b = part.
Proof.
  intros [Hn (rest & -> & Hr)]. induction part as [|c part IH]; cbn [app].
  - destruct Hr as [->|Hr]; [done|]. destruct rest as [|c rest]; [done|]. injection Hr as ->. done.
  - apply not_elem_of_cons in Hn as [Hc Hn]. cbn [cstr].
    destruct (Ascii.eqb_spec c NUL) as [->|_]; [done|]. f_equal. by apply IH.
Qed.

(** [r] is the request [q], except that its body is [part]; the length is still that
    of the whole body. *)
Definition arrived_request (q : req) (part : bytes) (r : req) : Prop :=
  rq_method r = rq_method q /\ rq_version r = rq_version q /\ rq_route r = rq_route q /\ rq_body r = part /\
  rq_header r !! clen = Some (int_to_string (Z.of_nat (length (rq_body q)))) /\
  (forall k, k <> clen -> k <> host -> rq_header r !! k = rq_header q !! k) /\
  (forall c v, rq_header q !! host = Some (c :: v) -> rq_header r !! host = Some (c :: v)).
Definition arrived_response (p : resp) (part : bytes) (r : resp) : Prop :=
  rs_status r = rs_status p /\ rs_version r = rs_version p /\ rs_body r = part /\
  rs_header r !! clen = Some (int_to_string (Z.of_nat (length (rs_body p)))) /\
  forall k, k <> clen -> rs_header r !! k = rs_header p !! k.

Section binary.
Context {U : Type}.

Lemma handle_read_message_cut hit wr (ro : router U) e w text first hdrs r body part l t :
  short text -> message text first hdrs body -> good_line first -> before_nul body part ->
  req_parse req_new (head_of first hdrs) =
    Ok (kSuccess, Req (rq_method r) (rq_version r) (rq_header r) (rq_route r) []) ->
  (header_get_content_length (rq_header r) = Z.of_nat (length body) \/
   (body = [] /\ (header_get_content_length (rq_header r) <= 0)%Z)) -> rq_body r = part ->
  handle_read hit wr ro e w (Stream (map Byte text ++ l) t) = answer hit wr ro r e w (Stream l t).
Proof.
  intros Hs Hm Hg Hn Hp Hcl Hpart.
  destruct (message_head _ _ _ _ Hm) as (Ht & _ & Hsh).
  assert (Hsh' : short (head_of first hdrs)).
  { rewrite Ht in Hs. unfold short in *. rewrite app_length in Hs. lia. }
  rewrite Ht, map_app, <- app_assoc.
  destruct (read_until_head (head_of first hdrs) (map Byte body ++ l) t Hsh Hsh') as [E Hpos].
  { unfold head_of. by apply good_line_start. }
  unfold handle_read. rewrite E. cbn [mbind outcome_bind].
  rewrite (proj2 (Z.leb_gt _ _) Hpos), Hp. cbn [mbind outcome_bind rq_header].
  change (negb (kSuccess =? kSuccess)%Z) with false. cbv iota.
  pose proof (before_nul_cstr _ _ Hn) as Hc.
  destruct (Z.ltb_spec 0 (header_get_content_length (rq_header r))) as [Hlt|Hge].
  - destruct Hcl as [Hcl|[_ ?]]; [|lia]. rewrite Hcl. unfold read_string. rewrite recv_all_enough by lia. cbn [mbind outcome_bind].
    rewrite (proj2 (Z.leb_gt _ _)) by lia. rewrite Hc, <- Hpart. by destruct r.
  - assert (body = []) as -> by (destruct Hcl as [?|[? _]]; [apply nil_length_inv; lia|done]). cbn [cstr] in Hc. subst part.
    destruct r. cbn in *. by subst.
Qed.

Lemma built_handled_cut hit rit hit' q q1 msg (ro : router U) wr e w part l t :
  valid_order hit -> valid_order rit ->
  req_build hit rit q [] = (kSuccess, q1, msg) -> short msg -> sendable (rq_header q) ->
  plain_except (B "?") (rt_path (rq_route q)) ->
  (rt_path (rq_route q) <> [] \/ rt_params (rq_route q) <> ∅) ->
  (forall k v, rt_params (rq_route q) !! k = Some v -> plain_except (B "=&") k /\ "&"%char ∉ v) ->
  before_nul (rq_body q) part ->
  handle_read hit' wr ro e w (Stream (map Byte msg ++ l) t) =
    answer hit' wr ro (Req (rq_method q) (rq_version q) (built_header q) (rq_route q) part) e w (Stream l t).
Proof.
  intros Hhit Hrit Hb Hs Hsend Hpath Hne Hkv Hnul.
  destruct (req_round_trip hit rit q [] msg q1 Hhit Hrit Hb Hs Hsend Hpath Hne Hkv) as [Hp _].
  assert (Hm : rq_method q <> mUNKNOWN).
  { intros E. unfold req_build in Hb. by rewrite E in Hb. }
  assert (Hv : rq_version q <> vUNKNOWN).
  { intros E. unfold req_build in Hb. rewrite decide_False in Hb by done. by rewrite E in Hb. }
  rewrite req_build_ok in Hb by done. apply (f_equal snd) in Hb; cbn [snd] in Hb; subst.
  destruct (built_message hit rit q Hhit Hsend) as [Hmsg HL].
  set (r := Req _ _ _ _ part).
  set (first := built_line rit q) in *. set (hdrs := field_lines _) in *.
  destruct (message_head _ _ _ _ Hmsg) as (Ht & Hmh & _).
  assert (Hsh : short (head_of first hdrs)).
  { rewrite Ht in Hs. unfold short in *. rewrite app_length in Hs. lia. }
  rewrite (req_parse_message _ _ _ _ _ _ (short_fits _ Hs) Hmsg HL) in Hp.
  eapply (handle_read_message_cut hit' wr ro e w _ first hdrs r); [done|exact Hmsg| |exact Hnul| | |done].
  - destruct (req_line_total req_new (insert_all (rq_header req_new) (hit (built_header q))) (rq_body q) first)
      as (rc & r' & E & _ & Hiff); [by eapply message_short_first|].
    rewrite E in Hp. injection Hp as -> ->. by apply Hiff.
  - rewrite (req_parse_message _ _ _ _ _ _ (short_fits _ Hsh) Hmh HL).
    by apply (req_line_body _ _ _ [] _ _ _ Hp).
  - left. cbn [rq_header rq_body r]. apply content_length_of.
    + rewrite Ht in Hs. unfold short in Hs. rewrite app_length in Hs. lia.
    + unfold built_header. rewrite lookup_insert. do 2 f_equal. unfold size. apply to_int32_nat.
      rewrite Ht in Hs. unfold short in Hs. rewrite app_length in Hs. lia.
Qed.

Lemma request_text_cut hit wr (ro : router U) e w text r part l t :
  short text -> request_text exact_name text r -> before_nul (rq_body r) part ->
  handle_read hit wr ro e w (Stream (map Byte text ++ l) t) =
    answer hit wr ro (Req (rq_method r) (rq_version r) (rq_header r) (rq_route r) part) e w (Stream l t).
Proof.
  intros Hs Hr Hn. destruct (request_text_parts _ _ Hs Hr) as (first & hdrs & Hm & Hg & Hp & Hcl).
  by apply (handle_read_message_cut hit wr ro e w text first hdrs
    (Req (rq_method r) (rq_version r) (rq_header r) (rq_route r) part) (rq_body r) part).
Qed.
End binary.

(** ** C200 *)

(** What the library sends for [q] arrives, up to the first NUL byte of the body; what
    comes after it on the connection is still there. *)
Theorem binary_request_arrives : forall hit rit hit' q q1 msg part ro e k l t,
  valid_order hit -> valid_order rit -> valid_order hit' ->
  req_build hit rit q [] = (kSuccess, q1, msg) -> short msg -> sendable (rq_header q) ->
  plain_except (B "?") (rt_path (rq_route q)) ->
  (rt_path (rq_route q) <> [] \/ rt_params (rq_route q) <> ∅) ->
  (forall k v, rt_params (rq_route q) !! k = Some v -> plain_except (B "=&") k /\ "&"%char ∉ v) ->
  before_nul (rq_body q) part ->
  register [] [] recorder router_new = Ok (kSuccess, ro) ->
  exists v r, handle_read hit' (WTake k) ro e wr0 (Stream (map Byte msg ++ l) t) = Ok v /\
    w_user (sv_world v) = [r] /\ arrived_request q part r /\ sv_rest v = Stream l t.
Proof.
  intros hit rit hit' q q1 msg part ro e k l t Hhit Hrit Hhit' Hb Hs Hsend Hpath Hne Hkv Hnul Hro.
  rewrite (built_handled_cut hit rit hit' q q1 msg ro _ e wr0 part l t) by done.
  destruct recorder_dispatch as (ro' & Hro' & Hdis). rewrite Hro in Hro'. injection Hro' as <-.
  set (r := Req _ _ _ _ part).
  rewrite (answer_ok _ _ _ _ _ _ _ _ _ (Hdis (rt_path (rq_route r)) (ctx_new r resp_new) wr0 (plain_ascii _ _ Hpath) eq_refl)).
  change (cx_resp _) with resp_new.
  destruct (respond_ok hit' (WTake k) resp_new e
      (World true (fun _ => Absent true) [] ∅ [r] : world (list req)) (Stream l t) Hhit') as (out & sent & cl & E & _);
    [intros ? ? Hx; cbn in Hx; by rewrite lookup_empty in Hx|done|done|done|].
  eexists _, r. split; [exact E|]. split; [done|]. split; [|done].
  destruct (built_same q) as (H1 & H2 & H3 & _ & H5 & H6).
  split; [exact H1|]. split; [exact H2|]. split; [exact H3|]. split; [done|]. split; [|by split].
  cbn [rq_header r]. unfold built_header. rewrite lookup_insert. do 2 f_equal. unfold size. apply to_int32_nat.
  assert (Hm : rq_method q <> mUNKNOWN).
  { intros Em. unfold req_build in Hb. by rewrite Em in Hb. }
  assert (Hv : rq_version q <> vUNKNOWN).
  { intros Ev. unfold req_build in Hb. rewrite decide_False in Hb by done. by rewrite Ev in Hb. }
  rewrite req_build_ok in Hb by done. apply (f_equal snd) in Hb; cbn [snd] in Hb; subst.
  unfold short in Hs. rewrite !app_length in Hs. lia.
Qed.

(** The same for what a server sends. *)
Theorem binary_response_arrives : forall hit rit hit' q p p1 out part k l t,
  valid_order hit' -> resp_build hit' p [] = (kSuccess, p1, out) -> short out -> resp_sendable (rs_header p) ->
  before_nul (rs_body p) part -> rs_version p <> vUNKNOWN ->
  rq_method q <> mUNKNOWN -> rq_version q <> vUNKNOWN ->
  exists x, client_send true hit rit (WTake (S k)) q resp_new (Stream (map Byte out ++ l) t) = Ok x /\
    st_rc x = kSuccess /\ arrived_response p part (st_resp x) /\ st_rest x = Stream l t.
Proof.
  intros hit rit hit' q p p1 out part k l t Hit Hb Hs Hsend Hnul Hver Hm Hv.
  assert (Hst : rs_status p <> sUNKNOWN).
  { intros E. unfold resp_build in Hb. by rewrite E in Hb. }
  rewrite resp_build_ok in Hb by done. apply (f_equal snd) in Hb; cbn [snd] in Hb; subst.
  destruct (resp_built_message hit' p Hit Hsend) as (Hmsg & HF & Hone & Hne).
  destruct (resp_built_line_ok p) as [Hl _].
  set (first := resp_built_line p) in *. set (hdrs := field_lines _) in *.
  destruct (message_head _ _ _ _ Hmsg) as (Ht & Hmh & Hsh).
  assert (Hsz : short (head_of first hdrs) /\ (N.of_nat (length (rs_body p)) < 2 ^ 31)%N).
  { rewrite Ht in Hs. unfold short in *. rewrite app_length in Hs. lia. }
  destruct Hsz as [Hshort Hbl].
  rewrite Ht, map_app, <- app_assoc.
  destruct (read_until_head (head_of first hdrs) (map Byte (rs_body p) ++ l) t Hsh Hshort) as [E Hpos].
  { unfold head_of, first, resp_built_line. rewrite <- app_assoc. apply version_start. }
  unfold client_send. cbn [negb]. rewrite req_build_ok by done.
  change (negb (kSuccess =? kSuccess)%Z) with false. cbv iota. cbn [sock_write mbind outcome_bind].
  set (text := built_line rit q ++ _).
  assert (Hw : (rc_of (take (S k) text) <=? 0)%Z = false).
  { apply Z.leb_gt. unfold rc_of. rewrite take_length.
    assert (0 < length text); [|lia]. unfold text. rewrite !app_length. simpl. lia. }
  rewrite Hw, E. cbn [mbind outcome_bind]. rewrite (proj2 (Z.leb_gt _ _) Hpos).
  assert (Hparse : resp_parse resp_new (head_of first hdrs) =
    Ok (kSuccess, Resp (rs_status p) (rs_version p) (resp_built_header p) [])).
  { rewrite (resp_parse_message _ _ _ _ _ (short_fits _ Hshort) Hmh).
    destruct (fits_resp_block _ _ _ _ (short_fits _ Hshort) Hmh) as [Hff Hfb].
    rewrite (resp_line_ok _ _ _ _ _ _ _ Hff Hl).
    rewrite stoi_int_to_string by (destruct (rs_status p); unfold int_min, int_max; simpl; lia).
    unfold hdrs in *. destruct (field_lines (hit' (resp_built_header p))) as [|h ls] eqn:El; [done|].
    cbn [resp_block] in Hfb |- *.
    rewrite (header_parse_fields _ _ _ Hfb ltac:(done) Hone HF). cbn [mbind outcome_bind rs_header resp_new].
    rewrite (insert_all_map (resp_built_header p)) by (apply Hit).
    by rewrite status_of_num_num, to_version_str. }
  rewrite Hparse. cbn [mbind outcome_bind rs_header rs_status rs_version].
  change (negb (kSuccess =? kSuccess)%Z) with false. cbv iota.
  assert (Hcl : resp_built_header p !! clen = Some (int_to_string (Z.of_nat (length (rs_body p))))).
  { unfold resp_built_header. rewrite lookup_insert. do 2 f_equal. unfold size. by apply to_int32_nat. }
  rewrite (content_length_of _ _ Hbl Hcl).
  assert (Hsame : arrived_response p part (Resp (rs_status p) (rs_version p) (resp_built_header p) part)).
  { do 3 (split; [done|]). split; [done|]. intros k' Hk. cbn [rs_header]. unfold resp_built_header.
    by rewrite lookup_insert_ne. }
  pose proof (before_nul_cstr _ _ Hnul) as Hc.
  destruct (Z.ltb_spec 0 (Z.of_nat (length (rs_body p)))) as [Hlt|Hge].
  - unfold read_string. rewrite recv_all_enough by lia. cbn [mbind outcome_bind].
    rewrite Nat2Z.id, Z.eqb_refl. cbn [negb]. rewrite Hc. by eexists.
  - assert (Hnil : rs_body p = []) by (apply nil_length_inv; lia). rewrite Hnil in *. cbn [cstr] in Hc. subst part. by eexists.
Qed.

(** Any requests that follow each other on a connection, with any bodies, are handled
    one after the other. *)
Theorem binary_keeps_step : forall hit e texts rs wrs ro l t,
  valid_order hit -> register [] [] recorder router_new = Ok (kSuccess, ro) ->
  Forall2 (request_text exact_name) texts rs -> Forall short texts ->
  Forall (fun r => ascii_only (rt_path (rq_route r))) rs ->
  length wrs = length rs -> Forall (fun wr => exists k, wr = WTake k) wrs ->
  exists w' outs, serve hit wrs ro e wr0 (Stream (map Byte (concat texts) ++ l) t) = Ok (w', Stream l t, outs, false) /\
    length outs = length rs /\
    Forall2 (fun r r' => exists part, before_nul (rq_body r) part /\
      r' = Req (rq_method r) (rq_version r) (rq_header r) (rq_route r) part) rs (w_user w').
Proof.
  intros hit e texts rs wrs ro l t Hit Hro HF Hsh Hall Hlen Hwr.
  destruct recorder_dispatch as (ro' & Hro' & Hdis). rewrite Hro in Hro'. injection Hro' as <-.
  assert (Hgen : forall w, w_running w = true ->
    exists w' outs rs', serve hit wrs ro e w (Stream (map Byte (concat texts) ++ l) t) = Ok (w', Stream l t, outs, false) /\
      length outs = length rs /\ w_user w' = w_user w ++ rs' /\
      Forall2 (fun r r' => exists part, before_nul (rq_body r) part /\
        r' = Req (rq_method r) (rq_version r) (rq_header r) (rq_route r) part) rs rs').
  { revert wrs Hlen Hwr. induction HF as [|text r texts rs Hr HF IH]; intros wrs Hlen Hwr w Hw.
    - destruct wrs; [|done]. exists w, [], []. cbn. split; [done|]. split; [done|]. by rewrite app_nil_r.
    - destruct wrs as [|wr wrs]; [done|]. apply Forall_cons in Hsh as [Hs Hsh].
      apply Forall_cons in Hall as [Ha Hall]. apply Forall_cons in Hwr as [[k ->] Hwr].
      cbn [serve concat]. rewrite map_app, <- app_assoc.
      destruct (cstr_split (rq_body r)) as (c & Hc1 & Hc2 & Hc3).
      assert (Hn : before_nul (rq_body r) (cstr (rq_body r))) by (split; [done|]; by exists c).
      set (part := cstr (rq_body r)) in *. clearbody part.
      rewrite (request_text_cut hit _ ro e w text r part _ t Hs Hr Hn).
      set (r1 := Req _ _ _ _ part).
      pose proof (Hdis (rt_path (rq_route r1)) (ctx_new r1 resp_new) w Ha Hw) as Hd.
      rewrite (answer_ok _ _ _ _ _ _ _ _ _ Hd).
      set (w1 := World (w_running w) (w_fs w) (w_opened w) (w_custom w) (w_user w ++ [r1])).
      destruct (respond_ok hit (WTake k) resp_new e w1 (Stream (map Byte (concat texts) ++ l) t) Hit)
        as (out & sent & cl & E & _ & _ & _ & Hcl & _);
        [intros ? ? Hx; cbn in Hx; by rewrite lookup_empty in Hx|done|done|done|].
      change (cx_resp _) with resp_new. cbn [cx_req ctx_new]. fold w1. rewrite E. cbn [mbind outcome_bind sv_closed].
      destruct cl; [discriminate (proj1 Hcl eq_refl)|]. cbn [sv_world sv_rest sv_wrote].
      destruct (IH Hsh Hall wrs ltac:(by injection Hlen) Hwr w1 Hw) as (w' & outs & rs' & E2 & Hl & Hu & HF').
      rewrite E2. cbn [mbind outcome_bind]. eexists _, _, (r1 :: rs'). split; [done|].
      split; [rewrite app_length; cbn [length]; lia|]. split; [rewrite Hu; cbn [w_user w1]; by rewrite <- app_assoc|].
      constructor; [by exists part|done]. }
  destruct (Hgen wr0 eq_refl) as (w' & outs & rs' & E & Hl & Hu & HF'). exists w', outs.
  split; [done|]. split; [done|]. by rewrite Hu.
Qed.

(** ** Examples *)
Definition nul_body : bytes := B "x" ++ [NUL] ++ B "y".
Lemma nul_body_part : before_nul nul_body (B "x").
Proof. split; [by_compute|]. exists ([NUL] ++ B "y"). split; [done|by right]. Qed.

Example binary_request_arrives_ex : exists q1 msg ro v r,
  req_build map_to_list map_to_list (ex_q "/a" nul_body) [] = (kSuccess, q1, msg) /\
  handle_read map_to_list (WTake 0) ro [] wr0 (Stream (map Byte msg ++ map Byte (B "GET")) Wait) = Ok v /\
  w_user (sv_world v) = [r] /\ arrived_request (ex_q "/a" nul_body) (B "x") r /\
  sv_rest v = Stream (map Byte (B "GET")) Wait.
Proof.
  destruct recorder_dispatch as (ro & Hro & _).
  destruct (req_build map_to_list map_to_list (ex_q "/a" nul_body) []) as [[rc q1] msg] eqn:E.
  assert (rc = kSuccess) as -> by (by vm_compute in E; injection E as <- _ _).
  assert (Hs : short msg) by (vm_compute in E; injection E as _ <-; by vm_compute).
  destruct (binary_request_arrives map_to_list map_to_list map_to_list _ q1 msg (B "x") ro [] 0 (map Byte (B "GET")) Wait
    valid_order_sorted valid_order_sorted valid_order_sorted E Hs (ex_q_sendable _ _)) as (v & r & H & Hu & Hr & Hrest).
  - unfold plain_except. by_compute.
  - by left.
  - intros k v Hk. cbn in Hk. by rewrite lookup_empty in Hk.
  - apply nul_body_part.
  - done.
  - by exists q1, msg, ro, v, r.
Qed.

Example binary_response_arrives_ex : exists p1 out x,
  resp_build map_to_list (ex_p nul_body) [] = (kSuccess, p1, out) /\
  client_send true map_to_list map_to_list (WTake 1) (ex_q "/a" []) resp_new (Stream (map Byte out ++ []) Wait) = Ok x /\
  st_rc x = kSuccess /\ arrived_response (ex_p nul_body) (B "x") (st_resp x) /\ st_rest x = Stream [] Wait.
Proof.
  destruct (resp_build map_to_list (ex_p nul_body) []) as [[rc p1] out] eqn:E.
  assert (rc = kSuccess) as -> by (by vm_compute in E; injection E as <- _ _).
  assert (Hs : short out) by (vm_compute in E; injection E as _ <-; by vm_compute).
  destruct (binary_response_arrives map_to_list map_to_list map_to_list (ex_q "/a" []) _ p1 out (B "x") 0 [] Wait
    valid_order_sorted E Hs (ex_p_sendable _) nul_body_part) as (x & H); [done..|].
  by exists p1, out, x.
Qed.

(** Two requests, the first with a NUL byte in its body. *)
Example binary_keeps_step_ex : exists ro w' outs,
  register [] [] recorder router_new = Ok (kSuccess, ro) /\
  serve map_to_list [WTake 9; WTake 9] ro [] wr0
    (of_bytes (ex_text_of (NUL :: B "i") ++ ex_text_of (B "yo")) Wait) = Ok (w', Stream [] Wait, outs, false) /\
  map rq_body (w_user w') = [[]; B "yo"] /\ length outs = 2.
Proof.
  destruct recorder_dispatch as (ro & Hro & _).
  destruct (binary_keeps_step map_to_list [] [ex_text_of (NUL :: B "i"); ex_text_of (B "yo")]
    [ex_req (NUL :: B "i"); ex_req (B "yo")] [WTake 9; WTake 9] ro [] Wait) as (w' & outs & H & Hl & Hu).
  - apply valid_order_sorted.
  - done.
  - constructor; [ex_text|]. constructor; [ex_text|constructor].
  - repeat constructor.
  - constructor; [by_compute|]. constructor; [by_compute|constructor].
  - done.
  - repeat constructor; by eexists.
  - exists ro, w', outs. split; [done|].
    apply Forall2_cons_inv_l in Hu as (r1 & l1 & (p1 & Hp1 & ->) & Hu & ->).
    apply Forall2_cons_inv_l in Hu as (r2 & l2 & (p2 & Hp2 & ->) & Hu & ->).
    apply Forall2_nil_inv_l in Hu as ->.
    apply before_nul_cstr in Hp1, Hp2. cbn [rq_body ex_req] in Hp1, Hp2. subst p1 p2.
    cbn [concat] in H. rewrite !app_nil_r in H. by split_and!.
Qed.

Print Assumptions binary_request_arrives.
Print Assumptions binary_response_arrives.
Print Assumptions binary_keeps_step.
