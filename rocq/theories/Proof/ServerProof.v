(** The request loop. *)
From Verif.Proof Require Export RouterProof RespProof SocketProof.
From Verif.Spec Require Export ServerSpec.
From Verif.Model Require Export Client.

(** ** Reading the head of a message *)
Definition head_of (first : bytes) (hdrs : list bytes) : bytes := first ++ CRLF ++ crlf_lines hdrs ++ CRLF.

Lemma message_head text first hdrs body :
  message text first hdrs body ->
  text = head_of first hdrs ++ body /\ message (head_of first hdrs) first hdrs [] /\
  shortest_until CRLFCRLF (head_of first hdrs) (head_of first hdrs) [].
Proof.
  intros (-> & H1 & HF). unfold head_of.
  split; [by rewrite <- !app_assoc|].
  assert (Hm : message (head_of first hdrs) first hdrs []).
  { split; [|done]. unfold head_of. by rewrite app_nil_r. }
  split; [done|].
  pose proof (find_shortest CRLFCRLF _ _ (message_find_crlf2 _ _ _ _ Hm)) as Hs.
  assert (Hl : length first + length (crlf_lines hdrs) + length CRLFCRLF = length (head_of first hdrs)).
  { unfold head_of. rewrite !app_length. simpl. lia. }
  rewrite Hl in Hs. by rewrite take_ge, drop_ge in Hs by done.
Qed.

Lemma read_until_head pre l t :
  shortest_until CRLFCRLF pre pre [] -> short pre -> LF ∉ take 3 pre ->
  read_until [] CRLFCRLF (Stream (map Byte pre ++ l) t)
    = Ok (Z.of_nat (length pre), pre, Stream l t) /\ (0 < Z.of_nat (length pre))%Z.
Proof.
  intros Hsh Hs Hlf.
  assert (Hee : ~ early_end CRLFCRLF pre).
  { intros (i & c & Hc & Hi & Hlt). injection Hc as <-. apply Hlf.
    apply elem_of_list_lookup. exists i. simpl in Hlt. rewrite lookup_take by lia. done. }
  split.
  - change (read_until [] CRLFCRLF ?s) with (until_loop CRLFCRLF (sm_items s) (sm_tail s) NUL []).
    cbn [sm_items sm_tail].
    rewrite (until_found CRLFCRLF LF eq_refl ltac:(done) ltac:(by vm_compute) pre pre [] l t); [|by apply short_fits|done|done].
    rewrite to_int32_small; [done|]. unfold short, int_min, int_max in *. lia.
  - destruct Hsh as (_ & [k ->] & _). rewrite app_length. simpl. lia.
Qed.

Lemma good_line_start first rest : good_line first -> LF ∉ take 3 (first ++ rest).
Proof.
  intros (m & t & v & (-> & _) & Hm & _). unfold known_methods in Hm.
  repeat (apply elem_of_cons in Hm as [->|Hm]; [by_compute|]). by apply elem_of_nil in Hm.
Qed.

Lemma req_line_body r h b b' first rc r' :
  req_line r h b first = Ok (rc, r') ->
  req_line r h b' first = Ok (rc, Req (rq_method r') (rq_version r') (rq_header r') (rq_route r') b').
Proof.
  unfold req_line. intros H.
  destruct (str_split first (B " ") [] false) as [l| | | | |]; try done. cbn [mbind outcome_bind] in *.
  destruct l as [|m [|tg [|v [|x l]]]]; try by injection H as <- <-.
  destruct (decide (to_method m = mUNKNOWN)); [by injection H as <- <-|].
  destruct (route_parse (rq_route r) tg) as [[rrc rt]| | | | |]; try done. cbn [mbind outcome_bind] in *.
  destruct (negb (rrc =? kSuccess)%Z); [by injection H as <- <-|].
  destruct (decide (to_version v = vUNKNOWN)); by injection H as <- <-.
Qed.

Section loop.
Context {U : Type}.
Implicit Types (w : world U) (ro : router U).

(** A complete request. *)
Lemma handle_read_message hit wr ro e w text first hdrs r l t :
  short text -> message text first hdrs (rq_body r) -> good_line first -> NUL ∉ rq_body r ->
  req_parse req_new (head_of first hdrs) =
    Ok (kSuccess, Req (rq_method r) (rq_version r) (rq_header r) (rq_route r) []) ->
  (header_get_content_length (rq_header r) = Z.of_nat (length (rq_body r)) \/
   (rq_body r = [] /\ (header_get_content_length (rq_header r) <= 0)%Z)) ->
  handle_read hit wr ro e w (Stream (map Byte text ++ l) t) = answer hit wr ro r e w (Stream l t).
Proof.
  intros Hs Hm Hg Hn Hp Hcl.
  destruct (message_head _ _ _ _ Hm) as (Ht & _ & Hsh).
  assert (Hsh' : short (head_of first hdrs)).
  { rewrite Ht in Hs. unfold short in *. rewrite app_length in Hs. lia. }
  rewrite Ht, map_app, <- app_assoc.
  destruct (read_until_head (head_of first hdrs) (map Byte (rq_body r) ++ l) t Hsh Hsh') as [E Hpos].
  { unfold head_of. by apply good_line_start. }
  unfold handle_read. rewrite E. cbn [mbind outcome_bind].
  rewrite (proj2 (Z.leb_gt _ _) Hpos), Hp. cbn [mbind outcome_bind rq_header].
  change (negb (kSuccess =? kSuccess)%Z) with false. cbv iota.
  assert (Hlen : (header_get_content_length (rq_header r) <= 0)%Z -> rq_body r = []).
  { intros Hle. destruct Hcl as [Heq|[? _]]; [|done]. apply nil_length_inv. lia. }
  destruct (Z.ltb_spec 0 (header_get_content_length (rq_header r))) as [Hlt|Hge].
  - destruct Hcl as [Heq|[_ ?]]; [|lia]. rewrite Heq. unfold read_string.
    rewrite recv_all_enough by lia. cbn [mbind outcome_bind].
    rewrite (proj2 (Z.leb_gt _ _)) by lia. rewrite cstr_no_nul by done. by destruct r.
  - rewrite (Hlen Hge). cbn [map app]. destruct r. cbn in *. by rewrite (Hlen Hge).
Qed.

Lemma content_length_of h (n : nat) :
  (N.of_nat n < 2 ^ 31)%N -> h !! B "Content-Length" = Some (int_to_string (Z.of_nat n)) ->
  header_get_content_length h = Z.of_nat n.
Proof.
  intros Hn Hh. unfold header_get_content_length. rewrite Hh.
  rewrite stoi_int_to_string; [done|]. unfold int_min, int_max. lia.
Qed.

Lemma request_text_parts text r :
  short text -> request_text exact_name text r ->
  exists first hdrs, message text first hdrs (rq_body r) /\ good_line first /\
    req_parse req_new (head_of first hdrs) =
      Ok (kSuccess, Req (rq_method r) (rq_version r) (rq_header r) (rq_route r) []) /\
    (header_get_content_length (rq_header r) = Z.of_nat (length (rq_body r)) \/
     (rq_body r = [] /\ (header_get_content_length (rq_header r) <= 0)%Z)).
Proof.
  intros Hs (first & hdrs & kvs & target & params & Hm & Hl & Hme & Hve & Hta & Hu & Hpar & HF & Hne & Hh & Hd).
  exists first, hdrs. split; [done|].
  assert (Hmk : method_str (rq_method r) ∈ known_methods).
  { apply to_method_known. by rewrite to_method_str. }
  assert (Hvk : version_str (rq_version r) ∈ known_versions).
  { apply to_version_known. by rewrite to_version_str. }
  split. { by exists (method_str (rq_method r)), target, (version_str (rq_version r)). }
  destruct (message_head _ _ _ _ Hm) as (Ht & Hmh & _).
  assert (Hsh : short (head_of first hdrs)).
  { rewrite Ht in Hs. unfold short in *. rewrite app_length in Hs. lia. }
  assert (Hhdr : rq_header r = insert_all ∅ kvs).
  { apply map_eq. intros k. rewrite Hh, insert_all_lookup, lookup_empty. by destruct (last_val kvs k). }
  split.
  - assert (HL : leading_fields hdrs kvs).
    { apply leading_all. clear -HF Hne. induction HF as [|x kv hdrs kvs Hx HF IH]; [constructor|].
      apply Forall_cons in Hne as [? ?]. constructor; [by apply sf_value|by apply IH]. }
    rewrite (req_parse_message _ _ _ _ _ _ (short_fits _ Hsh) Hmh HL).
    rewrite (req_line_ok _ _ _ _ _ _ _ (rt_path (rq_route r)) params (message_short_first _ _ _ _ Hsh Hmh) Hl);
      [|by rewrite to_method_str|by rewrite to_version_str|done|done].
    rewrite to_method_str, to_version_str by done. cbn [rq_header rq_route req_new rt_params route_new].
    rewrite <- Hhdr. do 3 f_equal. destruct (rq_route r) as [p ps]. cbn in *. f_equal.
    apply map_eq. intros k. rewrite Hpar, insert_all_lookup, lookup_empty. by destruct (last_val params k).
  - destruct Hd as [(k & -> & Hv & _)|[H0 Hno]].
    + left. apply content_length_of; [|by rewrite Hh].
      rewrite Ht in Hs. unfold short in *. rewrite app_length in Hs. lia.
    + right. split; [by apply nil_length_inv|]. unfold header_get_content_length. rewrite Hh.
      destruct (last_val kvs (B "Content-Length")) as [v|] eqn:E; [|lia].
      apply last_val_In in E. by destruct (Hno _ _ E).
Qed.

Lemma handle_read_request hit wr ro e w text r l t :
  short text -> request_text exact_name text r -> NUL ∉ rq_body r ->
  handle_read hit wr ro e w (Stream (map Byte text ++ l) t) = answer hit wr ro r e w (Stream l t).
Proof.
  intros Hs Hr Hn. destruct (request_text_parts _ _ Hs Hr) as (first & hdrs & Hm & Hg & Hp & Hcl).
  by eapply handle_read_message.
Qed.

(** ** Responses *)
Lemma response_text_built hit p :
  valid_order hit -> resp_sendable (rs_header p) -> rs_version p <> vUNKNOWN -> short (rs_body p) ->
  response_text (resp_built_line p ++ CRLF ++ crlf_lines (field_lines (hit (resp_built_header p))) ++ CRLF ++ rs_body p)
    (rs_status p) (rs_body p).
Proof.
  intros Hit Hs Hv Hb. destruct (resp_built_message hit p Hit Hs) as (Hm & _).
  destruct (resp_built_line_ok p) as [Hl _].
  do 3 eexists. split; [exact Hm|]. split; [exact Hl|]. split.
  - apply to_version_known. by rewrite to_version_str.
  - unfold field_lines. apply elem_of_list_fmap.
    exists (B "Content-Length", int_to_string (Z.of_nat (length (rs_body p)))). split; [done|].
    rewrite (Hit (resp_built_header p)). apply elem_of_map_to_list. unfold resp_built_header.
    rewrite lookup_insert. do 2 f_equal. unfold size. by apply to_int32_nat.
Qed.

(** Exactly one text is written. *)
Lemma respond_ok hit wr p e w s :
  valid_order hit -> resp_sendable (rs_header p) -> rs_version p <> vUNKNOWN -> short (rs_body p) -> wr <> WSig ->
  exists text sent cl, respond hit wr p e w s = Ok (Served w s [text] sent cl) /\
    (rs_status p <> sUNKNOWN -> response_text text (rs_status p) (rs_body p)) /\
    (rs_status p = sUNKNOWN ->
      response_text text sNOT_FOUND (B "<html><body><h1>404 Not Found</h1></body></html>")) /\
    sent `prefix_of` text /\ (cl = true <-> wr = WFail) /\ (forall k, wr = WTake k -> sent = take k text).
Proof.
  intros Hit Hs Hv Hb Hw. unfold respond.
  set (p1 := if decide (rs_status p = sUNKNOWN) then resp_not_found p else p).
  assert (Hst : rs_status p1 <> sUNKNOWN) by (unfold p1; by destruct (decide (rs_status p = sUNKNOWN))).
  rewrite (resp_build_ok hit p1 [] Hst). change (negb (kSuccess =? kSuccess)%Z) with false. cbv iota.
  set (text := resp_built_line p1 ++ _).
  assert (Hs1 : resp_sendable (rs_header p1)).
  { unfold p1. destruct (decide (rs_status p = sUNKNOWN)); [|done]. intros k v Hk Hne.
    cbn [resp_not_found rs_header] in Hk. unfold resp_type, header_set_content_type in Hk. cbn in Hk.
    destruct (decide (k = B "Content-Type")) as [->|Hn].
    - rewrite lookup_insert in Hk. injection Hk as <-.
      split; [|done]. repeat split; [by_compute| | |done]; intros H; by apply find_idx_None_contains in H.
    - rewrite lookup_insert_ne in Hk by done. by apply Hs. }
  assert (Hv1 : rs_version p1 <> vUNKNOWN) by (unfold p1; by destruct (decide (rs_status p = sUNKNOWN))).
  assert (Hb1 : short (rs_body p1)) by (unfold p1; by destruct (decide (rs_status p = sUNKNOWN))).
  pose proof (response_text_built hit p1 Hit Hs1 Hv1 Hb1) as Ht. fold text in Ht.
  assert (Hst1 : (rs_status p <> sUNKNOWN -> response_text text (rs_status p) (rs_body p)) /\
    (rs_status p = sUNKNOWN ->
      response_text text sNOT_FOUND (B "<html><body><h1>404 Not Found</h1></body></html>"))).
  { clear Hst. unfold p1 in Ht. by destruct (decide (rs_status p = sUNKNOWN)). }
  destruct wr as [k| |]; [| |done]; cbn [sock_write mbind outcome_bind].
  - exists text, (take k text), false. split.
    + unfold rc_of. by rewrite (proj2 (Z.ltb_ge _ _)) by lia.
    + split; [apply Hst1|]. split; [apply Hst1|]. split; [exists (drop k text); by rewrite take_drop|]. split; [done|]. by intros k' [= ->].
  - exists text, [], true. split; [done|]. split; [apply Hst1|]. split; [apply Hst1|].
    split; [apply prefix_nil|]. done.
Qed.

Lemma answer_ok hit wr ro r e w s c' w' :
  dispatch ro (rt_path (rq_route r)) (ctx_new r resp_new) w = Ok (c', w') ->
  answer hit wr ro r e w s = respond hit wr (cx_resp c') e w' s.
Proof. intros H. unfold answer. by rewrite H. Qed.
End loop.
