(** C13, C15, C20, C26: exactly which routes, headers, requests and responses come
    back from printing and parsing. *)
From Verif.Proof Require Import RespProof.

(** ** Headers *)

Lemma insert_all_elem (kvs : list (bytes * bytes)) k v : insert_all ∅ kvs !! k = Some v -> (k, v) ∈ kvs.
Proof.
  rewrite insert_all_lookup, lookup_empty. intros H. destruct (last_val kvs k) as [v'|] eqn:E; [|done]. injection H as ->.
  induction kvs as [|[k' v''] kvs IH]; [done|]. cbn [last_val] in E. destruct (last_val kvs k) as [w|].
  - injection E as ->. right. by apply IH.
  - case_decide; [|done]. simplify_eq/=. by left.
Qed.

Lemma one_line_app a b : one_line (a ++ b) -> one_line a /\ one_line b.
Proof.
  intros H. split; intros (x & y & ->); apply H; [exists x, (y ++ b)|exists (a ++ x), y]; by rewrite <- !app_assoc.
Qed.
Lemma stored_carried line kv : one_line line -> stored_field line kv -> carried kv /\ kv.2 <> [].
Proof.
  intros Hl H. destruct H as [line kv (n & H1 & H2 & ->) Hne|n k Hn].
  - apply one_line_app in Hl as [Hl1 Hl2]. split; [|done]. split; [done|]. split; [done|]. split; [|done].
    change (":"%char :: replicate n SP ++ kv.2) with ((":"%char :: replicate n SP) ++ kv.2) in Hl2.
    by apply one_line_app in Hl2 as [_ ?].
  - apply one_line_app in Hl as [Hl1 Hl2]. by split.
Qed.
Lemma stored_all lines kvs : Forall one_line lines -> Forall2 stored_field lines kvs ->
  Forall (fun kv => carried kv /\ kv.2 <> []) kvs.
Proof.
  intros Hl HF. induction HF as [|l kv lines kvs H HF IH]; [done|]. apply Forall_cons in Hl as [? ?].
  constructor; [by eapply stored_carried|auto].
Qed.
Lemma inserted_all kvs : Forall (fun kv => carried kv /\ kv.2 <> []) kvs ->
  map_Forall (fun k v => carried (k, v) /\ v <> []) (insert_all ∅ kvs).
Proof. intros H k v Hk. apply insert_all_elem in Hk. by apply (proj1 (Forall_forall _ _) H) in Hk. Qed.

Lemma header_parse_image s rc h : fits s -> header_parse ∅ s = Ok (rc, h) ->
  map_Forall (fun k v => carried (k, v) /\ v <> []) h.
Proof.
  intros Hf H. destruct s as [|c s]; [injection H as _ <-; apply map_Forall_empty|].
  destruct (split_spec (c :: s) CRLF [] false Hf) as (lines & Hp & _); [done|].
  rewrite (header_parse_pieces _ _ lines) in H by done.
  pose proof (pieces_fits _ _ _ Hf Hp) as Hfl.
  pose proof (pieces_no_delim CRLF _ _ ltac:(done) Hp) as Hone.
  destruct (header_lines_cases lines) as [(kvs & Hk)|(good & kvs & bad & rest & -> & Hk & Hb)].
  - rewrite (header_lines_good _ _ kvs) in H by done. injection H as _ <-. apply inserted_all. by eapply stored_all.
  - apply Forall_app in Hfl as [Hfl _]. rewrite (header_lines_bad _ _ kvs) in H by done. injection H as _ <-.
    apply Forall_app in Hone as [Hone _]. apply inserted_all. by eapply stored_all.
Qed.

Theorem header_round_trip_exact : forall it h t,
  valid_order it -> h <> ∅ -> header_to_string it h = t ++ CRLF ++ CRLF -> fits t ->
  (header_parse ∅ t = Ok (kSuccess, h) <-> map_Forall (fun k v => carried (k, v) /\ v <> []) h).
Proof.
  intros it h t Hit Hne Ht Hf. split; intros H.
  - by eapply header_parse_image.
  - by eapply header_print_parse.
Qed.

(** ** Routes *)

Lemma url_decode_encode s : url_decode (url_encode s) = s.
Proof. apply url_decode_form, form_decodes_encode. Qed.
Lemma url_encode_inj a b : url_encode a = url_encode b -> a = b.
Proof. intros H. rewrite <- (url_decode_encode a), H. apply url_decode_encode. Qed.


Lemma enc_byte_facts c :
  (url_encode_byte c = [c] /\ url_plain c = true) \/ url_encode_byte c = ["+"%char] /\ c = SP \/ length (url_encode_byte c) = 3.
Proof.
  unfold url_encode_byte. destruct (url_plain c) eqn:E; [by left|].
  destruct (Ascii.eqb_spec c " "); [right; by left|]. by right; right.
Qed.
Lemma enc_byte_sep c x : x ∈ B "?=&" -> x ∈ url_encode_byte c -> x = c.
Proof.
  intros Hx. assert (HF : Forall (fun x => bool_decide (x ∈ url_encode_byte c) = true -> x = c) (B "?=&")).
  { destruct c as [[] [] [] [] [] [] [] []]; repeat constructor; vm_compute; intros H; congruence. }
  intros Hc. apply (proj1 (Forall_forall _ _) HF x Hx). by apply bool_decide_eq_true.
Qed.
Lemma enc_byte_no_space c : SP ∉ url_encode_byte c.
Proof. intros Hc. assert (H : bool_decide (SP ∈ url_encode_byte c) = false) by (by destruct c as [[] [] [] [] [] [] [] []]).
  by apply bool_decide_eq_false in H. Qed.
Lemma enc_cons c s : url_encode (c :: s) = url_encode_byte c ++ url_encode s.
Proof. done. Qed.
Lemma enc_sep x s : x ∈ B "?=&" -> x ∈ url_encode s <-> x ∈ s.
Proof.
  intros Hx. induction s as [|c s IH]; [done|]. rewrite enc_cons, elem_of_app, elem_of_cons, IH. split.
  - intros [H|H]; [left; by apply enc_byte_sep|by right].
  - intros [->|H]; [left|by right]. assert (Hp : url_plain c = true).
    { assert (HF : Forall (fun x => url_plain x = true) (B "?=&")) by by_compute. by apply (proj1 (Forall_forall _ _) HF). }
    unfold url_encode_byte. rewrite Hp. by left.
Qed.
Lemma enc_no_space s : SP ∉ url_encode s.
Proof.
  induction s as [|c s IH]; [by apply not_elem_of_nil|]. rewrite enc_cons, not_elem_of_app. split; [apply enc_byte_no_space|done].
Qed.
Lemma enc_length s : length s <= length (url_encode s).
Proof.
  induction s as [|c s IH]; [done|]. rewrite enc_cons, app_length. cbn [length].
  destruct (enc_byte_facts c) as [[-> _]|[[-> _]| ->]]; cbn [length]; lia.
Qed.
Lemma enc_same_length s : length (url_encode s) = length s -> Forall (fun c => url_plain c = true \/ c = SP) s.
Proof.
  induction s as [|c s IH]; [done|]. rewrite enc_cons, app_length. cbn [length]. intros H. pose proof (enc_length s).
  destruct (enc_byte_facts c) as [[E Hp]|[[E Hp]|E]]; rewrite E in H; cbn [length] in H; [| |lia];
    (constructor; [auto|apply IH; lia]).
Qed.
Lemma enc_same s : url_encode s = s -> Forall (fun c => url_plain c = true) s.
Proof.
  intros H. pose proof (enc_same_length s ltac:(by rewrite H)) as HF. pose proof (enc_no_space s) as Hn. rewrite H in Hn.
  apply Forall_forall. intros c Hc. destruct (proj1 (Forall_forall _ _) HF c Hc) as [?| ->]; done.
Qed.
Lemma enc_perm (l : list bytes) : l ≡ₚ map url_encode l -> Forall (fun s => Forall (fun c => url_plain c = true) s) l.
Proof.
  intros H. assert (Hlen : sum_list_with length l = sum_list_with length (map url_encode l)).
  { clear -H. induction H; cbn [sum_list_with]; lia. }
  assert (Hsum : forall l : list bytes, sum_list_with length l <= sum_list_with length (map url_encode l)).
  { intros l'. induction l' as [|s l' IH]; [done|]. cbn [sum_list_with map]. pose proof (enc_length s). lia. }
  assert (HF : Forall (fun s => length (url_encode s) = length s) l).
  { clear H. induction l as [|s l IH]; [done|]. cbn [sum_list_with map] in Hlen. pose proof (enc_length s). pose proof (Hsum l).
    constructor; [lia|apply IH; lia]. }
  apply Forall_forall. intros s Hs. apply (proj1 (Forall_forall _ _) HF) in Hs as Hl. apply enc_same_length in Hl.
  apply Forall_forall. intros c Hc. destruct (proj1 (Forall_forall _ _) Hl c Hc) as [?| ->]; [done|].
  rewrite H in Hs. apply elem_of_list_fmap in Hs as (s' & -> & _). by apply enc_no_space in Hc.
Qed.

(** What is read back from the text of parameters. *)
Definition reread (x : bytes) (kv : bytes * bytes) : Prop :=
  ("="%char ∉ x /\ kv = (url_encode x, [])) \/
  (exists a b, x = a ++ "="%char :: b /\ "="%char ∉ a /\ kv = (url_encode a, b)).
Lemma reread_exists x : exists kv, reread x kv.
Proof.
  destruct (decide ("="%char ∈ x)) as [H|H].
  - destruct (split_at_char _ _ H) as (a & b & -> & Ha). eexists. right. by exists a, b.
  - eexists. by left.
Qed.
Lemma reread_piece x kv : reread x kv -> query_piece (url_encode x) kv.
Proof.
  intros [[H ->]|(a & b & -> & Ha & ->)].
  - constructor. by rewrite enc_sep by by_compute.
  - rewrite url_encode_app, enc_cons. change (url_encode_byte "=") with ["="%char]. cbn [app].
    constructor; [by rewrite enc_sep by by_compute|apply form_decodes_encode].
Qed.
Lemma rereads_exist xs : exists kvs, Forall2 reread xs kvs.
Proof.
  induction xs as [|x xs (kvs & IH)]; [by exists []|]. destruct (reread_exists x) as (kv & H). exists (kv :: kvs). by constructor.
Qed.
Lemma pieces_exist s : fits s -> exists xs, pieces (B "&") s xs.
Proof. intros Hf. destruct (split_spec s (B "&") [] false Hf) as (xs & Hp & _); [done|]. by exists xs. Qed.

Lemma nonempty_insert_all (kvs : list (bytes * bytes)) : kvs <> [] -> insert_all (∅ : gmap bytes bytes) kvs <> ∅.
Proof.
  intros Hne H. destruct kvs as [|[k v] kvs]; [done|].
  assert (E : (insert_all ∅ ((k, v) :: kvs) : gmap bytes bytes) !! k = None) by (by rewrite H, lookup_empty).
  rewrite insert_all_lookup in E. cbn [last_val] in E. destruct (last_val kvs k); [done|]. by rewrite decide_True in E.
Qed.
Lemma insert_all_dom (kvs : list (bytes * bytes)) k : is_Some ((insert_all ∅ kvs : gmap bytes bytes) !! k) <-> k ∈ map fst kvs.
Proof.
  rewrite insert_all_lookup, lookup_empty. induction kvs as [|[k' v'] kvs IH]; cbn [last_val map fst].
  - split; [by intros [??]|]. by intros ?%elem_of_nil.
  - rewrite elem_of_cons, <- IH. destruct (last_val kvs k) as [w|].
    + split; [by right|by eexists].
    + case_decide; [subst|].
      * split; [by left|by eexists].
      * split; [by right|]. by intros [->|[??]].
Qed.

Lemma route_exact it r : valid_order it -> short (route_to_string it r) ->
  route_parse route_new (route_to_string it r) = Ok (kSuccess, r) ->
  plain_except (B "?") (rt_path r) /\ (rt_path r <> [] \/ rt_params r <> ∅) /\
  (forall k v, rt_params r !! k = Some v -> plain_except (B "=&") k /\ "&"%char ∉ v).
Proof.
  intros Hit Hs H. destruct r as [path params]. cbn [rt_path rt_params].
  (* the text, cut at its first '?' *)
  assert (Hpath : "?"%char ∉ path).
  { intros Hin. destruct (decide ("?"%char ∈ route_to_string it (Route path params))) as [Hq|Hq].
    - destruct (split_at_char _ _ Hq) as (p & q & E & Hp). rewrite E in H, Hs. rewrite route_parse_query in H by done.
      destruct (str_split q (B "&") [] false) as [xs| | | | |]; cbn [mbind outcome_bind] in H; try done.
      destruct (route_params (rt_params route_new) xs) as [m| | | | |]; cbn [mbind outcome_bind] in H; try done.
      injection H as -> _. done.
    - apply Hq. unfold route_to_string. rewrite enc_sep by by_compute. cbn [rt_params rt_path].
      case_decide; [done|]. unfold pop_back. rewrite removelast_app by (by destruct (params_text (it params))).
      rewrite elem_of_app. by left. }
  assert (Hpe : "?"%char ∉ url_encode path) by (by rewrite enc_sep by by_compute).
  destruct (decide (params = ∅)) as [->|Hne].
  - rewrite route_to_string_empty in * by done. cbn [rt_path] in *.
    destruct (url_encode path) as [|c u] eqn:E; [done|]. rewrite <- E in *.
    rewrite route_parse_no_query in H by (done || by rewrite E). injection H as H. apply enc_same in H.
    split; [|split].
    + apply Forall_forall. intros x Hx. split; [by apply (proj1 (Forall_forall _ _) H)|].
      intros Hq. apply elem_of_list_singleton in Hq as ->. done.
    + left. by intros ->.
    + intros k v Hk. by rewrite lookup_empty in Hk.
  - rewrite route_to_string_params in * by done. cbn [rt_path rt_params] in *.
    rewrite route_parse_query in H by done.
    set (kvs := it params) in *. set (text := join (B "&") (map kv_text kvs)).
    assert (Et : join (B "&") (map url_encode (map kv_text kvs)) = url_encode text) by (unfold text; by rewrite url_encode_join).
    rewrite Et in *.
    assert (Hfe : fits (url_encode text)) by (apply short_fits in Hs; by apply fits_app_r, fits_cons_r in Hs).
    assert (Hft : fits text) by (unfold fits in *; pose proof (enc_length text); lia).
    destruct (pieces_exist text Hft) as (xs & Hxs).
    pose proof (pieces_join _ _ _ Hxs) as Hj. pose proof (pieces_nonempty _ _ _ Hxs) as Hxne.
    pose proof (pieces_no_delim (B "&") _ _ ltac:(done) Hxs) as Hamp.
    assert (Hamp' : Forall (fun x => "&"%char ∉ x) xs).
    { eapply Forall_impl; [exact Hamp|]. intros x Hx. by rewrite <- contains_single. }
    assert (Hpc : pieces (B "&") (url_encode text) (map url_encode xs)).
    { rewrite <- Hj, url_encode_join. apply pieces_join_char; [intros E; by apply map_eq_nil in E|].
      apply Forall_map. eapply Forall_impl; [exact Hamp'|]. intros x Hx. by rewrite enc_sep by by_compute. }
    rewrite (split_pieces (url_encode text) (B "&") [] (map url_encode xs) Hfe) in H; [|done|done]. cbn [mbind outcome_bind app] in H.
    destruct (rereads_exist xs) as (kvs' & Hkvs').
    rewrite (route_params_ok _ (map url_encode xs) kvs') in H; [|exact (pieces_fits _ _ _ Hfe Hpc)|].
    2: { clear -Hkvs'. induction Hkvs'; constructor; [by apply reread_piece|done]. }
    cbn [mbind outcome_bind rt_params route_new] in H. injection H as Hp Hm.
    assert (Hin : forall k v, params !! k = Some v -> (k, v) ∈ kvs').
    { intros k v Hk. rewrite <- Hm in Hk. by apply insert_all_elem in Hk. }
    assert (Hsep : forall k v, params !! k = Some v -> "="%char ∉ k /\ "&"%char ∉ k /\ "&"%char ∉ v).
    { intros k v Hk. apply Hin in Hk. apply elem_of_list_lookup in Hk as (n & Hn).
      destruct (Forall2_lookup_r _ _ _ _ _ Hkvs' Hn) as (x & Hx & Hr).
      pose proof (Forall_lookup_1 _ _ _ _ Hamp' Hx) as Hxa. cbn beta in Hxa.
      destruct Hr as [[H1 [= -> ->]]|(a & b & -> & Ha & [= -> ->])].
      - rewrite !enc_sep by by_compute. split; [done|]. split; [done|]. by apply not_elem_of_nil.
      - rewrite !enc_sep by by_compute. rewrite not_elem_of_app, not_elem_of_cons in Hxa. naive_solver. }
    assert (Hk1 : forall kv, kv ∈ kvs -> params !! kv.1 = Some kv.2).
    { intros [k v] Hkv. apply elem_of_map_to_list. unfold kvs in Hkv. by rewrite (Hit params) in Hkv. }
    assert (Exs : xs = map kv_text kvs).
    { apply (pieces_det (B "&") text); [done|done|]. apply pieces_join_char.
      - intros E. apply map_eq_nil in E. by apply (valid_order_nonempty it params).
      - apply Forall_map, Forall_forall. intros kv Hkv. destruct (Hsep _ _ (Hk1 kv Hkv)) as (_ & H2 & H3).
        unfold kv_text. rewrite !not_elem_of_app. split; [done|]. split; [by_compute|done]. }
    assert (Ekv : kvs' = map (fun kv => (url_encode kv.1, kv.2)) kvs).
    { clear Hm Hin. subst xs. clear -Hkvs' Hsep Hk1. induction kvs as [|kv kvs IH] in kvs', Hkvs', Hk1 |- *.
      - by inversion Hkvs'.
      - inversion Hkvs' as [|? kv' ? kvs'' Hr Hrest]; subst. cbn [map]. f_equal.
        + destruct (Hsep _ _ (Hk1 kv ltac:(by left))) as (H1 & _ & _). unfold kv_text in Hr.
          destruct Hr as [[H2 _]|(a & b & E & Ha & ->)].
          * exfalso. apply H2. set_solver.
          * change (kv.1 ++ B "=" ++ kv.2) with (kv.1 ++ "="%char :: kv.2) in E.
            destruct (cut_at_char_inj "=" kv.1 a kv.2 b H1 Ha E) as [-> ->]. done.
        + apply IH; [done|]. intros kv2 H. apply Hk1. by right. }
    assert (Hperm : map fst kvs ≡ₚ map url_encode (map fst kvs)).
    { assert (Hnd : NoDup (map fst kvs)).
      { unfold kvs. rewrite (Hit params). apply NoDup_fst_map_to_list. }
      apply NoDup_Permutation; [done| |].
      - apply NoDup_fmap_2; [|done]. intros a b. apply url_encode_inj.
      - intros k.
        assert (E1 : k ∈ map fst kvs <-> is_Some (params !! k)).
        { unfold kvs. rewrite (Hit params). rewrite elem_of_list_fmap. split.
          - intros ([k' v] & -> & Hx). apply elem_of_map_to_list in Hx. by eexists.
          - intros [v Hv]. exists (k, v). split; [done|]. by apply elem_of_map_to_list. }
        rewrite E1, <- Hm, insert_all_dom, Ekv, !map_map. done. }
    apply enc_perm in Hperm. rewrite Hp in *.
    assert (Hpl : url_encode path = path) by done.
    split; [|split].
    + apply enc_same in Hpl. apply Forall_forall. intros x Hx. split; [by apply (proj1 (Forall_forall _ _) Hpl)|].
      intros Hq. apply elem_of_list_singleton in Hq as ->. done.
    + by right.
    + intros k v Hk. destruct (Hsep k v Hk) as (H1 & H2 & H3). split; [|done].
      assert (Hkin : k ∈ map fst kvs).
      { apply elem_of_list_fmap. exists (k, v). split; [done|]. unfold kvs. rewrite (Hit params). by apply elem_of_map_to_list. }
      pose proof (proj1 (Forall_forall _ _) Hperm k Hkin) as HF. apply Forall_forall. intros x Hx.
      split; [by apply (proj1 (Forall_forall _ _) HF)|]. intros Hq. apply elem_of_cons in Hq as [->|Hq]; [done|].
      apply elem_of_list_singleton in Hq as ->. done.
Qed.

Theorem route_round_trip_exact : forall it (r : route), valid_order it -> short (route_to_string it r) ->
  (route_parse route_new (route_to_string it r) = Ok (kSuccess, r) <->
   plain_except (B "?") (rt_path r) /\ (rt_path r <> [] \/ rt_params r <> ∅) /\
   (forall k v, rt_params r !! k = Some v -> plain_except (B "=&") k /\ "&"%char ∉ v)).
Proof.
  intros it r Hit Hs. split; [by apply route_exact|]. intros (H1 & H2 & H3). by apply route_round_trip.
Qed.

(** ** Requests *)
Lemma leading_all_carried ls kvs : Forall one_line ls -> leading_fields ls kvs ->
  Forall (fun kv => carried kv /\ kv.2 <> []) kvs.
Proof.
  intros Hl HL. induction HL as [|l ls|l ls kv kvs H HL IH]; [done|done|]. apply Forall_cons in Hl as [? ?].
  constructor; [by eapply stored_carried|auto].
Qed.
Lemma req_line_header r h body first r' : req_line r h body first = Ok (kSuccess, r') -> rq_header r' = h.
Proof.
  unfold req_line. intros H. destruct (str_split first (B " ") [] false) as [l| | | | |]; cbn [mbind outcome_bind] in H; try done.
  destruct l as [|m [|t [|v [|x l]]]]; try (by injection H).
  destruct (decide (to_method m = mUNKNOWN)); [by injection H|].
  destruct (route_parse (rq_route r) t) as [[rrc rt]| | | | |]; cbn [mbind outcome_bind] in H; try done.
  destruct (negb (rrc =? kSuccess)%Z); [by injection H|].
  destruct (decide (to_version v = vUNKNOWN)); [by injection H|]. injection H as <-. done.
Qed.
Lemma req_parse_image s r : fits s -> req_parse req_new s = Ok (kSuccess, r) ->
  map_Forall (fun k v => carried (k, v) /\ v <> []) (rq_header r).
Proof.
  intros Hf H. destruct (find_idx CRLFCRLF s) as [i|] eqn:Ei.
  2: { apply find_idx_None_contains in Ei. by rewrite req_parse_no_blank in H. }
  assert (Hc : contains CRLFCRLF s) by (apply find_idx_contains; by rewrite Ei).
  destruct (message_exists (length s) s ltac:(lia) Hc) as (first & hdrs & body & Hm).
  destruct (leading_fields_exists hdrs) as [kvs HL].
  rewrite (req_parse_message _ _ _ _ _ _ Hf Hm HL) in H. apply req_line_header in H. rewrite H.
  apply inserted_all. eapply leading_all_carried; [|exact HL]. destruct Hm as (_ & _ & HF).
  eapply Forall_impl; [exact HF|]. by intros l [? _].
Qed.
Lemma built_carried_sendable r :
  map_Forall (fun k v => carried (k, v) /\ v <> []) (built_header r) -> sendable (rq_header r).
Proof.
  intros HF k v Hk Hne. destruct (decide (k = B "Host")) as [->|Hh].
  - destruct v as [|c v].
    + split; [|by right]. repeat split; [by_compute| | |done]; intros H; by apply find_idx_None_contains in H.
    + destruct (HF (B "Host") (c :: v)) as [H1 H2]; [|by split; [|left]].
      unfold built_header, header_get. rewrite lookup_insert_ne by done. by rewrite Hk.
  - destruct (HF k v) as [H1 H2]; [|by split; [|left]].
    unfold built_header. rewrite lookup_insert_ne by done.
    destruct (header_get (rq_header r) (B "Host")); [by rewrite lookup_insert_ne|done].
Qed.

Theorem request_round_trip_exact : forall hit rit r out r1 msg,
  valid_order hit -> valid_order rit -> req_build hit rit r out = (kSuccess, r1, msg) -> short msg ->
  (req_parse req_new msg = Ok (kSuccess, r1) <->
   sendable (rq_header r) /\ plain_except (B "?") (rt_path (rq_route r)) /\
   (rt_path (rq_route r) <> [] \/ rt_params (rq_route r) <> ∅) /\
   (forall k v, rt_params (rq_route r) !! k = Some v -> plain_except (B "=&") k /\ "&"%char ∉ v)).
Proof.
  intros hit rit r out r1 msg Hhit Hrit Hb Hs. split.
  2: { intros (H1 & H2 & H3 & H4). destruct (req_round_trip _ _ _ _ _ _ Hhit Hrit Hb Hs H1 H2 H3 H4) as [H ->]. done. }
  intros H.
  assert (Hm : rq_method r <> mUNKNOWN).
  { intros E. unfold req_build in Hb. by rewrite E in Hb. }
  assert (Hv : rq_version r <> vUNKNOWN).
  { intros E. unfold req_build in Hb. rewrite decide_False in Hb by done. by rewrite E in Hb. }
  rewrite req_build_ok in Hb by done. injection Hb as <- <-.
  assert (Hsend : sendable (rq_header r)).
  { apply built_carried_sendable. by apply (req_parse_image _ _ (short_fits _ Hs)) in H. }
  split; [done|].
  destruct (built_message hit rit r Hhit Hsend) as [Hmsg HL].
  rewrite (req_parse_message _ _ _ _ _ _ (short_fits _ Hs) Hmsg HL) in H.
  pose proof (message_short_first _ _ _ _ Hs Hmsg) as Hsf.
  unfold req_line in H. pose proof (built_line_request_line rit r) as Hl.
  pose proof (request_line_pieces _ _ _ _ Hl) as Hp.
  change (B " ") with [SP] in H.
  rewrite (split_pieces _ [SP] [] _ (short_fits _ Hsf) ltac:(done) Hp) in H. cbn [mbind outcome_bind app] in H.
  rewrite to_method_str in H by done. rewrite decide_False in H by done.
  assert (Hst : short (route_to_string rit (rq_route r))).
  { unfold built_line, short in *. rewrite app_length in Hsf. simpl in Hsf. rewrite app_length in Hsf. lia. }
  change (rq_route req_new) with route_new in H.
  destruct (route_parse route_new (route_to_string rit (rq_route r))) as [[rrc rt]| | | | |] eqn:Er; cbn [mbind outcome_bind] in H; try done.
  destruct (Z.eqb_spec rrc kSuccess) as [->|]; cbn [negb] in H; [|by injection H].
  rewrite to_version_str, decide_False in H by done. injection H as _ ->.
  by apply (route_exact rit).
Qed.

(** ** Responses *)
Lemma resp_parse_image s r : fits s -> contains CRLFCRLF s -> resp_parse resp_new s = Ok (kSuccess, r) ->
  map_Forall (fun k v => carried (k, v) /\ v <> []) (rs_header r).
Proof.
  intros Hf Hc H.
  destruct (message_exists (length s) s ltac:(lia) Hc) as (first & hdrs & body & Hm).
  rewrite (resp_parse_message _ _ _ _ _ Hf Hm) in H.
  destruct (fits_resp_block _ _ _ _ Hf Hm) as [Hff Hfb].
  destruct (status_line_dec first) as [(v & c & re & Hl)|Hno].
  2: { rewrite resp_line_bad in H by done. by injection H. }
  rewrite (resp_line_ok _ _ _ _ _ _ _ Hff Hl) in H.
  destruct (stoi c); try (by injection H).
  change (rs_header resp_new) with (∅ : gmap bytes bytes) in H.
  destruct (header_parse ∅ (resp_block hdrs body)) as [[hrc h]| | | | |] eqn:E; cbn [mbind outcome_bind] in H; try done.
  injection H as _ <-. cbn [rs_header]. by apply header_parse_image in E.
Qed.

Lemma crlf_lines_ends ls : exists p, CRLF ++ crlf_lines ls = p ++ CRLF.
Proof.
  induction ls as [|l ls (p & IH)]; [by exists []|]. exists (CRLF ++ l ++ p).
  change (crlf_lines (l :: ls)) with ((l ++ CRLF) ++ crlf_lines ls). rewrite <- !app_assoc. by rewrite IH.
Qed.

Theorem response_round_trip_exact : forall hit r out r1 msg,
  valid_order hit -> resp_build hit r out = (kSuccess, r1, msg) -> fits msg ->
  (resp_parse resp_new msg = Ok (kSuccess, r1) <-> resp_sendable (rs_header r)).
Proof.
  intros hit r out r1 msg Hit Hb Hf. split.
  2: { intros H1. destruct (resp_round_trip _ _ _ _ _ Hit Hb Hf H1) as [H ->]. done. }
  intros H.
  assert (Hst : rs_status r <> sUNKNOWN).
  { intros E. unfold resp_build in Hb. by rewrite E in Hb. }
  rewrite resp_build_ok in Hb by done. injection Hb as <- <-.
  apply resp_parse_image in H; [|done|].
  - intros k v Hk Hne. apply (H k v). cbn [rs_header]. unfold resp_built_header. by rewrite lookup_insert_ne.
  - destruct (crlf_lines_ends (field_lines (hit (resp_built_header r)))) as (p & Ep).
    exists (resp_built_line r ++ p), (rs_body r). set (ls := crlf_lines _) in *.
    change (resp_built_line r ++ (CRLF ++ (ls ++ (CRLF ++ rs_body r))) = (resp_built_line r ++ p) ++ (CRLFCRLF ++ rs_body r)).
    rewrite (app_assoc CRLF ls), Ep, <- !app_assoc. done.
Qed.

(** ** Concrete instances: one that comes back and one that does not, for each theorem *)
Definition exact_route : route := Route (B "/find") (<[B "q" := B "a b=c?%"]> {[ B "lang" := B "en" ]}).
Example ex_route_exact_yes :
  short (route_to_string map_to_list exact_route) /\
  route_parse route_new (route_to_string map_to_list exact_route) = Ok (kSuccess, exact_route).
Proof.
  split; [by vm_compute|]. apply route_round_trip_exact; [by intros m|by vm_compute|]. split; [by_compute|]. split; [by left|].
  apply (map_Forall_to_list (fun k v => plain_except (B "=&") k /\ "&"%char ∉ v)). by_compute.
Qed.
(** The two names "a b" and "a+b" are printed as "a+b" and "a%2Bb". *)
Definition swap_route : route := Route (B "/s") (<[B "a b" := B "1"]> {[ B "a+b" := B "2" ]}).
Example ex_route_exact_no :
  short (route_to_string map_to_list swap_route) /\
  route_parse route_new (route_to_string map_to_list swap_route) <> Ok (kSuccess, swap_route).
Proof.
  split; [by vm_compute|]. intros H. apply route_round_trip_exact in H as (_ & _ & H); [|by intros m|by vm_compute].
  destruct (H (B "a b") (B "1")) as [HF _]; [by vm_compute|]. apply (bool_decide_eq_true_2 _) in HF. by vm_compute in HF.
Qed.


(** Headers: [t] is the printed text without the blank line. *)
Definition header_back (h : gmap bytes bytes) : option (bool * bool) :=
  let s := header_to_string map_to_list h in
  let t := take (length s - 4) s in
  match header_parse ∅ t with
  | Ok (rc, h') => Some (bool_decide (s = t ++ CRLF ++ CRLF), bool_decide (rc = kSuccess /\ h' = h))
  | _ => None
  end.
Example ex_header_exact :
  header_back (<[B "Host" := B "h: 1"]> {[ B "Accept" := B "*/*" ]}) = Some (true, true) /\
  header_back (<[B "Host" := B "h: 1"]> {[ B "Accept:" := B "*/*" ]}) = Some (true, false).
Proof. by vm_compute. Qed.

Definition exact_req (v : bytes) : req := Req mGET v1_1 {[ B "X" := v ]} exact_route (B "body").
Example ex_request_exact_yes : exists r1 msg,
  req_build map_to_list map_to_list (exact_req (B "y: z")) [] = (kSuccess, r1, msg) /\ short msg /\
  req_parse req_new msg = Ok (kSuccess, r1).
Proof.
  destruct (req_build map_to_list map_to_list (exact_req (B "y: z")) []) as [[rc r1] msg] eqn:E.
  assert (Erc : rc = kSuccess) by (change rc with (rc, r1, msg).1.1; rewrite <- E; by vm_compute). subst rc.
  assert (Hs : short msg) by (change msg with (kSuccess, r1, msg).2; rewrite <- E; by vm_compute).
  exists r1, msg. split; [reflexivity|]. split; [exact Hs|].
  apply (request_round_trip_exact _ _ _ _ _ _ ltac:(by intros m) ltac:(by intros m) E Hs). clear E Hs.
  split; [|split; [by_compute|split; [by left|]]].
  - intros k v Hk _. change (({[ B "X" := B "y: z" ]} : gmap bytes bytes) !! k = Some v) in Hk. apply lookup_singleton_Some in Hk as [<- <-]. split; [|by left].
    repeat split; [by_compute|..|done]; intros Hc; by apply find_idx_None_contains in Hc.
  - apply (map_Forall_to_list (fun k v => plain_except (B "=&") k /\ "&"%char ∉ v)). by_compute.
Qed.
Example ex_request_exact_no : exists r1 msg r2,
  req_build map_to_list map_to_list (exact_req (B " y: z")) [] = (kSuccess, r1, msg) /\ short msg /\
  req_parse req_new msg = Ok (kSuccess, r2) /\ rq_header r2 !! B "X" = Some (B "y: z").
Proof. do 3 eexists. split; [by vm_compute|]. split; [by vm_compute|]. split; by vm_compute. Qed.

Definition exact_resp (v : bytes) : resp := Resp sNOT_FOUND v1_0 {[ B "Server" := v ]} (B "b" ++ CRLF ++ CRLF).
Example ex_response_exact_yes : exists r1 msg,
  resp_build map_to_list (exact_resp (B "x: y")) [] = (kSuccess, r1, msg) /\ fits msg /\
  resp_parse resp_new msg = Ok (kSuccess, r1).
Proof.
  destruct (resp_build map_to_list (exact_resp (B "x: y")) []) as [[rc r1] msg] eqn:E.
  assert (Erc : rc = kSuccess) by (change rc with (rc, r1, msg).1.1; rewrite <- E; by vm_compute). subst rc.
  assert (Hs : fits msg) by (change msg with (kSuccess, r1, msg).2; rewrite <- E; by vm_compute).
  exists r1, msg. split; [reflexivity|]. split; [exact Hs|].
  apply (response_round_trip_exact _ _ _ _ _ ltac:(by intros m) E Hs). clear E Hs.
  intros k v Hk _. change (({[ B "Server" := B "x: y" ]} : gmap bytes bytes) !! k = Some v) in Hk. apply lookup_singleton_Some in Hk as [<- <-]. split; [|done].
  repeat split; [by_compute|..|done]; intros Hc; by apply find_idx_None_contains in Hc.
Qed.
Example ex_response_exact_no : exists r1 msg r2,
  resp_build map_to_list (exact_resp []) [] = (kSuccess, r1, msg) /\ fits msg /\
  resp_parse resp_new msg = Ok (kSuccess, r2) /\ rs_header r2 !! B "Server" = Some (B ": ").
Proof. do 3 eexists. split; [by vm_compute|]. split; [by vm_compute|]. split; by vm_compute. Qed.

Print Assumptions header_round_trip_exact.
Print Assumptions route_round_trip_exact.
Print Assumptions request_round_trip_exact.
Print Assumptions response_round_trip_exact.
