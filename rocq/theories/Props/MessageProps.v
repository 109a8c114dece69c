(** C20-C30, C80-C82: requests and responses
    (src/cppnet/http/req/http_req.cpp, src/cppnet/http/resp/http_resp.cpp). *)
From Verif.Proof Require Import RespProof.

Local Notation host := (B "Host").
Local Notation clen := (B "Content-Length").

Lemma big_bytes (n : N) : exists l : bytes, N.of_nat (length l) = n /\ Forall (fun c => c = "a"%char) l.
Proof.
  assert (Hn : exists k, N.of_nat k = n) by (eexists; apply N2Nat.id). destruct Hn as [k Hk].
  exists (replicate k "a"%char). split; [by rewrite replicate_length|]. by apply Forall_replicate.
Qed.

Lemma all_a_not_in (l : bytes) c : Forall (fun c => c = "a"%char) l -> c <> "a"%char -> c ∉ l.
Proof. intros HF Hc Hin. apply Hc. by eapply (proj1 (Forall_forall _ _) HF). Qed.

(** ** C20 *)

(** [sendable]: header names without ':' and CRLF, values without CRLF and
    leading spaces, not empty (Host may be, Content-Length is replaced). *)
Definition request_round_trip_full : Prop := forall hit rit (r r1 : req) out msg,
  valid_order hit -> valid_order rit ->
  req_build hit rit r out = (kSuccess, r1, msg) -> short msg ->
  sendable (rq_header r) -> rt_path (rq_route r) <> [] ->
  exists r', req_parse req_new msg = Ok (kSuccess, r') /\ rq_route r' = rq_route r.

(** A space in the path is not restored. *)
Theorem request_round_trip_refuted : ~ request_round_trip_full.
Proof.
  intros H.
  pose (r := Req mGET v1_1 ∅ (Route (B "/a b") ∅) []).
  destruct (req_build map_to_list map_to_list r []) as [[rc r1] msg] eqn:E.
  assert (rc = kSuccess) as -> by (by vm_compute in E; injection E as <- _ _).
  assert (Hshort : short msg) by (vm_compute in E; injection E as _ <-; by vm_compute).
  destruct (H _ _ _ _ _ _ valid_order_sorted valid_order_sorted E Hshort) as (r' & Hp & Hr).
  - intros k v Hk. unfold r in Hk. cbn [rq_header] in Hk. by rewrite lookup_empty in Hk.
  - done.
  - vm_compute in E. injection E as _ <-. vm_compute in Hp. injection Hp as <-. by vm_compute in Hr.
Qed.

(** What holds: for routes that survive printing (C13). *)
Theorem request_round_trip_partial : forall hit rit (r r1 : req) out msg,
  valid_order hit -> valid_order rit ->
  req_build hit rit r out = (kSuccess, r1, msg) -> short msg ->
  sendable (rq_header r) ->
  plain_except (B "?") (rt_path (rq_route r)) ->
  (rt_path (rq_route r) <> [] \/ rt_params (rq_route r) <> ∅) ->
  (forall k v, rt_params (rq_route r) !! k = Some v -> plain_except (B "=&") k /\ "&"%char ∉ v) ->
  exists r', req_parse req_new msg = Ok (kSuccess, r') /\ r1 = r' /\
    rq_method r' = rq_method r /\ rq_version r' = rq_version r /\
    rq_route r' = rq_route r /\ rq_body r' = rq_body r /\
    rq_header r' !! clen = Some (int_to_string (Z.of_nat (length (rq_body r)))) /\
    rq_header r' !! host = Some (match rq_header r !! host with
                                 | Some (c :: v) => c :: v | _ => B "localhost" end) /\
    forall k, k <> clen -> k <> host -> rq_header r' !! k = rq_header r !! k.
Proof.
  intros hit rit r r1 out msg H1 H2 Hb Hs Hsend Hp Hne Hkv.
  destruct (req_round_trip hit rit r out msg r1 H1 H2 Hb Hs Hsend Hp Hne Hkv) as [Hparse ->].
  eexists. split; [exact Hparse|]. cbn [rq_method rq_version rq_route rq_body rq_header].
  do 5 (split; [done|]).
  assert (Hsb : (N.of_nat (length (rq_body r)) < 2 ^ 31)%N).
  { assert (Hm : rq_method r <> mUNKNOWN). { intros E. unfold req_build in Hb. by rewrite E in Hb. }
    assert (Hv : rq_version r <> vUNKNOWN).
    { intros E. unfold req_build in Hb. rewrite decide_False in Hb by done. by rewrite E in Hb. }
    rewrite req_build_ok in Hb by done. apply (f_equal snd) in Hb. cbn [snd] in Hb. subst msg. unfold short in Hs. rewrite !app_length in Hs. lia. }
  unfold built_header. split; [|split].
  - rewrite lookup_insert. unfold size. by rewrite to_int32_nat.
  - rewrite lookup_insert_ne by done. unfold header_get.
    destruct (rq_header r !! host) as [[|c v]|] eqn:E; cbn [from_option id]; by rewrite ?lookup_insert.
  - intros k Hk1 Hk2. rewrite lookup_insert_ne by done.
    destruct (header_get (rq_header r) host); [by rewrite lookup_insert_ne|done].
Qed.

(** ** C21 *)
Definition request_parse_total_full : Prop := forall (r : req) (s : bytes),
  fits s -> is_ok (req_parse r s).

Theorem request_parse_total_partial : forall (r : req) (s : bytes),
  short s -> is_ok (req_parse r s).
Proof. intros r s Hs. destruct (req_parse_total r s Hs) as (rc & r' & H & _). by eexists. Qed.

(** A target with a '?' beyond 2 GiB makes the route parser throw. *)
Theorem request_parse_total_refuted : ~ request_parse_total_full.
Proof.
  intros H. destruct (big_bytes (2 ^ 31)) as (path & Hl & Ha).
  pose (t := path ++ "?"%char :: []).
  pose (first := B "GET" ++ SP :: t ++ SP :: B "HTTP/1.1").
  pose (s := first ++ CRLF ++ crlf_lines [] ++ CRLF ++ []).
  assert (Hn : forall c, c <> "a"%char -> c <> "?"%char -> c ∉ t).
  { intros c Hc1 Hc2. unfold t. rewrite not_elem_of_app, elem_of_list_singleton.
    split; [by apply (all_a_not_in path)|done]. }
  assert (Hline : request_line first (B "GET") t (B "HTTP/1.1")).
  { split; [done|]. split; [by_compute|]. split; [by apply Hn|by_compute]. }
  assert (Hlt : N.of_nat (length t) = (2 ^ 31 + 1)%N) by (unfold t; rewrite app_length; cbn [length]; lia).
  assert (Hlf : N.of_nat (length first) = (2 ^ 31 + 14)%N).
  { unfold first. rewrite app_length. cbn [length]. rewrite app_length. cbn [length].
    change (length (B "GET")) with 3. change (length (B "HTTP/1.1")) with 8. lia. }
  assert (Hff : fits first) by (unfold fits; lia).
  assert (Hf : fits s).
  { unfold fits, s. rewrite !app_length. change (length CRLF) with 2. change (length (crlf_lines [])) with 0.
    cbn [length]. lia. }
  assert (Hm : message s first [] []).
  { split; [done|]. split; [|constructor]. apply no_cr_one_line. unfold first.
    rewrite not_elem_of_app, not_elem_of_cons, not_elem_of_app, not_elem_of_cons.
    split; [by_compute|]. split; [done|]. split; [by apply Hn|]. split; [done|by_compute]. }
  destruct (H req_new s Hf) as [x Hx].
  rewrite (req_parse_message _ _ _ _ _ _ Hf Hm lf_nil) in Hx.
  unfold req_line in Hx. change (B " ") with [SP] in Hx.
  rewrite (split_pieces _ [SP] [] _ Hff ltac:(done) (request_line_pieces _ _ _ _ Hline)) in Hx.
  cbn [mbind outcome_bind app] in Hx.
  change (to_method (B "GET")) with mGET in Hx. rewrite decide_False in Hx by done.
  unfold t in Hx. rewrite route_parse_huge in Hx; [done|unfold fits; fold t; lia|by apply (all_a_not_in path)|lia].
Qed.

(** ** C22 *)
Definition malformed_header_rejected_full : Prop := forall (r : req) s first hdrs body l,
  short s -> message s first hdrs body -> l ∈ hdrs -> ":"%char ∉ l ->
  exists r', req_parse r s = Ok (kLogicErr, r').

Theorem malformed_header_rejected_refuted : ~ malformed_header_rejected_full.
Proof.
  intros H.
  pose (first := B "GET / HTTP/1.1"). pose (hdrs := [B "no colon"]).
  assert (Hm : message (first ++ CRLF ++ crlf_lines hdrs ++ CRLF ++ []) first hdrs []).
  { split; [done|]. split; [apply no_cr_one_line; by_compute|].
    repeat constructor; [apply no_cr_one_line; by_compute|done]. }
  assert (Hs : short (first ++ CRLF ++ crlf_lines hdrs ++ CRLF ++ [])) by by vm_compute.
  destruct (H req_new _ _ _ _ (B "no colon") Hs Hm) as (r' & Hr'); [by_compute|by_compute|].
  vm_compute in Hr'. congruence.
Qed.

(** Worse: a colon-less line hides all the headers that follow, Content-Length
    included. *)
Theorem malformed_header_hides_rest : exists (s : bytes) (r' : req),
  s = B "POST /a HTTP/1.1" ++ CRLF ++ B "junk" ++ CRLF ++ B "Content-Length: 4" ++ CRLF ++ CRLF ++ B "body" /\
  req_parse req_new s = Ok (kSuccess, r') /\ rq_body r' = B "body" /\
  header_get_content_length (rq_header r') = (-1)%Z /\ rq_header r' = ∅.
Proof. eexists _, _. split; [done|]. split; [by vm_compute|]. by vm_compute. Qed.

(** ** C23 *)
Theorem request_accepted_iff : forall (r : req) (s : bytes),
  short s ->
  exists rc r', req_parse r s = Ok (rc, r') /\ (rc = kSuccess \/ rc = kLogicErr) /\
    (rc = kSuccess <->
     exists first hdrs body m t v,
       message s first hdrs body /\ request_line first m t v /\
       m ∈ known_methods /\ v ∈ known_versions /\ t <> []).
Proof.
  intros r s Hs. destruct (req_parse_total r s Hs) as (rc & r' & H1 & H2 & H3).
  exists rc, r'. split; [done|]. split; [done|]. rewrite H3. unfold good_line. naive_solver.
Qed.

(** What an accepted request contains. *)
Theorem request_parse_reads : forall (r : req) (s first : bytes) hdrs body m t v path params kvs,
  short s -> message s first hdrs body -> request_line first m t v ->
  m ∈ known_methods -> v ∈ known_versions -> t <> [] ->
  url t path params -> leading_fields hdrs kvs ->
  exists r', req_parse r s = Ok (kSuccess, r') /\
    method_str (rq_method r') = m /\ version_str (rq_version r') = v /\
    rt_path (rq_route r') = path /\ rq_body r' = body /\
    (forall k, rt_params (rq_route r') !! k =
       match last_val params k with Some w => Some w | None => rt_params (rq_route r) !! k end) /\
    (forall k, rq_header r' !! k =
       match last_val kvs k with Some w => Some w | None => rq_header r !! k end).
Proof.
  intros r s first hdrs body m t v path params kvs Hs Hm Hl Hmk Hvk Ht Hu HL.
  apply to_method_known in Hmk. apply to_version_known in Hvk.
  eexists. split.
  - rewrite (req_parse_message _ _ _ _ _ _ (short_fits _ Hs) Hm HL).
    apply (req_line_ok _ _ _ _ m t v path params); [by eapply message_short_first|done..].
  - cbn [rq_method rq_version rq_route rq_body rq_header rt_path rt_params].
    split; [by apply method_str_of|]. split.
    { revert Hvk. unfold to_version.
      repeat (destruct (streq v _) eqn:E; [apply streq_true in E; by subst|clear E]). done. }
    split; [done|]. split; [done|]. split; intros k; apply insert_all_lookup.
Qed.

(** ** C24 *)

(** The header lines of the built text are exactly the application's. *)
Definition no_header_injection_full : Prop := forall hit rit (r r1 : req) out msg,
  valid_order hit -> valid_order rit -> req_build hit rit r out = (kSuccess, r1, msg) -> fits msg ->
  exists first hdrs body, message msg first hdrs body /\
    length hdrs = length (map_to_list (rq_header r1)).

Theorem no_header_injection_refuted : ~ no_header_injection_full.
Proof.
  intros H.
  pose (r := Req mGET v1_1 {[ B "X" := B "1" ++ CRLF ++ B "Injected: yes" ]} (Route (B "/") ∅) []).
  destruct (req_build map_to_list map_to_list r []) as [[rc r1] msg] eqn:E.
  assert (rc = kSuccess) as -> by (by vm_compute in E; injection E as <- _ _).
  assert (Hf : fits msg) by (vm_compute in E; injection E as _ <-; by vm_compute).
  destruct (H _ _ _ _ _ _ valid_order_sorted valid_order_sorted E Hf) as (first & hdrs & body & Hm & Hlen).
  assert (Hsz : length (map_to_list (rq_header r1)) = 3) by (vm_compute in E; injection E as <- _; by vm_compute).
  rewrite Hsz in Hlen.
  (* the text also splits into four lines *)
  assert (Hex : exists l1 l2 l3 l4, message msg (B "GET / HTTP/1.1") [l1; l2; l3; l4] [] ).
  { vm_compute in E. injection E as _ <-.
    match goal with |- exists _ _ _ _, message ?m _ _ _ => pose (msg := m) end.
    destruct (str_split msg CRLF [] false) as [l| | | | |] eqn:El; vm_compute in El; try done.
    injection El as El. 
    destruct l as [|a [|l1 [|l2 [|l3 [|l4 l]]]]]; try (by apply (f_equal length) in El).
    exists l1, l2, l3, l4. simplify_eq/=.
    split; [by vm_compute|]. split; [apply no_cr_one_line; by_compute|].
    repeat constructor; try done; apply no_cr_one_line; by_compute. }
  destruct Hex as (l1 & l2 & l3 & l4 & Hm2).
  pose proof (message_find_crlf _ _ _ _ Hm) as A1. pose proof (message_find_crlf _ _ _ _ Hm2) as A2.
  pose proof (message_find_crlf2 _ _ _ _ Hm) as B1. pose proof (message_find_crlf2 _ _ _ _ Hm2) as B2.
  rewrite A1 in A2. injection A2 as A2. rewrite B1 in B2. injection B2 as B2.
  assert (Hcl : length (crlf_lines hdrs) = length (crlf_lines [l1; l2; l3; l4])) by lia.
  destruct Hm as (E1 & _ & HF1), Hm2 as (E2 & _ & HF2). rewrite E1 in E2.
  apply app_inj_1 in E2 as [_ E2]; [|done]. apply app_inv_head in E2.
  apply app_inj_1 in E2 as [E2 _]; [|done].
  assert (Hp : forall ls, Forall (fun l => one_line l /\ l <> []) ls -> pieces CRLF (crlf_lines ls) (ls ++ [[]])).
  { intros ls HF. rewrite <- (app_nil_r (crlf_lines ls)). apply pieces_crlf_lines.
    - eapply Forall_impl; [exact HF|]. by intros x [? _].
    - constructor. by apply contains_nil. }
  pose proof (Hp _ HF1) as P1. pose proof (Hp _ HF2) as P2. rewrite E2 in P1.
  pose proof (pieces_det CRLF _ _ _ ltac:(done) P1 P2) as Heq.
  apply (f_equal length) in Heq. rewrite !app_length in Heq. simpl in Heq. lia.
Qed.

(** The path and the parameters cannot: whatever they are, the first line has
    exactly three words and no line break. *)
Theorem route_cannot_inject : forall hit rit (r r1 : req) out msg,
  req_build hit rit r out = (kSuccess, r1, msg) ->
  exists first target rest,
    msg = first ++ CRLF ++ rest /\ CR ∉ first /\ LF ∉ first /\
    request_line first (method_str (rq_method r)) target (version_str (rq_version r)).
Proof.
  intros hit rit r r1 out msg Hb.
  assert (Hm : rq_method r <> mUNKNOWN). { intros E. unfold req_build in Hb. by rewrite E in Hb. }
  assert (Hv : rq_version r <> vUNKNOWN).
  { intros E. unfold req_build in Hb. rewrite decide_False in Hb by done. by rewrite E in Hb. }
  rewrite req_build_ok in Hb by done. injection Hb as <- <-.
  exists (built_line rit r). do 2 eexists. split; [done|].
  assert (Hc : forall c, c = CR \/ c = LF -> c ∉ built_line rit r).
  { intros c Hc. unfold built_line.
    rewrite not_elem_of_app, not_elem_of_cons, not_elem_of_app, not_elem_of_cons.
    split; [|split; [|split; [|split]]].
    - destruct Hc as [-> | ->], (rq_method r); by_compute.
    - by destruct Hc as [-> | ->].
    - intros Hin. apply route_text_chars in Hin. naive_solver.
    - by destruct Hc as [-> | ->].
    - destruct Hc as [-> | ->], (rq_version r); by_compute. }
  split; [by apply Hc; left|]. split; [by apply Hc; right|]. apply built_line_request_line.
Qed.

(** Headers without line breaks: the lines of the built message are one line
    per header of the object. *)
Theorem no_header_injection_partial : forall hit rit (r r1 : req) out msg,
  valid_order hit -> req_build hit rit r out = (kSuccess, r1, msg) -> sendable (rq_header r) ->
  exists first hdrs, message msg first hdrs (rq_body r) /\
    hdrs ≡ₚ map (fun kv => kv.1 ++ B ": " ++ kv.2) (map_to_list (rq_header r1)).
Proof.
  intros hit rit r r1 out msg Hit Hb Hs.
  assert (Hm : rq_method r <> mUNKNOWN). { intros E. unfold req_build in Hb. by rewrite E in Hb. }
  assert (Hv : rq_version r <> vUNKNOWN).
  { intros E. unfold req_build in Hb. rewrite decide_False in Hb by done. by rewrite E in Hb. }
  rewrite req_build_ok in Hb by done. injection Hb as <- <-.
  destruct (built_message hit rit r Hit Hs) as [Hmsg _]. do 2 eexists. split; [exact Hmsg|].
  unfold field_lines. cbn [rq_header]. by apply Permutation_map, Hit.
Qed.

Theorem response_no_header_injection_partial : forall hit (r r1 : resp) out msg,
  valid_order hit -> resp_build hit r out = (kSuccess, r1, msg) -> resp_sendable (rs_header r) ->
  exists first hdrs, message msg first hdrs (rs_body r) /\
    hdrs ≡ₚ map (fun kv => kv.1 ++ B ": " ++ kv.2) (map_to_list (rs_header r1)).
Proof.
  intros hit r r1 out msg Hit Hb Hs.
  assert (Hst : rs_status r <> sUNKNOWN). { intros E. unfold resp_build in Hb. by rewrite E in Hb. }
  rewrite resp_build_ok in Hb by done. injection Hb as <- <-.
  destruct (resp_built_message hit r Hit Hs) as [Hmsg _]. do 2 eexists. split; [exact Hmsg|].
  unfold field_lines. cbn [rs_header]. by apply Permutation_map, Hit.
Qed.

(** ** C25 *)

(** [msg] carries the header lines [hdrs] and the body, and the Content-Length
    line is there exactly once, with value [n]. *)
Definition announces (msg body : bytes) (n : Z) : Prop :=
  exists first (kvs : list (bytes * bytes)),
    msg = first ++ CRLF ++ crlf_lines (field_lines kvs) ++ CRLF ++ body /\
    (clen, int_to_string n) ∈ kvs /\ forall v, (clen, v) ∈ kvs -> v = int_to_string n.

Definition content_length_correct_full : Prop :=
  (forall hit rit (r r1 : req) out msg, valid_order hit -> valid_order rit ->
     req_build hit rit r out = (kSuccess, r1, msg) ->
     announces msg (rq_body r) (Z.of_nat (length (rq_body r)))) /\
  (forall hit (r r1 : resp) out msg, valid_order hit ->
     resp_build hit r out = (kSuccess, r1, msg) ->
     announces msg (rs_body r) (Z.of_nat (length (rs_body r)))).

Lemma announced (hit : iter_order) (h : gmap bytes bytes) v w :
  valid_order hit ->
  (clen, v) ∈ hit (<[clen := v]> h) /\ ((clen, w) ∈ hit (<[clen := v]> h) -> w = v).
Proof.
  intros Hit. pose proof (Hit (<[clen := v]> h)) as Hp. split.
  - rewrite Hp. apply elem_of_map_to_list. by rewrite lookup_insert.
  - rewrite Hp. intros H. apply elem_of_map_to_list in H. rewrite lookup_insert in H. by injection H.
Qed.

Lemma request_announces hit rit (r r1 : req) out msg :
  valid_order hit -> req_build hit rit r out = (kSuccess, r1, msg) ->
  announces msg (rq_body r) (to_int32 (Z.of_N (N.of_nat (length (rq_body r))))).
Proof.
  intros Hit Hb.
  assert (Hm : rq_method r <> mUNKNOWN). { intros E. unfold req_build in Hb. by rewrite E in Hb. }
  assert (Hv : rq_version r <> vUNKNOWN).
  { intros E. unfold req_build in Hb. rewrite decide_False in Hb by done. by rewrite E in Hb. }
  rewrite req_build_ok in Hb by done. injection Hb as <- <-.
  exists (built_line rit r), (hit (built_header r)). split; [done|].
  split; [by apply (announced hit _ _ [] Hit)|]. intros w Hw. by eapply announced.
Qed.

Lemma response_announces hit (r r1 : resp) out msg :
  valid_order hit -> resp_build hit r out = (kSuccess, r1, msg) ->
  announces msg (rs_body r) (to_int32 (Z.of_N (N.of_nat (length (rs_body r))))).
Proof.
  intros Hit Hb.
  assert (Hst : rs_status r <> sUNKNOWN). { intros E. unfold resp_build in Hb. by rewrite E in Hb. }
  rewrite resp_build_ok in Hb by done. injection Hb as <- <-.
  exists (resp_built_line r), (hit (resp_built_header r)). split; [done|].
  split; [by apply (announced hit _ _ [] Hit)|]. intros w Hw. by eapply announced.
Qed.

(** Holds for bodies below 2 GiB. *)
Theorem content_length_correct_partial :
  (forall hit rit (r r1 : req) out msg, valid_order hit -> valid_order rit ->
     req_build hit rit r out = (kSuccess, r1, msg) -> short (rq_body r) ->
     announces msg (rq_body r) (Z.of_nat (length (rq_body r)))) /\
  (forall hit (r r1 : resp) out msg, valid_order hit ->
     resp_build hit r out = (kSuccess, r1, msg) -> short (rs_body r) ->
     announces msg (rs_body r) (Z.of_nat (length (rs_body r)))).
Proof.
  split.
  - intros hit rit r r1 out msg H1 _ Hb Hs. rewrite <- to_int32_nat by exact Hs.
    by eapply request_announces.
  - intros hit r r1 out msg H1 Hb Hs. rewrite <- to_int32_nat by exact Hs.
    by eapply response_announces.
Qed.

(** A body of exactly 2 GiB is announced with a negative length, whatever the
    headers: no Content-Length line of the built text has the right value. *)
Theorem content_length_huge_body : forall (hit : iter_order) (r r1 : resp) out msg,
  valid_order hit -> resp_build hit r out = (kSuccess, r1, msg) ->
  N.of_nat (length (rs_body r)) = (2 ^ 31)%N ->
  announces msg (rs_body r) (- 2 ^ 31).
Proof.
  intros hit r r1 out msg Hit Hb Hl. replace (- 2 ^ 31)%Z with (to_int32 (Z.of_N (N.of_nat (length (rs_body r))))).
  - by eapply response_announces.
  - by rewrite Hl.
Qed.

Theorem content_length_correct_refuted : ~ content_length_correct_full.
Proof.
  intros [_ H]. destruct (big_bytes (2 ^ 31)) as (body & Hl & _).
  pose (r := Resp sOK v1_1 ∅ body).
  assert (Hb : exists r1, resp_build map_to_list r [] = (kSuccess, r1,
    (B "HTTP/1.1 200 OK" ++ CRLF ++ B "Content-Length: -2147483648" ++ CRLF ++ CRLF) ++ body)).
  { eexists. rewrite resp_build_ok by done. f_equal.
    unfold resp_built_header, r, CxxString.size. cbn [rs_body rs_header]. rewrite Hl.
    rewrite insert_empty, map_to_list_singleton. rewrite <- !app_assoc. done. }
  destruct Hb as [r1 Hb].
  destruct (H _ _ _ _ _ valid_order_sorted Hb) as (first & kvs & E & Hin & _).
  unfold r in E, Hin. cbn [rs_body] in E, Hin.
  assert (E2 : B "HTTP/1.1 200 OK" ++ CRLF ++ B "Content-Length: -2147483648" ++ CRLF ++ CRLF
    = first ++ CRLF ++ crlf_lines (field_lines kvs) ++ CRLF).
  { apply (app_inj_2 _ _ body body); [done|]. rewrite E. by rewrite <- !app_assoc. }
  replace (Z.of_nat (length body)) with (2 ^ 31)%Z in Hin by lia.
  assert (Hc : contains (B "Content-Length: 2147483648") (B "HTTP/1.1 200 OK" ++ CRLF ++ B "Content-Length: -2147483648" ++ CRLF ++ CRLF)).
  { rewrite E2. apply elem_of_list_split in Hin as (l1 & l2 & ->).
    unfold crlf_lines, field_lines. rewrite !map_app, concat_app. cbn [map concat fst snd].
    set (A := concat (map _ (map _ l1))). set (Z := concat (map _ (map _ l2))).
    exists (first ++ CRLF ++ A), (CRLF ++ Z ++ CRLF).
    replace (clen ++ B ": " ++ int_to_string (2 ^ 31)) with (B "Content-Length: 2147483648") by by vm_compute.
    by rewrite <- !app_assoc. }
  by apply find_idx_None_contains in Hc.
Qed.

(** ** C26 *)
Definition response_round_trip_full : Prop := forall hit (r r1 : resp) out msg,
  valid_order hit -> resp_build hit r out = (kSuccess, r1, msg) -> fits msg ->
  (forall k v, rs_header r !! k = Some v -> carried (k, v)) ->
  exists r', resp_parse resp_new msg = Ok (kSuccess, r') /\
    rs_status r' = rs_status r /\ rs_version r' = rs_version r /\ rs_body r' = rs_body r /\
    forall k, k <> clen -> rs_header r' !! k = rs_header r !! k.

(** An empty header value is not restored. *)
Theorem response_round_trip_refuted : ~ response_round_trip_full.
Proof.
  intros H. pose (r := Resp sOK v1_1 {[ B "X" := [] ]} []).
  destruct (resp_build map_to_list r []) as [[rc r1] msg] eqn:E.
  assert (rc = kSuccess) as -> by (by vm_compute in E; injection E as <- _ _).
  assert (Hf : fits msg) by (vm_compute in E; injection E as _ <-; by vm_compute).
  destruct (H _ _ _ _ _ valid_order_sorted E Hf) as (r' & Hp & _ & _ & _ & Hk).
  - intros k v Hk. unfold r in Hk. cbn [rs_header] in Hk. apply lookup_singleton_Some in Hk as [<- <-].
    repeat split; [by_compute| | |done]; intros Hc; by apply find_idx_None_contains in Hc.
  - specialize (Hk (B "X") ltac:(done)).
    vm_compute in E. injection E as _ <-. vm_compute in Hp. injection Hp as <-. by vm_compute in Hk.
Qed.

Theorem response_round_trip_partial : forall hit (r r1 : resp) out msg,
  valid_order hit -> resp_build hit r out = (kSuccess, r1, msg) -> fits msg ->
  (forall k v, rs_header r !! k = Some v -> k <> clen -> carried (k, v) /\ v <> []) ->
  exists r', resp_parse resp_new msg = Ok (kSuccess, r') /\ r1 = r' /\
    rs_status r' = rs_status r /\ rs_version r' = rs_version r /\ rs_body r' = rs_body r /\
    (forall k, k <> clen -> rs_header r' !! k = rs_header r !! k) /\
    (short (rs_body r) -> rs_header r' !! clen = Some (int_to_string (Z.of_nat (length (rs_body r))))).
Proof.
  intros hit r r1 out msg Hit Hb Hf Hs.
  destruct (resp_round_trip hit r out msg r1 Hit Hb Hf Hs) as [Hp ->].
  eexists. split; [exact Hp|]. cbn [rs_status rs_version rs_body rs_header].
  do 4 (split; [done|]). unfold resp_built_header. split.
  - intros k Hk. by rewrite lookup_insert_ne.
  - intros Hsb. rewrite lookup_insert. unfold CxxString.size. by rewrite to_int32_nat.
Qed.

(** ** C27 *)
Definition response_parse_total_full : Prop := forall (r : resp) (s : bytes),
  fits s -> is_ok (resp_parse r s).

Theorem response_parse_total_refuted : ~ response_parse_total_full.
Proof.
  intros H. destruct (H resp_new CRLF) as [x Hx]; [by vm_compute|]. vm_compute in Hx. done.
Qed.

(** The two-byte text CRLF is the only one that crashes it. *)
Theorem response_parse_total_partial : forall (r : resp) (s : bytes),
  fits s -> (is_ok (resp_parse r s) <-> s <> CRLF).
Proof.
  intros r s Hf. destruct (resp_parse_outcome r s Hf) as [[-> E]|[Hne Hok]]; [|done].
  rewrite E. split; [|done]. intros [x Hx]. done.
Qed.

(** ** C28 *)
Definition response_without_headers_full : Prop :=
  forall (r : resp) (s first ver code reason body : bytes) n,
  fits s -> message s first [] body -> status_line first ver code reason -> stoi code = Ok n ->
  exists r', resp_parse r s = Ok (kSuccess, r') /\ rs_status r' = status_of_num n /\ rs_body r' = body.

Theorem response_without_headers_rejected :
  forall (r : resp) (s first body : bytes),
  fits s -> message s first [] body -> exists r', resp_parse r s = Ok (kLogicErr, r').
Proof.
  intros r s first body Hf Hm.
  rewrite (resp_parse_message _ _ _ _ _ Hf Hm).
  destruct (fits_resp_block _ _ _ _ Hf Hm) as [Hff Hfb].
  destruct (status_line_dec first) as [(v & c & re & Hl)|Hno].
  2:{ rewrite resp_line_bad by done. by eexists. }
  rewrite (resp_line_ok _ _ _ _ _ _ _ Hff Hl). destruct (stoi c); try by eexists.
  cbn [resp_block] in Hfb |- *.
  destruct (split_spec body CRLF [] false) as (l & Hp & _); [by apply fits_app_r in Hfb|done|].
  assert (Hpp : pieces CRLF (CRLF ++ body) ([] :: l)).
  { change (CRLF ++ body) with ([] ++ CRLF ++ body). constructor; [|done].
    intros j Hj. simpl in Hj. lia. }
  rewrite (header_parse_pieces _ _ _ Hfb ltac:(done) Hpp).
  cbn [header_lines]. rewrite header_line_none by by_compute. by eexists.
Qed.

Theorem response_without_headers_refuted : ~ response_without_headers_full.
Proof.
  intros H. pose (first := B "HTTP/1.1 204 No Content").
  assert (Hm : message (first ++ CRLF ++ CRLF ++ []) first [] []).
  { split; [done|]. split; [apply no_cr_one_line; by_compute|constructor]. }
  assert (Hf : fits (first ++ CRLF ++ CRLF ++ [])) by by vm_compute.
  destruct (H resp_new _ _ (B "HTTP/1.1") (B "204") (B "No Content") _ 204%Z Hf Hm) as (r' & Hr' & _).
  - split; [done|]. split; by_compute.
  - by vm_compute.
  - destruct (response_without_headers_rejected resp_new _ _ _ Hf Hm) as (r2 & H2).
    rewrite H2 in Hr'. by injection Hr'.
Qed.

(** ** C29 *)
Theorem response_build_fails_only_unset : forall hit (r : resp) out,
  (rs_status r <> sUNKNOWN -> exists r1 msg, resp_build hit r out = (kSuccess, r1, msg)) /\
  (rs_status r = sUNKNOWN -> resp_build hit r out = (kLogicErr, r, out)).
Proof.
  intros hit r out. split.
  - intros Hs. rewrite resp_build_ok by done. eauto.
  - intros Hs. unfold resp_build. by rewrite Hs.
Qed.

(** The same for requests: only an unset method or version. *)
Theorem request_build_fails_only_unset : forall hit rit (r : req) out,
  (rq_method r <> mUNKNOWN -> rq_version r <> vUNKNOWN ->
     exists r1 msg, req_build hit rit r out = (kSuccess, r1, msg)) /\
  (rq_method r = mUNKNOWN \/ rq_version r = vUNKNOWN -> req_build hit rit r out = (kLogicErr, r, out)).
Proof.
  intros hit rit r out. split.
  - intros Hm Hv. rewrite req_build_ok by done. eauto.
  - intros [E|E]; unfold req_build; rewrite E; [done|]. by destruct (decide _).
Qed.

(** ** C30 *)
Theorem enumerations_convert :
  (forall m, m <> mUNKNOWN -> to_method (method_str m) = m) /\
  (forall s, to_method s <> mUNKNOWN <-> s ∈ known_methods) /\
  (forall s, to_method s <> mUNKNOWN -> method_str (to_method s) = s) /\
  (forall v, to_version (version_str v) = v) /\
  (forall s, to_version s <> vUNKNOWN <-> s ∈ known_versions) /\
  (forall c, status_of_num (status_num c) = c) /\
  (forall n, status_of_num n <> sUNKNOWN -> status_num (status_of_num n) = n) /\
  (forall c, status_of_str (status_str c) = c) /\
  (forall s, status_of_str s <> sUNKNOWN -> status_str (status_of_str s) = s).
Proof.
  split; [exact to_method_str|]. split; [exact to_method_known|]. split; [exact method_str_of|].
  split; [exact to_version_str|]. split; [exact to_version_known|]. split; [exact status_of_num_num|].
  split; [exact status_num_of_num|]. split; [exact status_of_str_str|exact status_str_of_str].
Qed.

(** The codes are those of RFC 9110. *)
Theorem status_numbers : forall n, status_of_num n <> sUNKNOWN <->
  n ∈ [200; 201; 202; 204; 206; 301; 302; 400; 401; 403; 404; 405; 500]%Z.
Proof.
  intros n. split.
  - intros H. rewrite <- (status_num_of_num n H). destruct (status_of_num n); try done; by_compute.
  - intros H. repeat (apply elem_of_cons in H as [-> |H]; [done|]). by apply elem_of_nil in H.
Qed.

(** ** C80 *)
Definition parse_reuse_full : Prop := forall (r r' : req) s, short s -> req_parse r s = req_parse r' s.

Theorem parse_reuse_refuted : ~ parse_reuse_full.
Proof.
  intros H.
  specialize (H req_new (Req mGET v1_1 {[ B "Cookie" := B "sid=1" ]} route_new [])
    (B "GET / HTTP/1.1" ++ CRLF ++ CRLF) ltac:(by vm_compute)).
  vm_compute in H. congruence.
Qed.

Lemma insert_all_union (m : smap) kvs : insert_all m kvs = insert_all ∅ kvs ∪ m.
Proof.
  apply map_eq. intros k. rewrite lookup_union, !insert_all_lookup, lookup_empty.
  destruct (last_val kvs k), (m !! k); done.
Qed.

(** The exact dependency: old headers and parameters shine through where the
    new message has none; the rest is determined by the bytes. *)
Theorem parse_reuse_partial : forall (r r0 : req) s,
  short s -> req_parse req_new s = Ok (kSuccess, r0) ->
  req_parse r s = Ok (kSuccess, Req (rq_method r0) (rq_version r0) (rq_header r0 ∪ rq_header r)
    (Route (rt_path (rq_route r0)) (rt_params (rq_route r0) ∪ rt_params (rq_route r))) (rq_body r0)).
Proof.
  intros r r0 s Hs H0. pose proof (short_fits _ Hs) as Hf.
  destruct (req_parse_total req_new s Hs) as (rc & r0' & E & _ & Hiff).
  rewrite H0 in E. injection E as <- <-.
  destruct (proj1 Hiff eq_refl) as (first & hdrs & body & Hm & Hg).
  destruct (leading_fields_exists hdrs) as [kvs HL].
  rewrite (req_parse_message _ _ _ _ _ _ Hf Hm HL) in H0.
  rewrite (req_parse_message _ _ _ _ _ _ Hf Hm HL).
  destruct Hg as (m & t & v & Hl & Hmk & Hvk & Ht).
  apply to_method_known in Hmk. apply to_version_known in Hvk.
  pose proof (message_short_first _ _ _ _ Hs Hm) as Hsf.
  assert (Hst : short t).
  { destruct Hl as (-> & _). unfold short in *. rewrite app_length in Hsf. simpl in Hsf.
    rewrite app_length in Hsf. lia. }
  unfold req_line in H0 |- *. change (B " ") with [SP] in *.
  rewrite (split_pieces _ [SP] [] _ (short_fits _ Hsf) ltac:(done) (request_line_pieces _ _ _ _ Hl)) in H0 |- *.
  cbn [mbind outcome_bind app] in H0 |- *. rewrite decide_False in H0 by done. rewrite decide_False by done.
  destruct (route_parse_merge (rq_route r) t Hst) as (p & ps & E1 & E2); [done|].
  cbn [rq_route rq_header req_new] in H0.
  rewrite E1 in H0. rewrite E2. cbn [mbind outcome_bind] in H0 |- *.
  change (negb (kSuccess =? kSuccess)%Z) with false in *. cbv iota in H0 |- *.
  rewrite decide_False in H0 by done. rewrite decide_False by done. injection H0 as <-.
  cbn [rq_method rq_version rq_header rq_route rq_body rt_path rt_params].
  rewrite (insert_all_union (rq_header r)). by rewrite (insert_all_union (rt_params (rq_route r)) ps).
Qed.

(** ** C81 *)
Definition unterminated_rejected_full : Prop := forall (r : resp) s,
  fits s -> ~ contains CRLFCRLF s -> s <> CRLF -> exists rc r', resp_parse r s = Ok (rc, r') /\ rc <> kSuccess.

Theorem unterminated_rejected_refuted : ~ unterminated_rejected_full.
Proof.
  intros H. destruct (H resp_new (B "HTTP/1.1 200 OK" ++ CRLF ++ B "A: b")) as (rc & r' & E & Hrc).
  - by vm_compute.
  - intros Hc. by apply find_idx_None_contains in Hc.
  - done.
  - vm_compute in E. by injection E as <- _.
Qed.

(** What happens instead: every complete status line with well-formed headers
    but no blank line is accepted, with the text from its fourth byte as body. *)
Theorem unterminated_accepted : forall (r : resp) first ver code reason lines kvs n,
  fits (first ++ CRLF ++ join CRLF lines) -> one_line first -> status_line first ver code reason ->
  stoi code = Ok n -> lines <> [] -> Forall one_line lines -> Forall2 stored_field lines kvs ->
  ~ contains CRLFCRLF (first ++ CRLF ++ join CRLF lines) ->
  exists r', resp_parse r (first ++ CRLF ++ join CRLF lines) = Ok (kSuccess, r') /\
    rs_status r' = status_of_num n /\
    rs_body r' = drop 3 (first ++ CRLF ++ join CRLF lines).
Proof.
  intros r first ver code reason lines kvs n Hf H1 Hl Hn Hne Hone HF Hno.
  rewrite resp_parse_unterminated by done. rewrite decide_False.
  2:{ intros [-> _]. destruct Hl as (E & _). by destruct ver. }
  rewrite (resp_line_ok _ _ _ _ _ _ _ (fits_app_l _ _ Hf) Hl). rewrite Hn.
  rewrite (header_parse_fields _ lines kvs); [|by do 2 apply fits_app_r in Hf|done..].
  eexists. done.
Qed.

(** ** C82 *)
Theorem response_accepted_iff : forall (r : resp) (s first : bytes) hdrs body,
  fits s -> message s first hdrs body ->
  exists rc r', resp_parse r s = Ok (rc, r') /\ rs_body r' = body /\
    (rc = kSuccess \/ rc = kLogicErr) /\
    (rc = kSuccess <->
      hdrs <> [] /\ Forall (fun l => ":"%char ∈ l) hdrs /\
      exists ver code reason, status_line first ver code reason /\ is_ok (stoi code)) /\
    (forall ver code reason n kvs, rc = kSuccess ->
      status_line first ver code reason -> stoi code = Ok n -> Forall2 stored_field hdrs kvs ->
      rs_status r' = status_of_num n /\ rs_version r' = to_version ver /\
      forall k, rs_header r' !! k =
        match last_val kvs k with Some w => Some w | None => rs_header r !! k end).
Proof.
  intros r s first hdrs body Hf Hm.
  rewrite (resp_parse_message _ _ _ _ _ Hf Hm).
  destruct (fits_resp_block _ _ _ _ Hf Hm) as [Hff Hfb].
  destruct (status_line_dec first) as [(v & c & re & Hl)|Hno].
  2:{ rewrite resp_line_bad by done. do 2 eexists. split; [done|]. split; [done|]. split; [by right|].
      split; [|done]. split; [done|]. intros (_ & _ & v & c & re & Hl & _). by destruct (Hno v c re). }
  destruct hdrs as [|l ls].
  { destruct (response_without_headers_rejected r s first body Hf Hm) as (r' & E).
    rewrite (resp_parse_message _ _ _ _ _ Hf Hm) in E. rewrite E.
    exists kLogicErr, r'. split; [done|]. split.
    { rewrite (resp_line_ok _ _ _ _ _ _ _ Hff Hl) in E. destruct (stoi c); try by injection E as <-.
      destruct (header_parse _ _) as [[hrc h]| | | | |]; try done. by injection E as _ <-. }
    split; [by right|]. split; [|done]. split; [done|]. by intros (? & _). }
  rewrite (resp_line_ok _ _ _ _ _ _ _ Hff Hl).
  destruct (stoi c) as [n| | | | |] eqn:En.
  2-6: (do 2 eexists; split; [done|]; split; [done|]; split; [by right|]; split; [|done];
        split; [done|]; intros (_ & _ & v' & c' & re' & Hl' & [n Hn]);
        destruct (status_line_det _ _ _ _ _ _ _ Hl Hl') as (-> & -> & ->); congruence).
  cbn [resp_block] in Hfb |- *. destruct Hm as (_ & _ & HFm).
  assert (Hone : Forall one_line (l :: ls)) by (eapply Forall_impl; [exact HFm|]; by intros x [? _]).
  assert (Hne : join CRLF (l :: ls) <> []).
  { apply join_nonempty; [done|]. eapply Forall_impl; [exact HFm|]. by intros x [_ ?]. }
  rewrite (header_parse_pieces _ _ (l :: ls) Hfb Hne) by (by apply pieces_join_crlf).
  pose proof (join_fits_all _ _ Hfb) as Hfl.
  destruct (header_lines_cases (l :: ls)) as [(kvs & HF)|(good & kvs & bad & rest & E & HF & Hb)].
  - rewrite (header_lines_good _ _ kvs) by done. do 2 eexists. split; [done|]. split; [done|].
    split; [by left|]. split.
    + split; [|done]. intros _. split; [done|]. split.
      * clear -HF. induction HF; constructor; [by eapply stored_field_colon|done].
      * exists v, c, re. split; [done|]. by exists n.
    + intros v' c' re' n' kvs' _ Hl' Hn' HF'.
      destruct (status_line_det _ _ _ _ _ _ _ Hl Hl') as (-> & -> & ->). rewrite En in Hn'. injection Hn' as <-.
      split; [done|]. split; [done|]. intros k. cbn [rs_header].
      assert (kvs = kvs') as -> by (by eapply stored_fields_det). apply insert_all_lookup.
  - rewrite E in Hfl |- *. rewrite (header_lines_bad _ _ kvs); [|by apply Forall_app in Hfl as [? _]|done|done].
    do 2 eexists. split; [done|]. split; [done|]. split; [by right|]. split; [|done].
    split; [done|]. intros (_ & HFc & _). exfalso. apply Hb. rewrite Forall_app, Forall_cons in HFc. tauto.
Qed.

Print Assumptions request_round_trip_refuted.
Print Assumptions request_round_trip_partial.
Print Assumptions request_parse_total_partial.
Print Assumptions request_parse_total_refuted.
Print Assumptions malformed_header_rejected_refuted.
Print Assumptions malformed_header_hides_rest.
Print Assumptions request_accepted_iff.
Print Assumptions request_parse_reads.
Print Assumptions no_header_injection_refuted.
Print Assumptions route_cannot_inject.
Print Assumptions no_header_injection_partial.
Print Assumptions response_no_header_injection_partial.
Print Assumptions content_length_correct_partial.
Print Assumptions content_length_huge_body.
Print Assumptions content_length_correct_refuted.
Print Assumptions response_round_trip_refuted.
Print Assumptions response_round_trip_partial.
Print Assumptions response_parse_total_refuted.
Print Assumptions response_parse_total_partial.
Print Assumptions response_without_headers_refuted.
Print Assumptions response_without_headers_rejected.
Print Assumptions response_build_fails_only_unset.
Print Assumptions request_build_fails_only_unset.
Print Assumptions enumerations_convert.
Print Assumptions status_numbers.
Print Assumptions parse_reuse_refuted.
Print Assumptions parse_reuse_partial.
Print Assumptions unterminated_rejected_refuted.
Print Assumptions unterminated_accepted.
Print Assumptions response_accepted_iff.

(** Non-vacuity. *)
Lemma sendable_list (P : bytes -> bytes -> Prop) (h : gmap bytes bytes) :
  Forall (fun kv => P kv.1 kv.2) (map_to_list h) -> forall k v, h !! k = Some v -> P k v.
Proof.
  intros HF k v Hk. apply (proj1 (Forall_forall _ _) HF (k, v)). by apply elem_of_map_to_list.
Qed.

Definition ex_req : req :=
  Req mPOST v1_1 (<[B "Accept" := B "a: b, */*"]> {[ B "Content-Length" := B "junk" ]})
      (Route (B "/find") (<[B "q" := B "a b=c?%"]> {[ B "lang" := B "en" ]})) (B "x" ++ CRLF ++ CRLF ++ B "y").
Example ex_req_hyps : exists r1 msg,
  req_build map_to_list map_to_list ex_req [] = (kSuccess, r1, msg) /\ short msg /\
  sendable (rq_header ex_req) /\ plain_except (B "?") (rt_path (rq_route ex_req)) /\
  (forall k v, rt_params (rq_route ex_req) !! k = Some v -> plain_except (B "=&") k /\ "&"%char ∉ v).
Proof.
  do 2 eexists. split; [by vm_compute|]. split; [by vm_compute|]. split; [|split; [by_compute|]].
  - intros k v Hk Hne. unfold ex_req in Hk. cbn [rq_header] in Hk.
    apply lookup_insert_Some in Hk as [[<- <-]|[_ Hk]]; [|by apply lookup_singleton_Some in Hk as [<- _]].
    split; [|by left]. repeat split; [by_compute|..|done]; intros Hc; by apply find_idx_None_contains in Hc.
  - apply (map_Forall_to_list (fun k v => plain_except (B "=&") k /\ "&"%char ∉ v)). by_compute.
Qed.

Example ex_message : exists s,
  short s /\
  message s (B "GET /s?q=1 HTTP/1.0") [B "Host:  a.b"; B "X:"; B "bad"; B "Y: 1"] (B "tail") /\
  request_line (B "GET /s?q=1 HTTP/1.0") (B "GET") (B "/s?q=1") (B "HTTP/1.0") /\
  B "GET" ∈ known_methods /\ B "HTTP/1.0" ∈ known_versions /\
  leading_fields [B "Host:  a.b"; B "X:"; B "bad"; B "Y: 1"] [(B "Host", B "a.b"); (B "X", B ":")].
Proof.
  eexists. split; [|split; [split; [reflexivity|]|]]; [by vm_compute| |].
  - split; [apply no_cr_one_line; by_compute|]. repeat constructor; try done; apply no_cr_one_line; by_compute.
  - split; [by repeat split; by_compute|]. split; [by_compute|]. split; [by_compute|].
    constructor; [|constructor; [|by constructor; by_compute]].
    + apply sf_value; [|done]. exists 2. split; [by_compute|]. done.
    + apply (sf_blank (B "X") 0). by_compute.
Qed.

Definition ex_resp : resp :=
  Resp sNOT_FOUND v1_0 (<[B "Server" := B "x: y"]> {[ B "Content-Length" := B "99" ]}) (B "b" ++ CRLF ++ CRLF).
Example ex_resp_hyps : exists r1 msg,
  resp_build map_to_list ex_resp (B "old") = (kSuccess, r1, msg) /\ fits msg /\ short (rs_body ex_resp) /\
  (forall k v, rs_header ex_resp !! k = Some v -> k <> clen -> carried (k, v) /\ v <> []).
Proof.
  do 2 eexists. split; [by vm_compute|]. split; [by vm_compute|]. split; [by vm_compute|].
  intros k v Hk Hne. unfold ex_resp in Hk. cbn [rs_header] in Hk.
  apply lookup_insert_Some in Hk as [[<- <-]|[_ Hk]]; [|by apply lookup_singleton_Some in Hk as [<- _]].
  split; [|done]. repeat split; [by_compute|..|done]; intros Hc; by apply find_idx_None_contains in Hc.
Qed.

Example ex_unterminated : exists kvs,
  one_line (B "HTTP/1.1 200 OK") /\ status_line (B "HTTP/1.1 200 OK") (B "HTTP/1.1") (B "200") (B "OK") /\
  stoi (B "200") = Ok 200%Z /\ Forall one_line [B "A: b"; B "C:d"] /\
  Forall2 stored_field [B "A: b"; B "C:d"] kvs /\
  ~ contains CRLFCRLF (B "HTTP/1.1 200 OK" ++ CRLF ++ join CRLF [B "A: b"; B "C:d"]).
Proof.
  exists [(B "A", B "b"); (B "C", B "d")].
  split; [apply no_cr_one_line; by_compute|]. split; [by repeat split; by_compute|].
  split; [by vm_compute|]. split; [repeat constructor; apply no_cr_one_line; by_compute|].
  split.
  - constructor; [|constructor; [|constructor]]; (apply sf_value; [|done]);
      [exists 1|exists 0]; (split; [by_compute|done]).
  - intros Hc. by apply find_idx_None_contains in Hc.
Qed.
