(** C226, C227: requests made with GET and POST
    (src/cppnet/http/req/http_req.cpp:88-124). *)
From Verif.Lib Require Import CxxStringFacts.
From Verif.Proof Require Import StringProof TextProof RouteProof ReqProof.
From Verif.Props Require Import MessageProps.

(** * C226 *)

(** What was given counts; what was not given stays as it was. *)
Definition over (m : smap) (given : smap) (m' : smap) : Prop :=
  forall k, m' !! k = match given !! k with Some v => Some v | None => m !! k end.
(** The request that one asks for: whatever the object held before. *)
Definition get_request_full : Prop := forall it (r : req) url params extra,
  valid_order it ->
  rq_route (req_GET it r url params extra) = Route url params /\ rq_body (req_GET it r url params extra) = [].

Lemma add_headers_over l : forall m, NoDup l.*1 -> over m (list_to_map l) (add_headers m l).
Proof.
  unfold add_headers. induction l as [|[k v] l IH]; intros m Hnd j; cbn [foldl fmap list_fmap fst snd] in *.
  - change (list_to_map []) with (∅ : smap). by rewrite lookup_empty.
  - apply NoDup_cons in Hnd as [Hk Hnd]. rewrite (IH _ Hnd j), list_to_map_cons. unfold header_add.
    destruct (decide (k = j)) as [<-|Hne].
    + rewrite not_elem_of_list_to_map_1 by done. by rewrite !lookup_insert.
    + by rewrite !lookup_insert_ne by done.
Qed.
Lemma add_params_over l : forall rt, NoDup l.*1 ->
  rt_path (add_params rt l) = rt_path rt /\ over (rt_params rt) (list_to_map l) (rt_params (add_params rt l)).
Proof.
  unfold add_params. induction l as [|[k v] l IH]; intros rt Hnd; cbn [foldl fmap list_fmap fst snd] in *.
  - split; [done|]. intros j. change (list_to_map []) with (∅ : smap). by rewrite lookup_empty.
  - apply NoDup_cons in Hnd as [Hk Hnd]. destruct (IH (route_add_param rt k v) Hnd) as [Hp Ho]. split; [exact Hp|].
    intros j. rewrite (Ho j), list_to_map_cons. unfold route_add_param. cbn [rt_params].
    destruct (decide (k = j)) as [<-|Hne].
    + rewrite not_elem_of_list_to_map_1 by done. by rewrite !lookup_insert.
    + by rewrite !lookup_insert_ne by done.
Qed.
Lemma order_nodup (it : iter_order) (m : smap) : valid_order it -> NoDup (it m).*1 /\ list_to_map (it m) = m.
Proof.
  intros Hit. assert (Hnd : NoDup (it m).*1) by (rewrite (Hit m); apply NoDup_fst_map_to_list).
  split; [done|]. rewrite (list_to_map_proper _ (map_to_list m)); [apply list_to_map_to_list|done|apply Hit].
Qed.
Lemma over_empty given m' : over ∅ given m' -> m' = given.
Proof. intros H. apply map_eq. intros k. rewrite (H k), lookup_empty. by destruct (given !! k). Qed.

(** GET, for any object: the method, the version, the path; the parameters and header
    fields that were given, over those that were there; the body stays. *)
Theorem get_request_partial (it : iter_order) (r : req) url params extra : valid_order it ->
  let q := req_GET it r url params extra in
  rq_method q = mGET /\ rq_version q = v1_1 /\ rt_path (rq_route q) = url /\
  over (rt_params (rq_route r)) params (rt_params (rq_route q)) /\ over (rq_header r) extra (rq_header q) /\ rq_body q = rq_body r.
Proof.
  intros Hit q. destruct (order_nodup it params Hit) as [Np Ep]. destruct (order_nodup it extra Hit) as [Nx Ex].
  destruct (add_params_over (it params) (route_set_path (rq_route r) url) Np) as [H1 H2].
  pose proof (add_headers_over (it extra) (rq_header r) Nx) as H3. rewrite Ep in H2. rewrite Ex in H3.
  unfold q, req_GET. cbn [rq_method rq_version rq_route rq_header rq_body]. by rewrite H1.
Qed.
(** On a fresh object it is exactly what was asked for. *)
Theorem get_request_fresh (it : iter_order) url params extra : valid_order it ->
  req_GET it req_new url params extra = Req mGET v1_1 extra (Route url params) [].
Proof.
  intros Hit. destruct (get_request_partial it req_new url params extra Hit) as (_ & _ & H3 & H4 & H5 & _).
  unfold req_GET in *. cbn [rq_route rq_header] in *. f_equal; [by apply over_empty|].
  destruct (add_params _ _) as [p m]. cbn [rt_path rt_params] in *. subst p. f_equal. by apply over_empty.
Qed.
(** A reused object sends the old parameters and the old body again. *)
Definition used : req := Req mPOST v1_1 ∅ (Route (B "/login") {[ B "user" := B "me" ]}) (B "secret").
Theorem get_request_refuted : ~ get_request_full.
Proof.
  intros H. destruct (H map_to_list used (B "/news") ∅ ∅ valid_order_sorted) as [_ Hb]. by vm_compute in Hb.
Qed.
Example get_request_reused : exists r1, req_build map_to_list map_to_list (req_GET map_to_list used (B "/news") ∅ ∅) [] =
  (kSuccess, r1, B "GET /news?user=me HTTP/1.1" ++ CRLF ++ B "Content-Length: 6" ++ CRLF ++ B "Host: localhost" ++ CRLF ++ CRLF ++ B "secret").
Proof. eexists. vm_compute. reflexivity. Qed.

(** POST with a body. *)
Theorem post_request (it : iter_order) (r : req) url body extra : valid_order it ->
  let q := req_POST it r url body extra in
  rq_method q = mPOST /\ rq_version q = v1_1 /\ rq_body q = body /\
  rq_route q = Route url (rt_params (rq_route r)) /\ over (rq_header r) extra (rq_header q).
Proof.
  intros Hit q. destruct (order_nodup it extra Hit) as [Nx Ex].
  pose proof (add_headers_over (it extra) (rq_header r) Nx) as H3. rewrite Ex in H3. done.
Qed.
Example post_request_ex : req_POST map_to_list used (B "/form") (B "text") {[ B "X" := B "1" ]} =
  Req mPOST v1_1 {[ B "X" := B "1" ]} (Route (B "/form") {[ B "user" := B "me" ]}) (B "text").
Proof. by vm_compute. Qed.

(** So the receiver of a request that GET made reads the path and the parameters that
    were given, if the path and the names need no escaping and no value has a '&' (C13). *)
Theorem get_arrives (it hit rit : iter_order) url params extra r1 msg :
  valid_order it -> valid_order hit -> valid_order rit ->
  req_build hit rit (req_GET it req_new url params extra) [] = (kSuccess, r1, msg) -> short msg ->
  sendable extra -> plain_except (B "?") url -> url <> [] ->
  (forall k v, params !! k = Some v -> plain_except (B "=&") k /\ "&"%char ∉ v) ->
  exists r', req_parse req_new msg = Ok (kSuccess, r') /\ rq_method r' = mGET /\ rq_route r' = Route url params /\ rq_body r' = [] /\
    forall k v, k <> B "Content-Length" -> k <> B "Host" -> extra !! k = Some v -> rq_header r' !! k = Some v.
Proof.
  intros Hit Hh Hr Hb Hs Hse Hu Hne Hp. rewrite get_request_fresh in Hb by done.
  destruct (request_round_trip_partial hit rit _ r1 [] msg Hh Hr Hb Hs) as (r' & Hpa & _ & Hm & _ & Hro & Hbo & _ & _ & Hx);
    cbn [rq_header rq_route rt_path rt_params rq_method rq_body] in *; [done|done|by left|done|].
  exists r'. split; [exact Hpa|]. split; [done|]. split; [done|]. split; [done|]. intros k v H1 H2 Hk. by rewrite (Hx k H1 H2).
Qed.
Example get_arrives_ex : exists r1, req_build map_to_list map_to_list (req_GET map_to_list req_new (B "/find") {[ B "q" := B "a b%" ]} {[ B "X" := B "1" ]}) [] =
  (kSuccess, r1, B "GET /find?q=a+b%25 HTTP/1.1" ++ CRLF ++ B "Content-Length: 0" ++ CRLF ++ B "X: 1" ++ CRLF ++ B "Host: localhost" ++ CRLF ++ CRLF).
Proof. eexists. vm_compute. reflexivity. Qed.

(** * C227 *)

(** A form in a body: pieces between '&', each a name, '=', a value, both encoded. *)
Definition form_piece (x : bytes) (kv : bytes * bytes) : Prop :=
  exists a b, x = a ++ "="%char :: b /\ "="%char ∉ a /\ form_decodes a kv.1 /\ form_decodes b kv.2.
Definition form_body (body : bytes) (kvs : list (bytes * bytes)) : Prop :=
  exists l, pieces (B "&") body l /\ Forall2 form_piece l kvs.
(** The body that POST makes of a map is a form with exactly its entries. *)
Definition post_form_full : Prop := forall it (r : req) url params extra,
  valid_order it -> params <> ∅ -> fits (rq_body r ++ params_text (it params)) ->
  exists q kvs, req_POST_form it r url params extra = Ok q /\ form_body (rq_body q) kvs /\ kvs ≡ₚ map_to_list params.

Lemma drop_last b : fits b -> substr b 0 (szsub (size b) 1) = Ok (removelast b).
Proof.
  intros Hf. destruct b as [|c b]; [done|].
  assert (E : szsub (size (c :: b)) 1 = N.of_nat (length b)).
  { unfold fits in Hf. unfold szsub, size. cbn [length] in *. change size_mod with (2 ^ 64)%N in *.
    replace (N.of_nat (S (length b)) + 2 ^ 64 - 1)%N with (N.of_nat (length b) + 1 * 2 ^ 64)%N by lia.
    rewrite N.mod_add by lia. rewrite N.mod_small; [done|]. lia. }
  rewrite E. change 0%N with (N.of_nat 0). rewrite substr_nat by (cbn; lia). rewrite drop_0, removelast_firstn_len. done.
Qed.
(** Exactly what the body is, for any object: what it held already, then the entries
    with nothing escaped; without entries it loses its last byte. *)
Theorem post_form_text (it : iter_order) (r : req) url params extra : valid_order it -> fits (rq_body r ++ params_text (it params)) ->
  exists q, req_POST_form it r url params extra = Ok q /\ rq_method q = mPOST /\ rq_version q = v1_1 /\
    rq_route q = Route url (rt_params (rq_route r)) /\ over (rq_header r) extra (rq_header q) /\
    rq_body q = if decide (params = ∅) then removelast (rq_body r)
                else rq_body r ++ join (B "&") (map (fun kv => kv.1 ++ B "=" ++ kv.2) (it params)).
Proof.
  intros Hit Hf. unfold req_POST_form. rewrite drop_last by done. cbn [mbind outcome_bind]. eexists. split; [reflexivity|].
  cbn [rq_method rq_version rq_route rq_header rq_body]. do 3 (split; [done|]). split.
  { destruct (order_nodup it extra Hit) as [Nx Ex]. pose proof (add_headers_over (it extra) (rq_header r) Nx) as H3. by rewrite Ex in H3. }
  assert (Hnil : it params = [] <-> params = ∅).
  { rewrite <- map_to_list_empty_iff. split; intros E.
    - apply Permutation_nil. rewrite <- E. apply Hit.
    - apply Permutation_nil. rewrite <- E. symmetry. apply Hit. }
  case_decide as Hp.
  - apply Hnil in Hp. rewrite Hp. cbn [params_text flat_map]. by rewrite app_nil_r.
  - assert (Hl : it params <> []) by (by rewrite Hnil). rewrite params_text_join by done.
    change (B "&") with ["&"%char] at 2. rewrite app_assoc, removelast_last. done.
Qed.

Lemma form_decodes_plain s : "+"%char ∉ s -> "%"%char ∉ s -> form_decodes s s.
Proof.
  induction s as [|c s IH]; intros H1 H2; [constructor|]. apply not_elem_of_cons in H1 as [H1 H1']. apply not_elem_of_cons in H2 as [H2 H2'].
  apply fd_other; [congruence..|]. by apply IH.
Qed.
(** What holds: with a fresh body, and where nothing would have to be escaped. *)
Theorem post_form_partial (it : iter_order) (r : req) url params extra :
  valid_order it -> params <> ∅ -> fits (params_text (it params)) -> rq_body r = [] ->
  (forall k v, params !! k = Some v -> (forall c, c ∈ B "+%&" -> c ∉ k /\ c ∉ v) /\ "="%char ∉ k) ->
  exists q, req_POST_form it r url params extra = Ok q /\ form_body (rq_body q) (it params).
Proof.
  intros Hit Hne Hf Hb Hkv. destruct (post_form_text it r url params extra Hit) as (q & Hq & _ & _ & _ & _ & Hbody).
  { by rewrite Hb. }
  exists q. split; [exact Hq|]. rewrite decide_False in Hbody by done. rewrite Hb in Hbody. cbn [app] in Hbody.
  assert (HF : Forall (fun kv => (forall c, c ∈ B "+%&" -> c ∉ kv.1 /\ c ∉ kv.2) /\ "="%char ∉ kv.1) (it params)).
  { apply Forall_forall. intros [k v] Hin. rewrite (Hit params) in Hin. apply elem_of_map_to_list in Hin. by apply Hkv. }
  exists (map (fun kv => kv.1 ++ B "=" ++ kv.2) (it params)). split.
  - rewrite Hbody. apply pieces_join_char.
    + intros E. apply map_eq_nil in E. apply Hne. apply map_to_list_empty_iff. apply Permutation_nil. rewrite <- E. apply Hit.
    + apply Forall_map. eapply Forall_impl; [exact HF|]. intros [k v] [H _]. cbn [fst snd] in *.
      destruct (H "&"%char ltac:(by_compute)) as [H1 H2]. rewrite !not_elem_of_app. split; [done|]. split; [by_compute|done].
  - clear Hbody Hf. induction HF as [|[k v] l [H He] HF IH]; cbn [map]; [constructor|]. constructor; [|exact IH]. cbn [fst snd] in *.
    destruct (H "+"%char ltac:(by_compute)) as [H1 H2]. destruct (H "%"%char ltac:(by_compute)) as [H3 H4].
    exists k, v. split; [done|]. split; [done|]. split; by apply form_decodes_plain.
Qed.
Theorem post_form_refuted : ~ post_form_full.
Proof.
  intros H. destruct (H map_to_list req_new (B "/s") {[ B "q" := B "a+b" ]} ∅ valid_order_sorted) as (q & kvs & Hq & (l & Hl & HF) & Hp).
  - by apply map_non_empty_singleton.
  - by vm_compute.
  - assert (E : map_to_list ({[ B "q" := B "a+b" ]} : smap) = [(B "q", B "a+b")]) by by vm_compute. rewrite E in Hp.
    symmetry in Hp. apply Permutation_length_1_inv in Hp as ->.
    apply Forall2_cons_inv_r in HF as (x & l' & (a & b & Hx & Ha & _ & Hb) & HF & ->). apply Forall2_nil_inv_r in HF as ->.
    assert (Eb : rq_body q = B "q=a+b") by (vm_compute in Hq; by injection Hq as <-).
    apply pieces_join in Hl. cbn [join] in Hl. rewrite Eb in Hl. subst x. cbn [snd] in Hb.
    destruct a as [|c a]; [done|]. injection Hx as <- Hx. destruct a as [|d a].
    + injection Hx as <-. apply url_decode_form in Hb. by vm_compute in Hb.
    + injection Hx as <- _. apply Ha. right. left.
Qed.
(** A value with '&' makes two entries; a reused object puts the old body in front; and
    without entries the last byte of what was there is lost. *)
Example post_form_ex :
  (exists q, req_POST_form map_to_list req_new (B "/s") {[ B "q" := B "R&D" ]} ∅ = Ok q /\ rq_body q = B "q=R&D") /\
  (exists q, req_POST_form map_to_list used (B "/s") {[ B "q" := B "x" ]} ∅ = Ok q /\ rq_body q = B "secretq=x") /\
  (exists q, req_POST_form map_to_list used (B "/s") ∅ ∅ = Ok q /\ rq_body q = B "secre").
Proof. split; [|split]; (eexists; split; [vm_compute; reflexivity|by vm_compute]). Qed.
Example post_form_partial_ex : exists q, req_POST_form map_to_list req_new (B "/s") {[ B "q" := B "x" ]} ∅ = Ok q /\ form_body (rq_body q) [(B "q", B "x")].
Proof.
  destruct (post_form_partial map_to_list req_new (B "/s") {[ B "q" := B "x" ]} ∅ valid_order_sorted) as (q & Hq & Hb).
  - by apply map_non_empty_singleton.
  - by vm_compute.
  - done.
  - intros k v Hk. apply lookup_singleton_Some in Hk as [<- <-]. split; [|by_compute].
    intros c Hc. assert (HF : Forall (fun c => c ∉ B "q" /\ c ∉ B "x") (B "+%&")) by (repeat constructor; by_compute).
    by eapply (proj1 (Forall_forall _ _) HF).
  - exists q. split; [exact Hq|]. assert (E : map_to_list ({[ B "q" := B "x" ]} : smap) = [(B "q", B "x")]) by by vm_compute. by rewrite E in Hb.
Qed.
Print Assumptions get_request_partial.
Print Assumptions get_request_fresh.
Print Assumptions get_request_refuted.
Print Assumptions post_request.
Print Assumptions get_arrives.
Print Assumptions post_form_text.
Print Assumptions post_form_partial.
Print Assumptions post_form_refuted.
