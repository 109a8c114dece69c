(** C228, C229: the calls with which a handler makes its answer (src/cppnet/http/resp/http_resp.cpp:92-159),
    in any order and number, and the two Clear functions. *)
From Verif.Props Require Import MessageProps ExactProps MakeReqProps.
From Verif.Proof Require Import RespProof.

(** * C228 *)

(** A call on the HttpResp of a handler. *)
Inductive reply_op : Type :=
| ONotFound | ORedirect (location : bytes) (forever : bool) | OBinary (b : bytes) | OJsonOk (b : bytes) | OOk
| OSuccess (ct : content_type) (b : bytes) | OBadRequest (b : bytes) | OServerError (b : bytes)
| OJson (st : status_code) (b : bytes) | OText (st : status_code) (b : bytes).
(** The object and the table of custom types after it. *)
Definition reply_step (rc : resp * smap) (o : reply_op) : resp * smap :=
  let '(r, custom) := rc in
  match o with
  | ONotFound => (resp_not_found r, custom)
  | ORedirect l f => (resp_redirect r l f, custom)
  | OBinary b => (resp_success_binary r b, custom)
  | OJsonOk b => (resp_success_json r b, custom)
  | OOk => (resp_success0 r, custom)
  | OSuccess ct b => resp_success custom r ct b
  | OBadRequest b => (resp_bad_request r b, custom)
  | OServerError b => (resp_internal_error r b, custom)
  | OJson st b => (resp_json r st b, custom)
  | OText st b => (resp_text r st b, custom)
  end.
Definition reply_run : resp * smap -> list reply_op -> resp * smap := foldl reply_step.

(** What each call says, as a programmer reads it: the number of the status... *)
Definition says_status (o : reply_op) : option status_code :=
  match o with
  | ONotFound => Some sNOT_FOUND
  | ORedirect _ true => Some sMOVED_PERMANENTLY | ORedirect _ false => Some sFOUND
  | OBinary _ | OJsonOk _ | OOk | OSuccess _ _ => Some sOK
  | OBadRequest _ => Some sBAD_REQUEST | OServerError _ => Some sINTERNAL_SERVER_ERROR
  | OJson st _ | OText st _ => Some st
  end.
(** ... the text of the content type ([c0]: what is registered for the empty suffix)... *)
Definition type_texts : list (content_type * bytes) :=
  [(kTextPlain, B "text/plain"); (kTextHtml, B "text/html"); (kTextCss, B "text/css"); (kTextJavascript, B "text/javascript");
   (kApplicationJson, B "application/json"); (kApplicationOctetStream, B "application/octet-stream"); (kImagePng, B "image/png");
   (kImageJpeg, B "image/jpeg"); (kImageGif, B "image/gif"); (kImageWebp, B "image/webp"); (kUnknown, B "unknown")].
Definition says_type (c0 : bytes) (o : reply_op) (t : option bytes) : Prop :=
  match o with
  | OOk => t = None
  | OSuccess kCustom _ => t = Some c0
  | OSuccess ct _ => exists x, t = Some x /\ (ct, x) ∈ type_texts
  | OBinary _ => t = Some (B "application/octet-stream")
  | OJsonOk _ | OJson _ _ => t = Some (B "application/json")
  | OText _ _ => t = Some (B "text/plain")
  | _ => t = Some (B "text/html")
  end.
(** ... the body (an empty one given to Success counts as none)... *)
Definition says_body (o : reply_op) : option bytes :=
  match o with
  | ONotFound => Some (B "<html><body><h1>404 Not Found</h1></body></html>")
  | ORedirect _ true => Some (B "<html><body><h1>301 Moved Permanently</h1></body></html>")
  | ORedirect _ false => Some (B "<html><body><h1>302 Found</h1></body></html>")
  | OOk => None
  | OSuccess _ b => if decide (b = []) then None else Some b
  | OBinary b | OJsonOk b | OBadRequest b | OServerError b | OJson _ b | OText _ b => Some b
  end.
(** ... and where to go. *)
Definition says_location (o : reply_op) : option bytes := match o with ORedirect l _ => Some l | _ => None end.

(** The last thing said. *)
Definition last_said {A} (l : list (option A)) : option A := last (omap id l).
Lemma last_said_snoc {A} (l : list (option A)) x : last_said (l ++ [x]) = match x with Some a => Some a | None => last_said l end.
Proof. unfold last_said. rewrite omap_app. destruct x as [a|]; cbn [omap list_omap id]; [apply last_snoc|by rewrite app_nil_r]. Qed.

Lemma reply_run_snoc s ops o : reply_run s (ops ++ [o]) = reply_step (reply_run s ops) o.
Proof. unfold reply_run. by rewrite foldl_app. Qed.

(** Whatever a handler calls, in whatever order: of each part of the answer the last thing
    said counts, and everything not said stays. *)
Theorem last_said_counts : forall (ops : list reply_op) (r : resp) (custom : smap),
  exists r' custom' types,
    reply_run (r, custom) ops = (r', custom') /\
    Forall2 (says_type (default [] (custom !! []))) ops types /\
    rs_version r' = rs_version r /\
    rs_status r' = default (rs_status r) (last_said (map says_status ops)) /\
    rs_body r' = default (rs_body r) (last_said (map says_body ops)) /\
    (forall k, rs_header r' !! k =
       if decide (k = B "Content-Type") then match last_said types with Some t => Some t | None => rs_header r !! k end
       else if decide (k = B "Location") then match last_said (map says_location ops) with Some t => Some t | None => rs_header r !! k end
       else rs_header r !! k) /\
    (custom' = custom \/ (exists b, OSuccess kCustom b ∈ ops) /\ custom !! [] = None /\ custom' = <[[] := []]> custom).
Proof.
  intros ops r custom. induction ops as [|o ops IH] using rev_ind.
  { exists r, custom, []. split; [done|]. split; [constructor|]. do 3 (split; [done|]). split; [|by left].
    intros k. change (last_said (map says_location [])) with (@None bytes). change (last_said []) with (@None bytes). by repeat case_decide. }
  destruct IH as (r1 & c1 & ty & Hr & Hty & Hv & Hs & Hb & Hh & Hc).
  assert (Hd : default [] (c1 !! []) = default [] (custom !! [])).
  { destruct Hc as [->|(_ & Hn & ->)]; [done|]. by rewrite Hn, lookup_insert. }
  assert (Hcu : forall c2, c2 = c1 -> c2 = custom \/ (exists b, OSuccess kCustom b ∈ ops ++ [o]) /\ custom !! [] = None /\ c2 = <[[] := []]> custom).
  { intros c2 ->. destruct Hc as [->|((b & Hi) & Hn & E)]; [by left|]. right. split; [|by split]. exists b. apply elem_of_app. by left. }
  rewrite reply_run_snoc, Hr. rewrite !map_app. cbn [map]. rewrite !last_said_snoc.
  assert (Hcases : exists r2 c2 t2, reply_step (r1, c1) o = (r2, c2) /\ says_type (default [] (custom !! [])) o t2 /\
     rs_version r2 = rs_version r1 /\ rs_status r2 = default (rs_status r1) (says_status o) /\ rs_body r2 = default (rs_body r1) (says_body o) /\
     (forall k, rs_header r2 !! k = if decide (k = B "Content-Type") then match t2 with Some t => Some t | None => rs_header r1 !! k end
        else if decide (k = B "Location") then match says_location o with Some t => Some t | None => rs_header r1 !! k end
        else rs_header r1 !! k) /\
     (c2 = c1 \/ (exists b, o = OSuccess kCustom b) /\ c1 !! [] = None /\ c2 = <[[] := []]> c1)).
  { assert (Hins : forall (m : smap) x k, <[B "Content-Type" := x]> m !! k =
        if decide (k = B "Content-Type") then Some x else if decide (k = B "Location") then m !! k else m !! k).
    { intros m x k. destruct (decide (k = B "Content-Type")) as [->|Hne]; [by rewrite lookup_insert|]. rewrite lookup_insert_ne by done. by case_decide. }
    destruct o as [|l f|b|b| |ct b|b|b|st b|st b]; cbn [reply_step says_type says_status says_body says_location].
    - do 3 eexists. split; [reflexivity|]. split; [reflexivity|]. do 3 (split; [done|]). split; [|by left]. intros k. apply Hins.
    - do 3 eexists. split; [reflexivity|]. split; [reflexivity|]. split; [done|]. split; [by destruct f|]. split; [by destruct f|]. split; [|by left].
      intros k. cbn [rs_header resp_redirect]. unfold header_add. destruct (decide (k = B "Location")) as [->|Hne].
      + rewrite lookup_insert. rewrite decide_False by by_compute. done.
      + rewrite lookup_insert_ne by done. unfold resp_type, header_set_content_type. cbn [convert_to_str fst]. rewrite Hins. rewrite (decide_False (P := k = B "Location")) by done. done.
    - do 3 eexists. split; [reflexivity|]. split; [reflexivity|]. do 3 (split; [done|]). split; [|by left]. intros k. apply Hins.
    - do 3 eexists. split; [reflexivity|]. split; [reflexivity|]. do 3 (split; [done|]). split; [|by left]. intros k. apply Hins.
    - do 3 eexists. split; [reflexivity|]. split; [reflexivity|]. do 3 (split; [done|]). split; [|by left]. intros k. by repeat case_decide.
    - unfold resp_success, header_set_content_type.
      assert (Eb : (match b with [] => rs_body r1 | _ => b end) = default (rs_body r1) (if decide (b = []) then None else Some b)) by by destruct b.
      destruct (decide (ct = kCustom)) as [->|Hct].
      + cbn [convert_to_str]. destruct (c1 !! []) as [v|] eqn:Ev; do 3 eexists; (split; [reflexivity|]); cbn [rs_version rs_status rs_body rs_header].
        * split; [reflexivity|]. split; [done|]. split; [done|]. split; [exact Eb|]. split; [|by left]. intros k. rewrite <- Hd. apply Hins.
        * split; [reflexivity|]. split; [done|]. split; [done|]. split; [exact Eb|]. split; [|right; by eauto]. intros k. rewrite <- Hd. apply Hins.
      + assert (Et : exists x, convert_to_str c1 ct [] = (x, c1) /\ (ct, x) ∈ type_texts).
        { destruct ct; try done; (eexists; split; [reflexivity|by_compute]). }
        destruct Et as (x & Et & Hin). rewrite Et. exists (Resp sOK (rs_version r1) (<[B "Content-Type" := x]> (rs_header r1)) (match b with [] => rs_body r1 | _ => b end)), c1, (Some x).
        split; [done|]. split; [destruct ct; try done; by eauto|]. cbn [rs_version rs_status rs_body rs_header]. split; [done|]. split; [done|]. split; [exact Eb|]. split; [|by left]. intros k. apply Hins.
    - do 3 eexists. split; [reflexivity|]. split; [reflexivity|]. do 3 (split; [done|]). split; [|by left]. intros k. apply Hins.
    - do 3 eexists. split; [reflexivity|]. split; [reflexivity|]. do 3 (split; [done|]). split; [|by left]. intros k. apply Hins.
    - do 3 eexists. split; [reflexivity|]. split; [reflexivity|]. do 3 (split; [done|]). split; [|by left]. intros k. apply Hins.
    - do 3 eexists. split; [reflexivity|]. split; [reflexivity|]. do 3 (split; [done|]). split; [|by left]. intros k. apply Hins. }
  destruct Hcases as (r2 & c2 & t2 & -> & Ht & Hv2 & Hs2 & Hb2 & Hh2 & Hc2).
  exists r2, c2, (ty ++ [t2]). split; [done|]. split; [by apply Forall2_app; [|repeat constructor]|].
  split; [congruence|]. split; [rewrite Hs2, Hs; by destruct (says_status o)|]. split; [rewrite Hb2, Hb; by destruct (says_body o)|]. split.
  - intros k. rewrite Hh2, Hh, last_said_snoc. case_decide; [by destruct t2|]. case_decide; [by destruct (says_location o)|]. done.
  - destruct Hc2 as [->|((b & ->) & Hn & ->)]; [by apply Hcu|]. right. split; [exists b; apply elem_of_app; right; by left|].
    destruct Hc as [->|(_ & Hn' & ->)]; [done|]. by rewrite lookup_insert in Hn.
Qed.

(** A redirection and then an answer in JSON: the status, type and body of the second, and
    still the Location of the first. *)
Example last_said_ex :
  let '(r, _) := reply_run (resp_new, ∅) [ORedirect (B "/login") false; OJson sUNAUTHORIZED (B "{}"); OOk] in
  rs_status r = sOK /\ rs_body r = B "{}" /\ rs_header r !! B "Location" = Some (B "/login") /\
  rs_header r !! B "Content-Type" = Some (B "application/json").
Proof. by vm_compute. Qed.

(** What the client reads of it, when the places to go can be sent as a header line and no
    custom type is asked for. *)
Theorem reply_arrives : forall hit (ops : list reply_op) custom r custom' r1 msg,
  valid_order hit -> reply_run (resp_new, custom) ops = (r, custom') ->
  resp_build hit r [] = (kSuccess, r1, msg) -> fits msg ->
  (forall l f, ORedirect l f ∈ ops -> one_line l /\ head l <> Some SP /\ l <> []) ->
  (forall b, OSuccess kCustom b ∉ ops) ->
  exists p types, resp_parse resp_new msg = Ok (kSuccess, p) /\ Forall2 (says_type (default [] (custom !! []))) ops types /\
    Some (rs_status p) = last_said (map says_status ops) /\
    rs_body p = default [] (last_said (map says_body ops)) /\
    rs_header p !! B "Content-Type" = last_said types /\
    rs_header p !! B "Location" = last_said (map says_location ops).
Proof.
  intros hit ops custom r custom' r1 msg Hit Hrun Hb Hf Hloc Hcus.
  destruct (last_said_counts ops resp_new custom) as (r' & c' & ty & E & Hty & Hv & Hs & Hbo & Hh & _).
  rewrite Hrun in E. injection E as <- <-.
  assert (Hlast : forall A (l : list (option A)) x, last_said l = Some x -> Some x ∈ l).
  { intros A l x H. unfold last_said in H. apply last_Some_elem_of in H. apply elem_of_list_omap in H as (y & Hy & E). cbn in E. by subst y. }
  assert (Hty2 : forall x, Some x ∈ ty -> one_line x /\ head x <> Some SP /\ x <> []).
  { assert (Hall : Forall (fun cx => one_line cx.2 /\ head cx.2 <> Some SP /\ cx.2 <> []) type_texts).
    { unfold type_texts. repeat (apply Forall_cons; split; [split; [cbn [snd]; apply no_cr_one_line; by_compute|split; by_compute]|]). apply Forall_nil_2. }
    rewrite Forall_forall in Hall.
    intros x Hx. apply elem_of_list_lookup in Hx as (i & Hi). destruct (Forall2_lookup_r _ _ _ _ _ Hty Hi) as (o & Ho & Hsay).
    assert (Hin : o ∈ ops) by (by eapply elem_of_list_lookup_2).
    assert (Hx : exists ct, (ct, x) ∈ type_texts).
    { destruct o as [|l f|b|b| |ct b|b|b|st b|st b]; cbn [says_type] in Hsay.
      6: { destruct (decide (ct = kCustom)) as [->|Hne]; [by apply Hcus in Hin|]. destruct ct; try done; destruct Hsay as (y & [= ->] & Hy); by eexists. }
      5: done.
      all: injection Hsay as ->; first [exists kTextHtml; by_compute | exists kApplicationOctetStream; by_compute | exists kApplicationJson; by_compute | exists kTextPlain; by_compute]. }
    destruct Hx as (ct & Hx). by apply (Hall _ Hx). }
  assert (Hsend : resp_sendable (rs_header r)).
  { intros k v Hk _. rewrite Hh in Hk. cbn [rs_header resp_new] in Hk. rewrite lookup_empty in Hk. case_decide as D1.
    - subst k. destruct (last_said ty) as [t|] eqn:Et; [|done]. injection Hk as ->. apply Hlast in Et. destruct (Hty2 v Et) as (H1 & H2 & H3).
      split; [|done]. split; [by_compute|]. split; [apply no_cr_one_line; by_compute|]. by split.
    - case_decide as D2; [|done]. subst k. destruct (last_said (map says_location ops)) as [t|] eqn:Et; [|done]. injection Hk as ->. apply Hlast in Et.
      apply elem_of_list_fmap in Et as (o & Eo & Hin). destruct o; try done. injection Eo as <-. destruct (Hloc _ _ Hin) as (H1 & H2 & H3).
      split; [|done]. split; [by_compute|]. split; [apply no_cr_one_line; by_compute|]. by split. }
  destruct (resp_round_trip _ _ _ _ _ Hit Hb Hf Hsend) as [Hp _].
  assert (Hne : rs_status r <> sUNKNOWN).
  { intros E. unfold resp_build in Hb. by rewrite E in Hb. }
  eexists _, ty. split; [exact Hp|]. cbn [rs_status rs_body rs_header]. split; [exact Hty|]. split.
  { rewrite Hs in Hne |- *. cbn [rs_status resp_new] in *. by destruct (last_said (map says_status ops)). }
  split; [exact Hbo|].
  assert (Hk : forall k, k <> B "Content-Length" -> resp_built_header r !! k = rs_header r !! k).
  { intros k Hk. unfold resp_built_header. by rewrite lookup_insert_ne. }
  rewrite !Hk by by_compute. rewrite !Hh. cbn [rs_header resp_new]. rewrite !lookup_empty. split.
  - rewrite decide_True by done. by destruct (last_said ty).
  - rewrite decide_False by by_compute. rewrite decide_True by done. by destruct (last_said (map says_location ops)).
Qed.
Example reply_arrives_ex : exists r1 msg p,
  resp_build map_to_list (reply_run (resp_new, ∅) [ONotFound; OText sOK (B "hi")]).1 [] = (kSuccess, r1, msg) /\
  msg = B "HTTP/1.1 200 OK" ++ CRLF ++ B "Content-Length: 2" ++ CRLF ++ B "Content-Type: text/plain" ++ CRLF ++ CRLF ++ B "hi" /\
  resp_parse resp_new msg = Ok (kSuccess, p) /\ rs_status p = sOK /\ rs_body p = B "hi".
Proof. do 3 eexists. split; [by vm_compute|]. split; [by vm_compute|]. split; [by vm_compute|]. by vm_compute. Qed.

(** "Success(type, body) sends body": not when the body is empty and the object has one. *)
Definition success_body_full : Prop := forall custom r ct b, rs_body (resp_success custom r ct b).1 = b.
Theorem success_body_partial : forall custom r ct b, rs_body (resp_success custom r ct b).1 = b <-> (b <> [] \/ rs_body r = []).
Proof.
  intros custom r ct b. unfold resp_success. destruct (header_set_content_type _ _ _) as [h c]. cbn [fst rs_body].
  destruct b as [|x b]; [split; [by right|by intros [H|H]]|]. split; [by left|done].
Qed.
(** The page "404 Not Found" sent with the status 200. *)
Theorem success_body_refuted : ~ success_body_full.
Proof. intros H. specialize (H ∅ (resp_not_found resp_new) kTextPlain []). by vm_compute in H. Qed.
Example success_body_ex : let r := (reply_run (resp_new, ∅) [ONotFound; OSuccess kTextHtml []]).1 in
  rs_status r = sOK /\ rs_body r = B "<html><body><h1>404 Not Found</h1></body></html>".
Proof. by vm_compute. Qed.

(** "Making an answer does not change the types of files": not Success(kCustom, ...), which
    registers the empty type for names without suffix. *)
Definition reply_table_full : Prop := forall r custom ops ft,
  convert_file_type (reply_run (r, custom) ops).2 ft = convert_file_type custom ft.
Theorem reply_table_partial : forall r custom ops ft, ft <> [] \/ is_Some (custom !! []) \/ (forall b, OSuccess kCustom b ∉ ops) ->
  convert_file_type (reply_run (r, custom) ops).2 ft = convert_file_type custom ft.
Proof.
  intros r custom ops ft H. destruct (last_said_counts ops r custom) as (r' & c' & ty & E & _ & _ & _ & _ & _ & Hc). rewrite E. cbn [snd].
  destruct Hc as [->|((b & Hb) & Hn & ->)]; [done|].
  destruct H as [H|[H|H]]; [|by rewrite Hn in H; apply is_Some_None in H|by apply H in Hb]. unfold convert_file_type. by rewrite lookup_insert_ne.
Qed.
Theorem reply_table_refuted : ~ reply_table_full.
Proof. intros H. specialize (H resp_new ∅ [OSuccess kCustom (B "x")] []). by vm_compute in H. Qed.
Example reply_table_ex : convert_file_type (reply_run (resp_new, ∅) [OSuccess kCustom (B "x"); OJsonOk (B "{}")]).2 (B "css") = kTextCss.
Proof. rewrite reply_table_partial by (left; by_compute). by vm_compute. Qed.

(** * C229 *)

(** After Clear an object cannot be told from a new one. *)
Definition clear_is_new_full : Prop := (forall r, req_clear r = req_new) /\ (forall r, resp_clear r = resp_new).
(** A cleared request has no version (a new one HTTP/1.1), a cleared answer keeps the version
    it had. *)
Theorem clear_is_new_refuted : ~ clear_is_new_full.
Proof. intros [H _]. specialize (H req_new). by vm_compute in H. Qed.
(** It shows: with the method set, a new request can be built and a cleared one cannot. *)
Theorem cleared_request_not_built : forall hit rit r m out, 
  req_build hit rit (Req m (rq_version (req_clear r)) (rq_header (req_clear r)) (rq_route (req_clear r)) (rq_body (req_clear r))) out = 
    (kLogicErr, Req m vUNKNOWN ∅ route_new [], out) /\
  (m <> mUNKNOWN -> exists r1 msg, req_build hit rit (Req m (rq_version req_new) (rq_header req_new) (rq_route req_new) (rq_body req_new)) out = (kSuccess, r1, msg)).
Proof.
  intros hit rit r m out. unfold req_build. cbn [rq_method rq_version req_clear rq_header rq_route rq_body req_new]. split.
  - by repeat case_decide.
  - intros Hm. rewrite decide_False by done. rewrite decide_False by done. by do 2 eexists.
Qed.
(** Parse, GET and POST do not see the difference, and every text is parsed as by a new
    object: the same code and, where it succeeds, the same contents. *)
Theorem clear_is_new_partial : forall (r : req) (p : resp) s rc,
  (forall q, req_parse req_new s = Ok (rc, q) -> exists q', req_parse (req_clear r) s = Ok (rc, q') /\
     Req (rq_method q') (rq_version q) (rq_header q') (rq_route q') (rq_body q') = q /\ (rc = kSuccess -> q' = q)) /\
  (forall q, resp_parse resp_new s = Ok (rc, q) -> exists q', resp_parse (resp_clear p) s = Ok (rc, q') /\
     Resp (rs_status q') (rs_version q) (rs_header q') (rs_body q') = q /\ (rc = kSuccess -> q' = q)) /\
  (forall it url params extra, req_GET it (req_clear r) url params extra = req_GET it req_new url params extra) /\
  (forall it url body extra, req_POST it (req_clear r) url body extra = req_POST it req_new url body extra) /\
  (forall it url params extra, req_POST_form it (req_clear r) url params extra = req_POST_form it req_new url params extra).
Proof.
  intros r p s rc. split_and!; [| |done|done|done].
  - intros q. unfold req_parse. cbv zeta. cbn [rq_method rq_version req_clear rq_header rq_route rq_body req_new].
    assert (Hfail : forall (rc' : Z) m h rt b, rc' <> kSuccess -> Ok (rc', Req m v1_1 h rt b) = Ok (rc, q) ->
      exists q', Ok (rc', Req m vUNKNOWN h rt b) = Ok (rc, q') /\ Req (rq_method q') (rq_version q) (rq_header q') (rq_route q') (rq_body q') = q /\ (rc = kSuccess -> q' = q)).
    { intros rc' m h rt b Hne [= <- <-]. eexists. split; [done|]. by split. }
    assert (Hsame : forall (o : outcome (Z * req)), o = Ok (rc, q) -> exists q', o = Ok (rc, q') /\
      Req (rq_method q') (rq_version q) (rq_header q') (rq_route q') (rq_body q') = q /\ (rc = kSuccess -> q' = q)).
    { intros o ->. exists q. split; [done|]. by destruct q. }
    destruct s as [|c0 s0]; [by apply Hfail|]. set (s := c0 :: s0).
    destruct (_ =? npos)%N; [by apply Hfail|]. destruct (_ =? npos)%N; [by apply Hfail|].
    destruct (substr s (szadd _ _) _) as [block| | | | |]; try done. cbn [mbind outcome_bind].
    destruct (header_parse ∅ block) as [[hrc h]| | | | |]; try done. cbn [mbind outcome_bind].
    destruct (hrc =? 0)%Z; [by apply Hfail|].
    destruct (substr_from s _) as [body| | | | |]; try done. cbn [mbind outcome_bind].
    destruct (substr s 0 _) as [fl| | | | |]; try done. cbn [mbind outcome_bind].
    destruct (str_split fl _ _ _) as [single| | | | |]; try done. cbn [mbind outcome_bind].
    destruct single as [|m [|tg [|v [|x l]]]]; try (by apply Hfail).
    case_decide; [by apply Hfail|]. destruct (route_parse _ _) as [[rrc rt]| | | | |]; try done. cbn [mbind outcome_bind].
    destruct (negb _); [by apply Hfail|]. apply Hsame.
  - intros q. unfold resp_parse. cbv zeta. cbn [rs_status rs_version rs_header rs_body resp_clear resp_new].
    assert (Hfail : forall (rc' : Z) st h b, rc' <> kSuccess -> Ok (rc', Resp st v1_1 h b) = Ok (rc, q) ->
      exists q', Ok (rc', Resp st (rs_version p) h b) = Ok (rc, q') /\ Resp (rs_status q') (rs_version q) (rs_header q') (rs_body q') = q /\ (rc = kSuccess -> q' = q)).
    { intros rc' st h b Hne [= <- <-]. eexists. split; [done|]. by split. }
    assert (Hsame : forall (o : outcome (Z * resp)), o = Ok (rc, q) -> exists q', o = Ok (rc, q') /\
      Resp (rs_status q') (rs_version q) (rs_header q') (rs_body q') = q /\ (rc = kSuccess -> q' = q)).
    { intros o ->. exists q. split; [done|]. by destruct q. }
    destruct s as [|c0 s0]; [by apply Hfail|]. set (s := c0 :: s0).
    destruct (_ =? npos)%N; [by apply Hfail|].
    destruct (substr s 0 _) as [fl| | | | |]; try done. cbn [mbind outcome_bind].
    destruct (substr s (szadd _ _) _) as [hd| | | | |]; try done. cbn [mbind outcome_bind].
    destruct (substr_from s _) as [body| | | | |]; try done. cbn [mbind outcome_bind].
    destruct (_ =? npos)%N; [by apply Hfail|]. destruct (_ =? npos)%N; [by apply Hfail|].
    destruct (substr fl 0 _) as [ver| | | | |]; try done. cbn [mbind outcome_bind].
    destruct (substr fl (szadd _ _) _) as [code| | | | |]; try done. cbn [mbind outcome_bind].
    destruct (substr_from fl _) as [reason| | | | |]; try done. cbn [mbind outcome_bind].
    destruct (stoi code); try (by apply Hfail). apply Hsame.
Qed.
Example cleared_ex : let r := Req mPOST v1_0 {[ B "Cookie" := B "sid=1" ]} (Route (B "/old") {[ B "a" := B "1" ]}) (B "body") in
  req_GET map_to_list (req_clear r) (B "/x") ∅ ∅ = req_GET map_to_list req_new (B "/x") ∅ ∅ /\
  (exists q, req_parse (req_clear r) (B "GET / HTTP/1.1" ++ CRLF ++ CRLF) = Ok (kSuccess, q) /\ rq_header q = ∅) /\
  (req_build map_to_list map_to_list (Req mGET (rq_version (req_clear r)) ∅ route_new []) []).1.1 = kLogicErr /\
  rs_version (resp_clear (Resp sOK v1_0 ∅ [])) = v1_0.
Proof. split; [done|]. split; [eexists; split; [by vm_compute|done]|]. by vm_compute. Qed.
Print Assumptions last_said_counts.
Print Assumptions reply_arrives.
Print Assumptions success_body_partial.
Print Assumptions success_body_refuted.
Print Assumptions reply_table_partial.
Print Assumptions reply_table_refuted.
Print Assumptions clear_is_new_refuted.
Print Assumptions cleared_request_not_built.
Print Assumptions clear_is_new_partial.
