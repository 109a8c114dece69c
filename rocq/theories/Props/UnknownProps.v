(** C243: methods and versions that the server does not know: HttpServer::HandleRead
    (src/cppnet/http/server/http_server.cpp:279-411). *)
From Verif.Proof Require Import ServerProof LogProof.
From Verif.Props Require Import MessageProps RouterProps ServerProps HttpRulesProps FramingProps FieldRulesProps.

(** ** The rules *)
Definition token (m : bytes) : Prop := m <> [] /\ Forall (fun c => c ∈ tchars) m.
(** RFC 9112, 2.3 *)
Definition version_text (v : bytes) (major minor : ascii) : Prop :=
  v = B "HTTP/" ++ [major] ++ B "." ++ [minor] /\ digit major /\ digit minor.
(** A request without a body. *)
Definition asks (head : bytes) (hdrs : list bytes) (m tg v : bytes) : Prop :=
  exists first, message head first hdrs [] /\ request_line first m ("/"%char :: tg) v /\ token m.
(** The three digits after the version, "HTTP/1.1 ". *)
Definition code_of {U} (r : @served U) : option bytes := match sv_wrote r with [out] => Some (take 3 (drop 9 out)) | _ => None end.
Definition answered {U} (r : @served U) (code : bytes) : Prop := code_of r = Some code.

(** RFC 9110, 9.1: 501 for a method that the server does not know. *)
Definition methods_full : Prop := forall U hit k (ro : router U) e w head hdrs m tg l t r,
  valid_order hit -> asks head hdrs m tg (B "HTTP/1.1") -> short head -> short e -> m ∉ known_methods ->
  handle_read hit (WTake k) ro e w (Stream (map Byte head ++ l) t) = Ok r -> answered r (B "501").
(** RFC 9110, 2.5, 6.2 and 15.6.6: a request with another major version gets 505, one with a
    higher minor version is handled. *)
Definition versions_full : Prop := forall hit k ro e head hdrs m tg v major minor l t r,
  valid_order hit -> register [] [] recorder router_new = Ok (kSuccess, ro) ->
  asks head hdrs m tg v -> version_text v major minor -> no_length hdrs -> short head -> short e -> m ∈ known_methods -> ascii_only tg ->
  handle_read hit (WTake k) ro e wr0 (Stream (map Byte head ++ l) t) = Ok r ->
  (major <> "1"%char -> answered r (B "505")) /\ (major = "1"%char -> w_user (sv_world r) <> []).

(** ** Proofs *)
Lemma asks_lf head hdrs m tg v : asks head hdrs m tg v -> LF ∉ take 3 head.
Proof.
  intros (first & (Eh & _) & (Ef & _) & Hne & HF) Hin.
  assert (forall c, c ∈ m -> c <> LF) as Hm.
  { intros c Hc ->. rewrite Forall_forall in HF. specialize (HF LF Hc). revert HF. apply (bool_decide_unpack (LF ∉ tchars)). by vm_compute. }
  rewrite Eh, Ef in Hin. destruct m as [|a [|b [|c m]]]; [done|..]; cbn [app take] in Hin.
  - repeat (apply elem_of_cons in Hin as [Hin|Hin]); try done; [|by apply elem_of_nil in Hin]. apply (Hm a); [by left|done].
  - repeat (apply elem_of_cons in Hin as [Hin|Hin]); try done; [..|by apply elem_of_nil in Hin].
    + apply (Hm a); [by left|done].
    + apply (Hm b); [right; by left|done].
  - repeat (apply elem_of_cons in Hin as [Hin|Hin]); [..|by apply elem_of_nil in Hin].
    + apply (Hm a); [by left|done].
    + apply (Hm b); [right; by left|done].
    + apply (Hm c); [right; right; by left|done].
Qed.

Lemma line_words first m tg v m' tg' v' : request_line first m tg v -> request_line first m' tg' v' -> m = m' /\ tg = tg' /\ v = v'.
Proof.
  intros (E & H1 & H2 & H3) (E' & H1' & H2' & H3'). rewrite E in E'.
  apply cut_at_char_inj in E' as [-> E']; [|done..]. by apply cut_at_char_inj in E' as [-> ->].
Qed.

(** What is not in the server's lists gets 400 and a closed connection, and no handler sees it. *)
Theorem unknown_refused : forall U hit wr (ro : router U) e w head hdrs m tg v l t,
  valid_order hit -> asks head hdrs m tg v -> short head -> short e -> wr <> WSig ->
  m ∉ known_methods \/ v ∉ known_versions ->
  exists out sent, handle_read hit wr ro e w (Stream (map Byte head ++ l) t) = Ok (Served w (Stream l t) [out] sent true) /\
    response_text out sBAD_REQUEST e.
Proof.
  intros U hit wr ro e w head hdrs m tg v l t Hit Ha Hs He Hw Hno. pose proof (asks_lf _ _ _ _ _ Ha) as Hlf.
  destruct Ha as (first & Hm & Hl & _). destruct (message_head _ _ _ _ Hm) as (Et & _ & Hsh). rewrite app_nil_r in Et. rewrite <- Et in Hsh.
  destruct (malformed_400_partial U hit wr ro e w head l t Hit Hs He Hsh) as (out & sent & E & Ho & _); [|done|done|by exists out, sent].
  intros first' hdrs' body' Hm' (m' & tg' & v' & Hl' & Hk & Hv & _).
  pose proof (message_first_unique _ _ _ _ _ _ _ Hm Hm') as <-. destruct (line_words _ _ _ _ _ _ _ Hl Hl') as (-> & _ & ->).
  by destruct Hno.
Qed.

(** What is in the lists is handled, HTTP/2.0 too. *)
Theorem known_served : forall hit k ro e head hdrs m tg v l t,
  valid_order hit -> register [] [] recorder router_new = Ok (kSuccess, ro) ->
  asks head hdrs m tg v -> no_length hdrs -> short head -> "?"%char ∉ tg -> ascii_only tg ->
  m ∈ known_methods -> v ∈ known_versions ->
  exists r q, handle_read hit (WTake k) ro e wr0 (Stream (map Byte head ++ l) t) = Ok r /\ w_user (sv_world r) = [q] /\ rt_path (rq_route q) = "/"%char :: tg.
Proof.
  intros hit k ro e head hdrs m tg v l t Hit Hro (first & Hm & Hl & _) Hno Hs Hq Hasc Hk Hv.
  destruct (field_rules_partial hit ro e head hdrs ("/"%char :: tg) (WTake k) l t Hit Hro) as (q & out & sent & cl & Hp & E & Hu); [|done|done|discriminate|].
  - exists first, m, ("/"%char :: tg), v, []. split; [done|]. split; [done|]. split; [done|]. split; [done|]. split; [done|].
    split; [constructor; rewrite not_elem_of_cons; split; [discriminate|done]|]. constructor; [by_compute|done].
  - eexists _, q. split; [exact E|]. split; [exact Hu|done].
Qed.

(** The other claims as far as they hold: exactly the listed ones are handled. *)
Theorem unknown_partial : forall hit k ro e head hdrs m tg v l t r,
  valid_order hit -> register [] [] recorder router_new = Ok (kSuccess, ro) ->
  asks head hdrs m tg v -> no_length hdrs -> short head -> short e -> "?"%char ∉ tg -> ascii_only tg ->
  handle_read hit (WTake k) ro e wr0 (Stream (map Byte head ++ l) t) = Ok r ->
  (w_user (sv_world r) <> [] <-> m ∈ known_methods /\ v ∈ known_versions).
Proof.
  intros hit k ro e head hdrs m tg v l t r Hit Hro Ha Hno Hs He Hq Hasc E.
  destruct (decide (m ∈ known_methods)) as [Hk|Hk]; [destruct (decide (v ∈ known_versions)) as [Hv|Hv]|].
  - destruct (known_served hit k ro e head hdrs m tg v l t Hit Hro Ha Hno Hs Hq Hasc Hk Hv) as (r' & q & E' & Hu & _).
    rewrite E in E'. injection E' as <-. rewrite Hu. split; [by intros _|]. by intros _ [=].
  - destruct (unknown_refused _ hit (WTake k) ro e wr0 head hdrs m tg v l t Hit Ha Hs He) as (out & sent & E' & _); [discriminate|by right|].
    rewrite E in E'. injection E' as ->. split; [by intros []|]. by intros [_ ?].
  - destruct (unknown_refused _ hit (WTake k) ro e wr0 head hdrs m tg v l t Hit Ha Hs He) as (out & sent & E' & _); [discriminate|by left|].
    rewrite E in E'. injection E' as ->. split; [by intros []|]. by intros [? _].
Qed.

(** Requests without header lines. *)
Definition ask_text (m v : bytes) : bytes := (m ++ SP :: B "/a" ++ SP :: v) ++ CRLF ++ CRLF.
Lemma ask_ok m v : token m -> SP ∉ m -> CR ∉ m -> SP ∉ v -> CR ∉ v -> asks (ask_text m v) [] m (B "a") v.
Proof.
  intros Ht H1 H2 H3 H4. exists (m ++ SP :: B "/a" ++ SP :: v). split; [|split; [|done]].
  - split; [done|]. split; [|constructor]. apply no_cr_one_line. rewrite not_elem_of_app. split; [done|].
    rewrite not_elem_of_cons. split; [discriminate|]. rewrite not_elem_of_app. split; [by_compute|]. rewrite not_elem_of_cons. by split.
  - split; [done|]. split; [done|]. split; [by_compute|done].
Qed.
Definition rec_ro : router (list req) := match register [] [] recorder router_new with Ok (_, ro) => ro | _ => router_new end.
Definition run_ask (m v : bytes) : outcome (@served (list req)) :=
  handle_read map_to_list (WTake 500) rec_ro (B "no") wr0 (Stream (map Byte (ask_text m v) ++ []) Wait).

Definition code_in (o : outcome (@served (list req))) : option bytes := match o with Ok r => code_of r | _ => None end.
Definition seen_in (o : outcome (@served (list req))) : nat := match o with Ok r => length (w_user (sv_world r)) | _ => 99 end.
Lemma runs : code_in (run_ask (B "BREW") (B "HTTP/1.1")) = Some (B "400") /\ code_in (run_ask (B "GET") (B "HTTP/2.0")) = Some (B "404") /\
  seen_in (run_ask (B "GET") (B "HTTP/2.0")) = 1 /\ code_in (run_ask (B "GET") (B "HTTP/1.2")) = Some (B "400") /\ seen_in (run_ask (B "GET") (B "HTTP/1.2")) = 0.
Proof. repeat split; vm_compute; reflexivity. Qed.
Lemma brew_token : token (B "BREW") /\ token (B "GET").
Proof. split; (split; [discriminate|by_compute]). Qed.

Theorem methods_refuted : ~ methods_full.
Proof.
  intros H. destruct runs as [R _]. destruct (run_ask (B "BREW") (B "HTTP/1.1")) as [r| | | | |] eqn:E; try discriminate R.
  assert (Ha : answered r (B "501")).
  { refine (H _ map_to_list 500 rec_ro (B "no") wr0 (ask_text (B "BREW") (B "HTTP/1.1")) [] (B "BREW") (B "a") [] Wait r valid_order_sorted _ _ _ _ E).
    - apply ask_ok; [apply brew_token|by_compute..].
    - by vm_compute.
    - by vm_compute.
    - by_compute. }
  unfold answered in Ha. cbn [code_in] in R. rewrite R in Ha. discriminate Ha.
Qed.
(** HTTP/2.0 is handled, HTTP/1.2 is not. *)
Theorem versions_refuted : ~ versions_full.
Proof.
  intros H. destruct runs as (_ & _ & _ & R & Q). destruct (run_ask (B "GET") (B "HTTP/1.2")) as [r| | | | |] eqn:E; try discriminate R.
  assert (Hro : register [] [] recorder router_new = Ok (kSuccess, rec_ro)) by (vm_compute; reflexivity).
  assert (Ha : "1"%char = "1"%char -> w_user (sv_world r) <> []).
  { refine (proj2 (H map_to_list 500 rec_ro (B "no") (ask_text (B "GET") (B "HTTP/1.2")) [] (B "GET") (B "a") (B "HTTP/1.2") "1"%char "2"%char [] Wait r valid_order_sorted Hro _ _ _ _ _ _ _ E)).
    - apply ask_ok; [apply brew_token|by_compute..].
    - split; [reflexivity|]. split; unfold digit; by_compute.
    - constructor.
    - by vm_compute.
    - by vm_compute.
    - by_compute.
    - by_compute. }
  cbn [seen_in] in Q. apply (Ha eq_refl). by destruct (w_user (sv_world r)).
Qed.

Example unknown_ex : asks (ask_text (B "GET") (B "HTTP/2.0")) [] (B "GET") (B "a") (B "HTTP/2.0") /\ version_text (B "HTTP/2.0") "2" "0" /\
  code_in (run_ask (B "GET") (B "HTTP/2.0")) = Some (B "404") /\ seen_in (run_ask (B "GET") (B "HTTP/2.0")) = 1.
Proof.
  split; [apply ask_ok; [apply brew_token|by_compute..]|]. split; [split; [reflexivity|]; split; unfold digit; by_compute|].
  destruct runs as (_ & R & Q & _). by split.
Qed.

Print Assumptions unknown_refused.
Print Assumptions known_served.
Print Assumptions unknown_partial.
Print Assumptions methods_refuted.
Print Assumptions versions_refuted.
