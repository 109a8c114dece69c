(** C242: request targets that are no paths: HttpServer::HandleRead
    (src/cppnet/http/server/http_server.cpp:279-411) and HttpRoute::Parse. *)
From Verif.Proof Require Import ServerProof.
From Verif.Props Require Import MessageProps RouterProps ServerProps HttpRulesProps.

(** ** The rule *)

(** RFC 9112, 3.2.2: a server accepts the absolute form, "GET http://host/path"; it asks for
    the same as "GET /path" with that host. *)
Definition host_text (h : bytes) : Prop := h <> [] /\ "/"%char ∉ h /\ "?"%char ∉ h.
Definition made_absolute (h : bytes) (r r' : req) : Prop :=
  rq_method r' = rq_method r /\ rq_version r' = rq_version r /\ rq_header r' = rq_header r /\ rq_body r' = rq_body r /\
  rt_params (rq_route r') = rt_params (rq_route r) /\ head (rt_path (rq_route r)) = Some "/"%char /\
  rt_path (rq_route r') = B "http://" ++ h ++ rt_path (rq_route r).
Definition absolute_full : Prop := forall U hit k (ro : router U) e w text r text' r' h l t v v',
  valid_order hit -> short text -> short text' -> request_text exact_name text r -> request_text exact_name text' r' ->
  NUL ∉ rq_body r -> host_text h -> made_absolute h r r' ->
  handle_read hit (WTake k) ro e w (Stream (map Byte text ++ l) t) = Ok v ->
  handle_read hit (WTake k) ro e w (Stream (map Byte text' ++ l) t) = Ok v' -> sv_wrote v' = sv_wrote v.

(** All that is registered is for paths. *)
Definition for_paths {U} (regs : list (registration U)) : Prop := Forall (fun x => head (x.1.1 ++ x.1.2) = Some "/"%char) regs.

(** ** Proofs *)
Lemma table_support {U} (regs : list (registration U)) T k : table_after regs T -> T k <> [] -> exists x, x ∈ regs /\ x.1.1 ++ x.1.2 = k.
Proof.
  intros H. revert k. induction H as [|regs T g path e c H IH [Hc _]|regs T g path e H IH Hno]; intros k Hk; [done|..].
  - assert (T k <> []) as Hk'. { destruct (decide (k = c)) as [->|]; done. }
    destruct (IH k Hk') as (x & Hx & E). exists x. split; [|done]. apply elem_of_app. by left.
  - destruct (decide (k = g ++ path)) as [->|Hne].
    + exists (g, path, e). split; [|done]. apply elem_of_app. right. by left.
    + destruct (IH k Hk) as (x & Hx & E). exists x. split; [|done]. apply elem_of_app. by left.
Qed.

Lemma nothing_concerns {U} (regs : list (registration U)) T p :
  table_after regs T -> for_paths regs -> head p <> Some "/"%char -> concerning T p = [].
Proof.
  intros HT HF Hp. unfold concerning.
  assert (forall i, T (take i p) = []) as HE.
  { intros i. destruct (T (take i p)) as [|x l] eqn:E; [done|]. exfalso.
    destruct (table_support regs T (take i p) HT) as (y & Hy & Ey); [by rewrite E|].
    unfold for_paths in HF. rewrite Forall_forall in HF. specialize (HF y Hy). rewrite Ey in HF.
    destruct i as [|i]; [done|]. by destruct p. }
  generalize (seq 0 (S (length p))). intros l. induction l as [|i l IH]; [done|]. cbn [flat_map]. by rewrite HE, IH.
Qed.

(** Missing: the absolute form. Whatever is registered for paths, in whatever order, a target
    that does not start with a slash is answered with 404, and no handler sees it. *)
Theorem absolute_partial : forall U hit k e (w : world U) regs text r l t,
  valid_order hit -> ascii_registrations regs -> for_paths regs ->
  short text -> request_text exact_name text r -> NUL ∉ rq_body r ->
  ascii_only (rt_path (rq_route r)) -> head (rt_path (rq_route r)) <> Some "/"%char ->
  exists ro out, register_all regs router_new = Ok ro /\
    handle_read hit (WTake k) ro e w (Stream (map Byte text ++ l) t) = Ok (Served w (Stream l t) [out] (take k out) false) /\
    response_text out sNOT_FOUND not_found_page.
Proof.
  intros U hit k e w regs text r l t Hit Ha HF Hs Hr Hn Hp Hh.
  destruct (handlers_run_table U regs Ha) as (ro & T & Hro & HT & Hrun).
  specialize (Hrun (rt_path (rq_route r)) (ctx_new r resp_new) w Hp). rewrite (nothing_concerns regs T _ HT HF Hh) in Hrun.
  pose proof (chain_det _ _ _ _ Hrun (chain_done _)) as Hd.
  exists ro. rewrite (handle_read_request hit _ _ e w text r l t Hs Hr Hn), (answer_ok _ _ _ _ _ _ _ _ _ Hd).
  destruct (respond_ok hit (WTake k) resp_new e w (Stream l t) Hit) as (out & sent & cl & E & _ & Hb & _ & Hcl & Ht);
    [intros ? ? Hx; cbn in Hx; by rewrite lookup_empty in Hx|done|done|done|].
  rewrite (Ht k eq_refl) in E. destruct cl; [discriminate (proj1 Hcl eq_refl)|].
  exists out. split; [done|]. split; [done|]. by apply Hb.
Qed.

(** Requests without header lines. *)
Definition bare_text (tg : bytes) : bytes := (B "GET " ++ tg ++ B " HTTP/1.1") ++ CRLF ++ CRLF.
Definition bare_req (tg : bytes) : req := Req mGET v1_1 ∅ (Route tg ∅) [].
Lemma bare_ok tg : tg <> [] -> SP ∉ tg -> CR ∉ tg -> "?"%char ∉ tg -> request_text exact_name (bare_text tg) (bare_req tg).
Proof.
  intros H0 H1 H2 H3. exists (B "GET " ++ tg ++ B " HTTP/1.1"), [], [], tg, [].
  split; [|split; [|split; [done|split; [done|split; [done|split; [by constructor|split; [intros k; cbn; by rewrite lookup_empty|]]]]]]].
  - split; [done|]. split; [|constructor]. apply no_cr_one_line. rewrite !not_elem_of_app. split; [by_compute|]. split; [done|by_compute].
  - split; [done|]. split; [by_compute|]. split; [done|]. by_compute.
  - split; [constructor|]. split; [constructor|]. split; [intros k; cbn; by rewrite lookup_empty|].
    right. split; [done|]. intros k x Hin. by apply elem_of_nil in Hin.
Qed.

Definition a_regs : list (registration (list req)) := [([], B "/a", Entry (Some silent) true [])].
Definition a_ro : router (list req) := match register_all a_regs router_new with Ok ro => ro | _ => router_new end.
Definition start_of (o : outcome (@served (list req))) : option bytes :=
  match o with Ok v => match sv_wrote v with out :: _ => Some (take 12 out) | [] => None end | _ => None end.
Definition run_a (tg : bytes) : outcome (@served (list req)) :=
  handle_read map_to_list (WTake 500) a_ro [] wr0 (Stream (map Byte (bare_text tg) ++ []) Wait).
Lemma run_a_starts : start_of (run_a (B "/a")) = Some (B "HTTP/1.1 204") /\ start_of (run_a (B "http://h/a")) = Some (B "HTTP/1.1 404").
Proof. split; vm_compute; reflexivity. Qed.

Theorem absolute_refuted : ~ absolute_full.
Proof.
  intros H. destruct run_a_starts as [S1 S2].
  destruct (run_a (B "/a")) as [v| | | | |] eqn:E1; try discriminate S1.
  destruct (run_a (B "http://h/a")) as [v'| | | | |] eqn:E2; try discriminate S2.
  assert (Ew : sv_wrote v' = sv_wrote v).
  { apply (H _ map_to_list 500 a_ro [] wr0 (bare_text (B "/a")) (bare_req (B "/a")) (bare_text (B "http://h/a")) (bare_req (B "http://h/a")) (B "h") [] Wait v v' valid_order_sorted).
    - by vm_compute.
    - by vm_compute.
    - apply bare_ok; by_compute || discriminate.
    - apply bare_ok; by_compute || discriminate.
    - apply not_elem_of_nil.
    - split; [discriminate|]. split; by_compute.
    - repeat split.
    - exact E1.
    - exact E2. }
  unfold start_of in S1, S2. rewrite Ew in S2. rewrite S1 in S2. discriminate S2.
Qed.

Example absolute_ex : ascii_registrations a_regs /\ for_paths a_regs /\ head (rt_path (rq_route (bare_req (B "http://h/a")))) <> Some "/"%char /\
  request_text exact_name (bare_text (B "http://h/a")) (bare_req (B "http://h/a")).
Proof.
  split; [unfold ascii_registrations; by_compute|]. split; [by repeat constructor|]. split; [done|]. apply bare_ok; by_compute || discriminate.
Qed.

Print Assumptions absolute_partial.
Print Assumptions absolute_refuted.
