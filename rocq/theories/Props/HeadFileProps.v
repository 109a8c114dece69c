(** C238: requests for files with other methods than GET: HttpGroup::StaticDir and
    StaticFile (src/cppnet/http/server/http_server.cpp:91-180) behind HttpServer::HandleRead. *)
From Verif.Proof Require Import ServerProof.
From Verif.Props Require Import MessageProps RouterProps ServerProps HttpRulesProps.

(** ** The rule *)

(** RFC 9110, 9.1 and 9.3.2: a server supports HEAD wherever it supports GET. So a HEAD
    request for a file that is there is answered with 200. *)
Definition head_file_full : Prop := forall hit k e (w : world unit) text r l t m rest dir wr o d ro,
  valid_order hit -> short text -> request_text exact_name text r -> NUL ∉ rq_body r ->
  rq_method r = mHEAD -> rt_path (rq_route r) = m ++ rest -> ascii_only (m ++ rest) -> ~ contains (B "..") rest -> fits (dir ++ B "/" ++ rest) ->
  w_running w = true -> w_fs w (cstr (dir ++ B "/" ++ rest)) = Reg true wr o d ->
  group_StaticDir (fun _ => true) [] m dir [] router_new = Ok (kSuccess, ro) ->
  exists v out tl, handle_read hit (WTake k) ro e w (Stream (map Byte text ++ l) t) = Ok v /\ sv_wrote v = [out] /\ out = B "HTTP/1.1 200 OK" ++ CRLF ++ tl.

(** Missing: HEAD. Every method but GET is answered with 404, whatever the files are; none is looked at,
    nothing else changes. *)
Theorem head_file_partial : forall U hit k e (w : world U) text r l t alive g path target filters,
  valid_order hit -> short text -> request_text exact_name text r -> NUL ∉ rq_body r ->
  ascii_only g -> ascii_only path -> ascii_only (rt_path (rq_route r)) -> rq_method r <> mGET ->
  (exists ro out, group_StaticDir alive g path target filters router_new = Ok (kSuccess, ro) /\
    handle_read hit (WTake k) ro e w (Stream (map Byte text ++ l) t) = Ok (Served w (Stream l t) [out] (take k out) false) /\
    response_text out sNOT_FOUND not_found_page) /\
  (exists ro out, group_StaticFile alive g path target filters router_new = Ok (kSuccess, ro) /\
    handle_read hit (WTake k) ro e w (Stream (map Byte text ++ l) t) = Ok (Served w (Stream l t) [out] (take k out) false) /\
    response_text out sNOT_FOUND not_found_page).
Proof.
  intros U hit k e w text r l t alive g path target filters Hit Hs Hr Hn Hg Hp Hpp Hm.
  destruct (static_routes_only_get U alive g path target filters (rt_path (rq_route r)) (ctx_new r resp_new) w Hg Hp Hpp Hm)
    as [(ro1 & H1 & Hd1) (ro2 & H2 & Hd2)].
  assert (H404 : forall ro, dispatch ro (rt_path (rq_route r)) (ctx_new r resp_new) w = Ok (ctx_new r resp_new, w) ->
    exists out, handle_read hit (WTake k) ro e w (Stream (map Byte text ++ l) t) = Ok (Served w (Stream l t) [out] (take k out) false) /\
      response_text out sNOT_FOUND not_found_page).
  { intros ro Hd. rewrite (handle_read_request hit _ _ e w text r l t Hs Hr Hn), (answer_ok _ _ _ _ _ _ _ _ _ Hd).
    destruct (respond_ok hit (WTake k) resp_new e w (Stream l t) Hit) as (out & sent & cl & E & _ & Hb & _ & Hcl & Ht);
      [intros ? ? Hx; cbn in Hx; by rewrite lookup_empty in Hx|done|done|done|].
    rewrite (Ht k eq_refl) in E. destruct cl; [discriminate (proj1 Hcl eq_refl)|].
    exists out. split; [done|]. by apply Hb. }
  split; [destruct (H404 ro1 Hd1) as (out & E & Ho); by exists ro1, out|destruct (H404 ro2 Hd2) as (out & E & Ho); by exists ro2, out].
Qed.

(** A directory with one file. *)
Definition one_file : world unit := World true (fun p => if bool_decide (p = B "www//a") then Reg true true true (B "hi") else Absent true) [] ∅ tt.
Definition file_text (m : http_method) : bytes := req_text m v1_1 [] [].
Definition file_ro : router unit := match group_StaticDir (fun _ => true) [] [] (B "www") [] router_new with Ok (_, ro) => ro | _ => router_new end.
Definition first_line_of (o : outcome (@served unit)) : bytes :=
  match o with Ok v => match sv_wrote v with out :: _ => take 22 out | [] => [] end | _ => [] end.

Lemma file_request : short (file_text mHEAD) /\ request_text exact_name (file_text mHEAD) (req_of mHEAD v1_1 [] []).
Proof.
  split; [by vm_compute|]. apply req_text_ok; [done|done|constructor|].
  right. split; [done|]. intros k x Hin. by apply elem_of_nil in Hin.
Qed.
Theorem head_file_refuted : ~ head_file_full.
Proof.
  intros H. destruct file_request as [Hs Hr].
  assert (Hro : group_StaticDir (fun _ : unit => true) [] [] (B "www") [] router_new = Ok (kSuccess, file_ro)) by (vm_compute; reflexivity).
  destruct (H map_to_list 500 [] one_file (file_text mHEAD) (req_of mHEAD v1_1 [] []) [] Wait [] (B "/a") (B "www") true true (B "hi") file_ro
    valid_order_sorted Hs Hr) as (v & out & tl & E & Ew & Eo).
  - apply not_elem_of_nil.
  - reflexivity.
  - reflexivity.
  - by_compute.
  - intros (a & b & E). destruct a as [|? [|? [|? a]]]; discriminate E.
  - by vm_compute.
  - reflexivity.
  - by vm_compute.
  - exact Hro.
  - assert (F : first_line_of (handle_read map_to_list (WTake 500) file_ro [] one_file (Stream (map Byte (file_text mHEAD) ++ []) Wait)) = B "HTTP/1.1 404 Not Found") by (vm_compute; reflexivity).
    rewrite E in F. unfold first_line_of in F. rewrite Ew, Eo in F. vm_compute in F. discriminate F.
Qed.

(** GET finds the file, HEAD does not. *)
Example head_file_ex :
  first_line_of (handle_read map_to_list (WTake 500) file_ro [] one_file (Stream (map Byte (file_text mGET)) Wait)) = B "HTTP/1.1 200 OK" ++ CRLF ++ B "Conte" /\
  first_line_of (handle_read map_to_list (WTake 500) file_ro [] one_file (Stream (map Byte (file_text mHEAD)) Wait)) = B "HTTP/1.1 404 Not Found".
Proof. split; vm_compute; reflexivity. Qed.

Print Assumptions head_file_partial.
Print Assumptions head_file_refuted.
