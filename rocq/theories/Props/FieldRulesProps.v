(** C237: the header lines of a request, and what RFC 9112 (3.2, 5.1) asks a server to
    refuse: HttpServer::HandleRead (src/cppnet/http/server/http_server.cpp:279-411). *)
From Verif.Proof Require Import ServerProof.
From Verif.Props Require Import MessageProps RouterProps ServerProps HttpRulesProps FramingProps.

(** ** The rules *)

(** RFC 9110, 5.6.2 *)
Definition tchars : bytes := B "!#$%&'*+-.^_`|~0123456789abcdefghijklmnopqrstuvwxyzABCDEFGHIJKLMNOPQRSTUVWXYZ".
(** A name, a colon right after it, and anything. *)
Definition field_line (l : bytes) : Prop := exists name value, l = name ++ ":"%char :: value /\ name <> [] /\ Forall (fun c => c ∈ tchars) name.
Definition host_line (l : bytes) : Prop := exists name value, l = name ++ ":"%char :: value /\ lower name = B "host".
Definition one_host (hdrs : list bytes) : Prop := exists a h b, hdrs = a ++ h :: b /\ host_line h /\ Forall (fun l => ~ host_line l) (a ++ b).
Definition obeys (hdrs : list bytes) : Prop := Forall field_line hdrs /\ one_host hdrs.
(** The first line ends with HTTP/1.1. *)
Definition in_11 (head : bytes) : Prop := exists a b, head = a ++ B " HTTP/1.1" ++ CRLF ++ b /\ one_line a.

(** The handlers see the requests that obey the rules, and only those. *)
Definition field_rules_full : Prop := forall hit ro e head hdrs path k l t v,
  valid_order hit -> register [] [] recorder router_new = Ok (kSuccess, ro) ->
  request_head head hdrs path -> in_11 head -> no_length hdrs -> short head ->
  handle_read hit (WTake k) ro e wr0 (Stream (map Byte head ++ l) t) = Ok v -> (w_user (sv_world v) <> [] <-> obeys hdrs).

(** Whatever the lines are, the handlers see the request, and it is answered. Missing:
    nothing is refused. *)
Theorem field_rules_partial : forall hit ro e head hdrs path wr l t,
  valid_order hit -> register [] [] recorder router_new = Ok (kSuccess, ro) ->
  request_head head hdrs path -> no_length hdrs -> short head -> wr <> WSig ->
  exists r out sent cl, rt_path (rq_route r) = path /\
    handle_read hit wr ro e wr0 (Stream (map Byte head ++ l) t) = Ok (Served (seen r) (Stream l t) [out] sent cl) /\ w_user (seen r) = [r].
Proof.
  intros hit ro e head hdrs path wr l t Hit Hro Hh Hno Hs Hw.
  destruct (head_answer hit ro e head hdrs path wr l t Hro Hh Hno Hs) as (r & Hp & _ & E).
  destruct (respond_new hit wr e r (Stream l t) Hit Hw) as (out & sent & cl & E1 & _). rewrite E1 in E. by exists r, out, sent, cl.
Qed.

Lemma refuted_by hdrs : Forall plain_field hdrs -> no_length (field_lines hdrs) -> short (req_text mGET v1_1 hdrs []) -> in_11 (req_text mGET v1_1 hdrs []) ->
  ~ obeys (field_lines hdrs) -> ~ field_rules_full.
Proof.
  intros HF Hno Hs H11 Hob H. destruct recorder_dispatch as (ro & Hro & _).
  assert (Hh : request_head (req_text mGET v1_1 hdrs []) (field_lines hdrs) (B "/a")) by by apply req_text_head.
  destruct (field_rules_partial map_to_list ro [] _ _ _ (WTake 0) [] Wait valid_order_sorted Hro Hh Hno Hs) as (r & out & sent & cl & _ & E & Hw); [discriminate|].
  apply Hob. apply (H map_to_list ro [] _ _ _ 0 [] Wait _ valid_order_sorted Hro Hh H11 Hno Hs E). cbn [sv_world]. rewrite Hw. discriminate.
Qed.
Lemma req_in_11 hdrs : in_11 (req_text mGET v1_1 hdrs []).
Proof. exists (B "GET /a"), (crlf_lines (field_lines hdrs) ++ CRLF ++ []). split; [done|]. apply no_cr_one_line. by_compute. Qed.

(** A request without Host. *)
Theorem field_rules_refuted : ~ field_rules_full.
Proof.
  apply (refuted_by []); [constructor|constructor|by vm_compute|apply req_in_11|].
  intros [_ (a & h & b & E & _)]. by destruct a.
Qed.

(** A space before the colon: the rules say refuse, the handlers see the request. *)
Definition spaced : list (bytes * bytes) := [(B "Host", B "a"); (B "X ", B "b")].
Example spaced_ex : ~ obeys (field_lines spaced) /\ exists ro r out sent cl, register [] [] recorder router_new = Ok (kSuccess, ro) /\
  handle_read map_to_list (WTake 0) ro [] wr0 (Stream (map Byte (req_text mGET v1_1 spaced []) ++ []) Wait) = Ok (Served (seen r) (Stream [] Wait) [out] sent cl).
Proof.
  assert (HF : Forall plain_field spaced) by (repeat constructor; by_compute || done).
  split.
  - intros [HX _]. change (field_lines spaced) with [B "Host: a"; B "X : b"] in HX.
    apply Forall_cons in HX as [_ HX]. apply Forall_cons in HX as [(name & value & E & Hne & Ht) _].
    destruct name as [|c1 [|c2 name]]; [done|discriminate E|]. injection E as <- <- E.
    apply Forall_cons in Ht as [_ Ht]. apply Forall_cons in Ht as [Ht _]. revert Ht. by_compute.
  - destruct recorder_dispatch as (ro & Hro & _). exists ro.
    assert (Hh : request_head (req_text mGET v1_1 spaced []) (field_lines spaced) (B "/a")) by by apply req_text_head.
    destruct (field_rules_partial map_to_list ro [] _ _ _ (WTake 0) [] Wait valid_order_sorted Hro Hh) as (r & out & sent & cl & _ & E & _).
    + repeat (constructor; [intros [z Hz]; discriminate Hz|]). constructor.
    + by vm_compute.
    + discriminate.
    + exists r, out, sent, cl. split; [exact Hro|exact E].
Qed.
(** A request that obeys the rules. *)
Example obeys_ex : obeys [B "Host: a"; B "Accept: */*"].
Proof.
  split.
  - constructor; [exists (B "Host"), (B " a")|constructor; [exists (B "Accept"), (B " */*")|constructor]]; (split; [done|]; split; [done|]; by_compute).
  - exists [], (B "Host: a"), [B "Accept: */*"]. split; [done|]. split; [exists (B "Host"), (B " a"); split; [done|by vm_compute]|].
    constructor; [|constructor]. intros (name & value & E & Hl).
    destruct name as [|c1 name]; [discriminate Hl|]. injection E as <- _. discriminate Hl.
Qed.

Print Assumptions field_rules_partial.
Print Assumptions field_rules_refuted.
