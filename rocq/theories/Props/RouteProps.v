(** C12, C13: request targets (src/cppnet/http/req/route/http_route.cpp). *)
From Verif.Proof Require Import RouteProof.

(** ** C12 *)

(** [short u]: below 2 GiB (see [route_parse_total_refuted] for why). *)
Theorem route_parse_reads_url : forall (r : route) (u path : bytes) (params : list (bytes * bytes)),
  short u -> u <> [] -> url u path params ->
  exists r', route_parse r u = Ok (kSuccess, r') /\ rt_path r' = path /\
    forall k, route_get_param r' k =
      match last_val params k with Some v => v | None => route_get_param r k end.
Proof.
  intros r u path params Hs Hne Hu. eexists. split; [by apply route_parse_url|].
  split; [done|]. intros k. unfold route_get_param. cbn [rt_params].
  rewrite insert_all_lookup. by destruct (last_val params k).
Qed.

(** For every target, well-formed or not: no crash, and failure only for "". *)
Definition route_parse_total_full : Prop := forall (r : route) (u : bytes), fits u ->
  exists rc r', route_parse r u = Ok (rc, r') /\
    ((rc = kSuccess /\ u <> []) \/ (rc = kLogicErr /\ u = [] /\ r' = r)).

Theorem route_parse_total_partial : forall (r : route) (u : bytes), short u ->
  exists rc r', route_parse r u = Ok (rc, r') /\
    ((rc = kSuccess /\ u <> []) \/ (rc = kLogicErr /\ u = [] /\ r' = r)).
Proof.
  intros r u Hs. destruct (route_parse_total r u Hs) as (rc & r' & H).
  exists rc, r'. split; [done|]. by apply (route_parse_rc r u).
Qed.

(** Missing: targets of 2 GiB and more.  There a '?' beyond position 2^31 is
    misplaced by the conversion to int and substr throws. *)
Theorem route_parse_total_refuted : ~ route_parse_total_full.
Proof.
  intros H.
  assert (Hn : exists n, N.of_nat n = (2 ^ 31)%N) by (eexists; apply N2Nat.id).
  destruct Hn as [n Hn].
  pose (path := replicate n "a"%char).
  assert (Hl : N.of_nat (length path) = (2 ^ 31)%N) by (unfold path; by rewrite replicate_length).
  assert (Hq : "?"%char ∉ path).
  { unfold path. intros Hin. apply elem_of_replicate_inv in Hin. done. }
  assert (Hf : fits (path ++ "?"%char :: [])).
  { unfold fits. rewrite app_length. cbn [length]. lia. }
  destruct (H route_new (path ++ "?"%char :: []) Hf) as (rc & r' & Heq & _).
  rewrite route_parse_huge in Heq; [done|done|done|lia].
Qed.

(** ** C13 *)
Definition route_round_trip_full : Prop := forall it (r : route),
  valid_order it -> short (route_to_string it r) -> rt_path r <> [] ->
  route_parse route_new (route_to_string it r) = Ok (kSuccess, r).

(** A space in the path comes back as '+'. *)
Theorem route_round_trip_refuted : ~ route_round_trip_full.
Proof.
  intros H. specialize (H map_to_list (Route (B "/a b") ∅) valid_order_sorted).
  assert (Hx : route_parse route_new (B "/a+b") = Ok (kSuccess, Route (B "/a b") ∅)).
  { apply H; [|done]. by vm_compute. }
  vm_compute in Hx. congruence.
Qed.

(** A '&' in a parameter value cuts it and invents another parameter. *)
Theorem route_round_trip_amp_refuted :
  exists r r' : route,
    route_parse route_new (route_to_string map_to_list r) = Ok (kSuccess, r') /\
    rt_path r' = rt_path r /\
    route_get_param r (B "q") = B "R&D" /\ route_get_param r' (B "q") = B "R" /\
    rt_params r !! B "D" = None /\ rt_params r' !! B "D" = Some [].
Proof.
  exists (Route (B "/s") {[ B "q" := B "R&D" ]}). eexists.
  split; [by vm_compute|]. by vm_compute.
Qed.

(** What holds: the path and the names consist of characters that need no
    escaping (and no separators); the values are arbitrary except for '&'. *)
Theorem route_round_trip_partial : forall it (r : route),
  valid_order it ->
  short (route_to_string it r) ->
  plain_except (B "?") (rt_path r) ->
  (rt_path r <> [] \/ rt_params r <> ∅) ->
  (forall k v, rt_params r !! k = Some v -> plain_except (B "=&") k /\ "&"%char ∉ v) ->
  route_parse route_new (route_to_string it r) = Ok (kSuccess, r).
Proof. exact route_round_trip. Qed.

Print Assumptions route_parse_reads_url.
Print Assumptions route_parse_total_partial.
Print Assumptions route_parse_total_refuted.
Print Assumptions route_round_trip_refuted.
Print Assumptions route_round_trip_amp_refuted.
Print Assumptions route_round_trip_partial.

(** Non-vacuity. *)
Example ex_url : url (B "/s?q=a%20b+c&x&q=2=3") (B "/s")
  [(B "q", B "a b c"); (B "x", []); (B "q", B "2=3")].
Proof.
  apply (url_query (B "/s") [B "q=a%20b+c"; B "x"; B "q=2=3"]).
  - by_compute.
  - done.
  - by_compute.
  - constructor; [|constructor; [|constructor; [|constructor]]].
    + apply (qp_pair (B "q") (B "a%20b+c")); [by_compute|].
      constructor; [done..|]. apply (fd_hex "2" "0" 2 0); [by_compute..|].
      repeat (first [apply fd_nil|apply fd_plus|apply fd_other; [done|done|]]).
    + constructor. by_compute.
    + apply (qp_pair (B "q") (B "2=3")); [by_compute|].
      repeat (first [apply fd_nil|apply fd_plus|apply fd_other; [done|done|]]).
Qed.

Definition ex_route : route :=
  Route (B "/find") (<[B "q" := B "a b=c?%"]> {[ B "lang" := B "en" ]}).
Example ex_route_hyps :
  short (route_to_string map_to_list ex_route) /\ plain_except (B "?") (rt_path ex_route) /\
  (forall k v, rt_params ex_route !! k = Some v -> plain_except (B "=&") k /\ "&"%char ∉ v).
Proof.
  split; [by vm_compute|]. split; [by_compute|].
  apply (map_Forall_to_list (fun k v => plain_except (B "=&") k /\ "&"%char ∉ v)). by_compute.
Qed.
