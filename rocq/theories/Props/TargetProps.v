(** C210: what HttpRoute::Parse makes of every target, also a malformed one
    (src/cppnet/http/req/route/http_route.cpp). *)
From Verif.Proof Require Import RouteProof.
From Verif.Props Require Import DecodeProps.

(** ** Statements *)

(** A piece of a query and the parameter it gives: the name as it stands, the value decoded
    as far as it goes, nothing for a value that ends with a bare '%'. *)
Inductive piece_gives : bytes -> bytes * bytes -> Prop :=
| pg_bare k : "="%char ∉ k -> piece_gives k (k, [])
| pg_value k w v : "="%char ∉ k -> loosely_decodes w v -> piece_gives (k ++ "="%char :: w) (k, v)
| pg_lost k w : "="%char ∉ k -> ends_bare w -> piece_gives (k ++ "="%char :: w) (k, []).
(** A target: up to the first '?' the path, then pieces with '&' between. *)
Inductive target_gives : bytes -> bytes -> list (bytes * bytes) -> Prop :=
| tg_path path : "?"%char ∉ path -> target_gives path path []
| tg_query path pcs params : "?"%char ∉ path -> pcs <> [] -> Forall (fun p => "&"%char ∉ p) pcs -> Forall2 piece_gives pcs params ->
    target_gives (path ++ "?"%char :: join (B "&") pcs) path params.

(** Names are decoded as values are. *)
Definition names_decoded_full : Prop := forall k n w v r, form_decodes k n -> form_decodes w v -> "="%char ∉ k -> "&"%char ∉ k -> "&"%char ∉ w ->
  short (B "/?" ++ k ++ "="%char :: w) ->
  exists r', route_parse r (B "/?" ++ k ++ "="%char :: w) = Ok (kSuccess, r') /\ route_get_param r' n = v.

(** ** Proofs *)

Lemma cut_char (c : ascii) a b a' b' : c ∉ a -> c ∉ a' -> a ++ c :: b = a' ++ c :: b' -> a = a' /\ b = b'.
Proof.
  revert a'. induction a as [|x a IH]; intros [|y a'] Ha Ha' E; cbn [app] in E.
  - by injection E as ->.
  - injection E as <- _. destruct Ha'. by left.
  - injection E as -> _. destruct Ha. by left.
  - injection E as <- E. apply not_elem_of_cons in Ha as [_ Ha], Ha' as [_ Ha']. by destruct (IH _ Ha Ha' E) as [-> ->].
Qed.
Lemma not_in_cut (c : ascii) a b s : c ∉ s -> s <> a ++ c :: b.
Proof. intros H ->. apply H. apply elem_of_app. right. by left. Qed.

Lemma piece_total p : exists kv, piece_gives p kv.
Proof.
  destruct (decide ("="%char ∈ p)) as [Hin|Hin]; [|eexists; by constructor].
  destruct (split_at_char _ _ Hin) as (k & w & -> & Hk).
  destruct (bare_or_decodes w) as [[v Hv]|Hb]; eexists; [by eapply pg_value|by eapply pg_lost].
Qed.
Lemma piece_det p kv kv' : piece_gives p kv -> piece_gives p kv' -> kv = kv'.
Proof.
  intros H H'. destruct H as [k Hk|k w v Hk Hw|k w Hk Hw]; inversion H' as [k' Hk' E|k' w' v' Hk' Hw' E|k' w' Hk' Hw' E]; subst; try done;
    try (exfalso; eapply (not_in_cut "="); [exact Hk|by symmetry]);
    try (exfalso; by eapply (not_in_cut "="));
    apply cut_char in E as [-> ->]; try done.
  - f_equal. by eapply loosely_det.
  - exfalso. by eapply bare_not.
  - exfalso. by eapply bare_not.
Qed.
Lemma gives_route_param p kv : fits p -> piece_gives p kv -> route_param p = Ok kv.
Proof.
  intros Hf Hq. unfold route_param. change (B "=") with ["="%char].
  destruct Hq as [k Hk|k w v Hk Hw|k w Hk Hw].
  - by rewrite str_find_char_none.
  - destruct (str_find_char "=" k w Hf Hk) as [-> Hne].
    destruct (N.eqb_spec (N.of_nat (length k)) npos); [done|].
    rewrite substr_before. cbn [mbind outcome_bind]. rewrite substr_after_char by done. cbn [mbind outcome_bind].
    by rewrite (proj2 (decode_exact w v) (or_introl Hw)).
  - destruct (str_find_char "=" k w Hf Hk) as [-> Hne].
    destruct (N.eqb_spec (N.of_nat (length k)) npos); [done|].
    rewrite substr_before. cbn [mbind outcome_bind]. rewrite substr_after_char by done. cbn [mbind outcome_bind].
    by rewrite (proj2 (decode_nothing w) (or_intror Hw)).
Qed.
Lemma gives_route_params m pcs kvs : Forall fits pcs -> Forall2 piece_gives pcs kvs -> route_params m pcs = Ok (insert_all m kvs).
Proof.
  intros Hf HF. revert m Hf. induction HF as [|p kv pcs kvs Hq HF IH]; intros m Hf; [done|].
  apply Forall_cons in Hf as [Hp Hf]. cbn [route_params].
  rewrite (gives_route_param _ _ Hp Hq). cbn. by rewrite IH.
Qed.
Lemma gives_route_parse r u path params : short u -> u <> [] -> target_gives u path params ->
  route_parse r u = Ok (kSuccess, Route path (insert_all (rt_params r) params)).
Proof.
  intros Hs Hne Hu. destruct Hu as [path Hp|path pcs params Hp Hpc Hamp HF].
  - by rewrite route_parse_no_query.
  - rewrite route_parse_query by done.
    assert (Hf : fits (join (B "&") pcs)) by (apply short_fits in Hs; by apply fits_app_r, fits_cons_r in Hs).
    rewrite (split_pieces _ _ [] pcs); [|done..|by apply pieces_join_char].
    cbn [mbind outcome_bind app].
    rewrite (gives_route_params _ _ params); [done| |done].
    by eapply join_fits_all.
Qed.
Lemma cut_pieces (s : bytes) : exists pcs, pcs <> [] /\ Forall (fun p => "&"%char ∉ p) pcs /\ s = join (B "&") pcs.
Proof.
  induction s as [|c s (pcs & Hne & HF & ->)].
  - exists [[]]. split; [done|]. split; [|done]. constructor; [apply not_elem_of_nil|constructor].
  - destruct pcs as [|p pcs]; [done|]. apply Forall_cons in HF as [Hp HF].
    destruct (decide (c = "&"%char)) as [->|Hc].
    + exists ([] :: p :: pcs). split; [done|]. split; [|done]. constructor; [apply not_elem_of_nil|by constructor].
    + exists ((c :: p) :: pcs). split; [done|]. split; [|by destruct pcs].
      constructor; [|done]. by apply not_elem_of_cons.
Qed.
Lemma target_total u : exists path params, target_gives u path params.
Proof.
  destruct (decide ("?"%char ∈ u)) as [Hin|Hin]; [|eexists _, _; by constructor].
  destruct (split_at_char _ _ Hin) as (path & q & -> & Hp).
  destruct (cut_pieces q) as (pcs & Hne & HF & ->).
  assert (exists params, Forall2 piece_gives pcs params) as [params HP].
  { clear. induction pcs as [|p pcs [ps IH]]; [by exists []|]. destruct (piece_total p) as [kv Hkv]. exists (kv :: ps). by constructor. }
  eexists _, _. by apply tg_query.
Qed.
Lemma join_det (l l' : list bytes) : l <> [] -> l' <> [] -> Forall (fun p => "&"%char ∉ p) l -> Forall (fun p => "&"%char ∉ p) l' -> join (B "&") l = join (B "&") l' -> l = l'.
Proof.
  revert l'. induction l as [|p l IH]; intros [|p' l'] Hn Hn' HF HF' E; try done.
  apply Forall_cons in HF as [Hp HF]. apply Forall_cons in HF' as [Hp' HF'].
  destruct l as [|q l], l' as [|q' l'].
  - cbn in E. by subst.
  - change (p = p' ++ "&"%char :: join (B "&") (q' :: l')) in E. by apply not_in_cut in E.
  - change (p ++ "&"%char :: join (B "&") (q :: l) = p') in E. symmetry in E. by apply not_in_cut in E.
  - change (p ++ "&"%char :: join (B "&") (q :: l) = p' ++ "&"%char :: join (B "&") (q' :: l')) in E.
    apply cut_char in E as [-> E]; [|done|done]. f_equal. by apply IH.
Qed.
Lemma target_det u path params path' params' : target_gives u path params -> target_gives u path' params' -> path = path' /\ params = params'.
Proof.
  intros H H'. destruct H as [path Hp|path pcs params Hp Hpc Hamp HF]; inversion H' as [q Hq E|q pcs' params1 Hq Hpc' Hamp' HF' E]; subst; try done.
  - by destruct (not_in_cut "?" path' (join (B "&") pcs') _ Hp).
  - by destruct (not_in_cut "?" path (join (B "&") pcs) _ Hq).
  - apply cut_char in E as [-> E]; [|done|done]. split; [done|].
    apply join_det in E; [|done..]. subst pcs'. clear -HF HF'. revert params' HF'.
    induction HF as [|p kv pcs kvs Hq HF IH]; intros ps HF'; inversion HF'; subst; [done|].
    f_equal; [by eapply piece_det|by apply IH].
Qed.

(** ** Theorems *)

(** Every target below 2 GiB is read in one way, and Parse reads it so. *)
Theorem every_target_read : forall (r : route) (u : bytes), short u -> u <> [] ->
  exists path params, target_gives u path params /\
    (forall path' params', target_gives u path' params' -> path' = path /\ params' = params) /\
    exists r', route_parse r u = Ok (kSuccess, r') /\ rt_path r' = path /\
      forall k, route_get_param r' k = match last_val params k with Some v => v | None => route_get_param r k end.
Proof.
  intros r u Hs Hne. destruct (target_total u) as (path & params & Hu). exists path, params. split; [done|]. split.
  { intros path' params' H. by eapply target_det. }
  eexists. split; [by apply gives_route_parse|]. split; [done|]. intros k. unfold route_get_param. cbn [rt_params].
  rewrite insert_all_lookup. by destruct (last_val params k).
Qed.
(** A parameter is never found under another name than the one in the text. *)
Theorem names_as_written : forall (r : route) (u : bytes) k r', short u -> route_parse r u = Ok (kSuccess, r') ->
  route_get_param r' k <> route_get_param r k -> exists a b, u = a ++ k ++ b.
Proof.
  intros r u k r' Hs E Hk. destruct (decide (u = [])) as [->|Hne].
  { vm_compute in E. discriminate E. }
  destruct (every_target_read r u Hs Hne) as (path & params & Hu & _ & r1 & E1 & _ & Hp).
  rewrite E in E1. injection E1 as <-. rewrite Hp in Hk.
  destruct (last_val params k) as [v|] eqn:Hl; [|done].
  assert (Hin : k ∈ params.*1).
  { clear -Hl. revert v Hl. induction params as [|[k1 v1] ps IH]; intros v Hl; [done|]. cbn [last_val] in Hl. cbn.
    destruct (last_val ps k) as [w|]; [right; by eapply IH|]. case_decide; [subst; by left|done]. }
  destruct Hu as [path Hq|path pcs params Hq Hpc Hamp HF]; [by apply elem_of_nil in Hin|].
  assert (exists a b, join (B "&") pcs = a ++ k ++ b) as (a & b & ->); [|by exists (path ++ "?"%char :: a), b; rewrite <- app_assoc].
  clear -HF Hin. induction HF as [|p kv pcs kvs Hq HF IH]; [by apply elem_of_nil in Hin|].
  cbn in Hin. apply elem_of_cons in Hin as [->|Hin].
  - assert (exists w, p = kv.1 ++ w) as [w ->]. { destruct Hq; eexists; [by rewrite app_nil_r|done|done]. }
    destruct pcs as [|q pcs].
    + exists [], w. done.
    + exists [], (w ++ B "&" ++ join (B "&") (q :: pcs)). cbn [app]. rewrite app_assoc. done.
  - destruct (IH Hin) as (a & b & E). destruct pcs as [|q pcs].
    + inversion HF; subst. by apply elem_of_nil in Hin.
    + exists (p ++ B "&" ++ a), b. change (join (B "&") (p :: q :: pcs)) with (p ++ B "&" ++ join (B "&") (q :: pcs)).
      rewrite E. by rewrite <- !app_assoc.
Qed.
Theorem names_decoded_refuted : ~ names_decoded_full.
Proof.
  intros H. destruct (H (B "%41") (B "A") (B "1") (B "1") route_new) as (r' & E & Hg).
  - eapply (fd_hex "4" "1" 4 1); [by apply elem_of_list_lookup_2 with 4|by apply elem_of_list_lookup_2 with 1|constructor].
  - constructor; [done|done|constructor].
  - by apply (bool_decide_unpack _).
  - by apply (bool_decide_unpack _).
  - by apply (bool_decide_unpack _).
  - by vm_compute.
  - vm_compute in E. injection E as <-. vm_compute in Hg. discriminate Hg.
Qed.
Print Assumptions every_target_read.
Print Assumptions names_as_written.
Print Assumptions names_decoded_refuted.

(** ** Examples *)
Example target_ex : exists r', route_parse route_new (B "/a?x=%zz&&y=1?2&x=%4&%41=5&z=7%") = Ok (kSuccess, r') /\
  rt_path r' = B "/a" /\ route_get_param r' (B "x") = B "@" /\ route_get_param r' (B "y") = B "1?2" /\
  route_get_param r' (B "A") = [] /\ route_get_param r' (B "%41") = B "5" /\ route_get_param r' (B "z") = [].
Proof. eexists. split; [by vm_compute|]. by vm_compute. Qed.
