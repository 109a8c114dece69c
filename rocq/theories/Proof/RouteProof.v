(** Proofs about the route model. *)
From Verif.Model Require Export Route.
From Verif.Proof Require Export TextProof.

Lemma route_param_ok p kv : fits p -> query_piece p kv -> route_param p = Ok kv.
Proof.
  intros Hf Hq. unfold route_param. change (B "=") with ["="%char].
  destruct Hq as [k Hk|k w v Hk Hw].
  - by rewrite str_find_char_none.
  - destruct (str_find_char "=" k w Hf Hk) as [-> Hne].
    destruct (N.eqb_spec (N.of_nat (length k)) npos); [done|].
    rewrite substr_before. simpl. rewrite substr_after_char by done. simpl.
    by rewrite (url_decode_form _ _ Hw).
Qed.

Lemma route_param_total p : fits p -> exists kv, route_param p = Ok kv.
Proof.
  intros Hf. unfold route_param. change (B "=") with ["="%char].
  destruct (decide ("="%char ∈ p)) as [Hin|Hin].
  - destruct (split_at_char _ _ Hin) as (k & w & -> & Hk).
    destruct (str_find_char "=" k w Hf Hk) as [-> Hne].
    destruct (N.eqb_spec (N.of_nat (length k)) npos); [done|].
    rewrite substr_before. simpl. rewrite substr_after_char by done. simpl. eauto.
  - rewrite str_find_char_none by done. simpl. eauto.
Qed.

Lemma route_params_ok m pcs kvs :
  Forall fits pcs -> Forall2 query_piece pcs kvs ->
  route_params m pcs = Ok (insert_all m kvs).
Proof.
  intros Hf HF. revert m Hf. induction HF as [|p kv pcs kvs Hq HF IH]; intros m Hf; [done|].
  apply Forall_cons in Hf as [Hp Hf]. cbn [route_params].
  rewrite (route_param_ok _ _ Hp Hq). cbn. by rewrite IH.
Qed.

Lemma route_params_total m pcs : Forall fits pcs -> exists m', route_params m pcs = Ok m'.
Proof.
  intros Hf. revert m. induction Hf as [|p pcs Hp Hf IH]; intros m; simpl; [eauto|].
  destruct (route_param_total p Hp) as [kv ->]. simpl. apply IH.
Qed.

(** Shorter than 2 GiB: positions fit an int. *)
Definition short (s : bytes) : Prop := (N.of_nat (length s) < 2 ^ 31)%N.

Lemma short_fits s : short s -> fits s.
Proof. unfold short, fits. lia. Qed.

Lemma to_int32_nat n : (N.of_nat n < 2 ^ 31)%N -> to_int32 (Z.of_N (N.of_nat n)) = Z.of_nat n.
Proof. intros H. rewrite to_int32_small; unfold int_min, int_max; lia. Qed.

Lemma int_to_size_nat n : (N.of_nat n < 2 ^ 31)%N -> int_to_size (Z.of_nat n) = N.of_nat n.
Proof. intros H. unfold int_to_size. rewrite Z.mod_small by lia. lia. Qed.

Lemma route_parse_no_query r u :
  u <> [] -> "?"%char ∉ u -> route_parse r u = Ok (kSuccess, Route u (rt_params r)).
Proof.
  intros Hne Hq. unfold route_parse. change (B "?") with ["?"%char].
  rewrite str_find_char_none by done. by destruct u.
Qed.

Lemma route_parse_query r path q :
  short (path ++ "?"%char :: q) -> "?"%char ∉ path ->
  route_parse r (path ++ "?"%char :: q) =
    (single ← str_split q (B "&") [] false;
     m ← route_params (rt_params r) single;
     Ok (kSuccess, Route path m)).
Proof.
  intros Hs Hq. pose proof (short_fits _ Hs) as Hf.
  assert (Hl : (N.of_nat (length path) < 2 ^ 31 - 1)%N).
  { unfold short in Hs. rewrite app_length in Hs. simpl in Hs. lia. }
  assert (Hu : exists c u, path ++ "?"%char :: q = c :: u) by (destruct path; eauto).
  unfold route_parse. destruct Hu as (c & u & Hu). rewrite Hu at 1.
  change (B "?") with ["?"%char].
  destruct (str_find_char "?" path q Hf Hq) as [-> Hne].
  rewrite to_int32_nat by lia. rewrite int_to_size_nat by lia.
  destruct (N.eqb_spec (N.of_nat (length path)) npos); [done|].
  unfold int_succ. replace (Z.of_nat (length path) =? int_max)%Z with false
    by (unfold int_max; lia).
  cbn [mbind outcome_bind].
  replace (int_to_size (Z.of_nat (length path) + 1)) with (szadd (N.of_nat (length path)) 1).
  2:{ unfold int_to_size, szadd, size_mod. rewrite Z.mod_small, N.mod_small by lia. lia. }
  rewrite substr_after_char by done. cbn [mbind outcome_bind].
  unfold mbind, outcome_bind.
  destruct (str_split q (B "&") [] false); try done.
  destruct (route_params (rt_params r) a); try done.
  by rewrite substr_before.
Qed.

Lemma route_parse_total r u : short u -> exists rc r', route_parse r u = Ok (rc, r').
Proof.
  intros Hs. destruct u as [|c u]; [simpl; eauto|].
  destruct (decide ("?"%char ∈ c :: u)) as [Hin|Hin].
  - destruct (split_at_char _ _ Hin) as (p & q & Hu & Hp). rewrite Hu in *.
    rewrite route_parse_query by done.
    assert (Hf : fits q) by (apply short_fits in Hs; by apply fits_app_r, fits_cons_r in Hs).
    destruct (split_spec q (B "&") [] false Hf) as (l & Hl & ->); [done|].
    cbn [mbind outcome_bind app].
    destruct (route_params_total (rt_params r) l) as [m' ->]; [by eapply pieces_fits|].
    cbn [mbind outcome_bind]. eauto.
  - rewrite route_parse_no_query by done. eauto.
Qed.

Lemma route_parse_rc r u rc r' :
  short u -> route_parse r u = Ok (rc, r') ->
  (rc = kSuccess /\ u <> []) \/ (rc = kLogicErr /\ u = [] /\ r' = r).
Proof.
  intros Hs. destruct u as [|c u]; [simpl; intros [= <- <-]; auto|].
  destruct (decide ("?"%char ∈ c :: u)) as [Hin|Hin].
  - destruct (split_at_char _ _ Hin) as (p & q & Hu & Hp). rewrite Hu in *.
    rewrite route_parse_query by done. unfold mbind, outcome_bind.
    destruct (str_split q (B "&") [] false); try done.
    destruct (route_params (rt_params r) a); try done.
    intros [= <- <-]. left. split; [done|]. by destruct p.
  - rewrite route_parse_no_query by done. intros [= <- <-]. by left.
Qed.

Lemma route_parse_url r u path params :
  short u -> u <> [] -> url u path params ->
  route_parse r u = Ok (kSuccess, Route path (insert_all (rt_params r) params)).
Proof.
  intros Hs Hne Hu. destruct Hu as [path Hp|path pcs params Hp Hpc Hamp HF].
  - by rewrite route_parse_no_query.
  - rewrite route_parse_query by done.
    assert (Hf : fits (join (B "&") pcs))
      by (apply short_fits in Hs; by apply fits_app_r, fits_cons_r in Hs).
    rewrite (split_pieces _ _ [] pcs); [|done..|by apply pieces_join_char].
    cbn [mbind outcome_bind app].
    rewrite (route_params_ok _ _ params); [done| |done].
    by eapply join_fits_all.
Qed.

(** 2 GiB and more. *)
Lemma route_parse_huge r path q :
  fits (path ++ "?"%char :: q) -> "?"%char ∉ path ->
  (2 ^ 31 <= N.of_nat (length path) < 2 ^ 32 - 1)%N ->
  route_parse r (path ++ "?"%char :: q) = Throw OutOfRange.
Proof.
  intros Hf Hq Hl.
  assert (Hu : exists c u, path ++ "?"%char :: q = c :: u) by (destruct path; eauto).
  unfold route_parse. destruct Hu as (c & u & Hu). rewrite Hu at 1.
  change (B "?") with ["?"%char].
  destruct (str_find_char "?" path q Hf Hq) as [-> Hne].
  assert (Hz : to_int32 (Z.of_N (N.of_nat (length path))) = (Z.of_nat (length path) - 2 ^ 32)%Z).
  { unfold to_int32.
    replace (Z.of_N (N.of_nat (length path)) + 2 ^ 31)%Z
      with ((Z.of_nat (length path) - 2 ^ 31) + 1 * 2 ^ 32)%Z by lia.
    rewrite Z_mod_plus_full, Z.mod_small by lia. lia. }
  rewrite Hz.
  assert (Hs : forall z, (- 2 ^ 31 <= z < 0)%Z -> int_to_size z = Z.to_N (z + 2 ^ 64)).
  { intros z Hz'. unfold int_to_size. f_equal.
    rewrite <- (Z_mod_plus_full z 1 (2 ^ 64)), Z.mod_small; lia. }
  rewrite Hs by lia.
  destruct (N.eqb_spec (Z.to_N (Z.of_nat (length path) - 2 ^ 32 + 2 ^ 64)) npos) as [H|_].
  { rewrite npos_val in H. lia. }
  unfold int_succ. replace (Z.of_nat (length path) - 2 ^ 32 =? int_max)%Z with false
    by (unfold int_max; lia).
  cbn [mbind outcome_bind].
  rewrite Hs by lia. unfold substr_from.
  rewrite (substr_throw _ (Z.to_N (Z.of_nat (length path) - 2 ^ 32 + 1 + 2 ^ 64))); [done|].
  unfold fits in Hf. unfold size. lia.
Qed.

(** ** ToString *)
Lemma url_encode_app a b : url_encode (a ++ b) = url_encode a ++ url_encode b.
Proof. unfold url_encode. apply flat_map_app. Qed.

Lemma url_encode_plain s : Forall (fun c => url_plain c = true) s -> url_encode s = s.
Proof.
  induction 1 as [|c s Hc Hs IH]; [done|]. unfold url_encode in *. simpl. rewrite IH.
  unfold url_encode_byte. by rewrite Hc.
Qed.

Definition kv_text (kv : bytes * bytes) : bytes := kv.1 ++ B "=" ++ kv.2.

Lemma params_text_join l :
  l <> [] -> params_text l = join (B "&") (map kv_text l) ++ B "&".
Proof.
  intros Hne. induction l as [|kv l IH]; [done|]. unfold params_text in *.
  cbn [flat_map map]. destruct l as [|kv' l].
  - cbn [flat_map map join]. unfold kv_text. by rewrite app_nil_r, <- !app_assoc.
  - rewrite IH by done. cbn [map]. rewrite join_cons. unfold kv_text. by rewrite <- !app_assoc.
Qed.

Lemma url_encode_join l : url_encode (join (B "&") l) = join (B "&") (map url_encode l).
Proof.
  induction l as [|x l IH]; [done|]. destruct l as [|y l]; [done|].
  rewrite join_cons, !url_encode_app, IH. done.
Qed.

Lemma url_encode_byte_no_amp c : c <> "&"%char -> "&"%char ∉ url_encode_byte c.
Proof.
  intros Hc. unfold url_encode_byte. destruct (url_plain c).
  - rewrite elem_of_list_singleton. congruence.
  - destruct (Ascii.eqb c " "); [by_compute|].
    assert (H : forall n, (n < 16)%N -> to_hex n <> "&"%char).
    { intros n Hn. pose proof (lt16_cases n Hn) as H. revert n Hn H.
      assert (HF : Forall (fun n => to_hex n <> "&"%char) [0;1;2;3;4;5;6;7;8;9;10;11;12;13;14;15]%N)
        by by_compute.
      rewrite Forall_forall in HF. auto. }
    rewrite !not_elem_of_cons. split; [done|]. split; [|split; [|apply not_elem_of_nil]].
    + apply not_eq_sym, H. rewrite N.shiftr_div_pow2. apply N.div_lt_upper_bound; [done|].
      unfold byteN. pose proof (N_ascii_bounded c). simpl. lia.
    + apply not_eq_sym, H. apply N.mod_lt. done.
Qed.

Lemma url_encode_no_amp s : "&"%char ∉ s -> "&"%char ∉ url_encode s.
Proof.
  induction s as [|c s IH]; intros H; [done|]. apply not_elem_of_cons in H as [Hc Hs].
  unfold url_encode. simpl. rewrite not_elem_of_app. split; [|by apply IH].
  apply url_encode_byte_no_amp. congruence.
Qed.

Lemma route_to_string_empty it r :
  rt_params r = ∅ -> route_to_string it r = url_encode (rt_path r).
Proof. intros H. unfold route_to_string. by rewrite decide_True. Qed.

Lemma route_to_string_params it r :
  valid_order it -> rt_params r <> ∅ ->
  route_to_string it r =
    url_encode (rt_path r) ++ "?"%char :: join (B "&") (map url_encode (map kv_text (it (rt_params r)))).
Proof.
  intros Hit Hne. unfold route_to_string. rewrite decide_False by done.
  pose proof (valid_order_nonempty _ _ Hit Hne) as Hl.
  rewrite params_text_join by done. unfold pop_back.
  rewrite !app_assoc. rewrite removelast_app by done. simpl removelast. rewrite app_nil_r.
  rewrite !url_encode_app, url_encode_join, <- app_assoc. done.
Qed.

(** Characters that UrlEncode copies, without the given separators. *)
Definition plain_except (seps s : bytes) : Prop :=
  Forall (fun c => url_plain c = true /\ c ∉ seps) s.

Lemma plain_except_encode seps s : plain_except seps s -> url_encode s = s.
Proof. intros H. apply url_encode_plain. eapply Forall_impl; [exact H|]. by intros c [? _]. Qed.

Lemma plain_except_not_in seps s c : plain_except seps s -> c ∈ seps -> c ∉ s.
Proof.
  intros H Hc Hin. unfold plain_except in H. rewrite Forall_forall in H. by destruct (H c Hin).
Qed.

Lemma route_round_trip it r :
  valid_order it ->
  short (route_to_string it r) ->
  plain_except (B "?") (rt_path r) ->
  (rt_path r <> [] \/ rt_params r <> ∅) ->
  (forall k v, rt_params r !! k = Some v -> plain_except (B "=&") k /\ "&"%char ∉ v) ->
  route_parse route_new (route_to_string it r) = Ok (kSuccess, r).
Proof.
  intros Hit Hs Hpath Hne Hkv. destruct r as [path params]. cbn [rt_path rt_params] in *.
  assert (Hq : "?"%char ∉ path) by (eapply plain_except_not_in; [done|by_compute]).
  destruct (decide (params = ∅)) as [->|Hp].
  - rewrite route_to_string_empty in * by done. cbn [rt_path] in *.
    rewrite (plain_except_encode _ _ Hpath) in *.
    rewrite (route_parse_url _ _ path []); [done|done|by destruct Hne|by constructor].
  - rewrite route_to_string_params in * by done. cbn [rt_path rt_params] in *.
    rewrite (plain_except_encode _ _ Hpath) in *.
    set (kvs := it params) in *.
    assert (Hin : forall kv, kv ∈ kvs -> plain_except (B "=&") kv.1 /\ "&"%char ∉ kv.2).
    { intros [k v] H. apply Hkv. apply elem_of_map_to_list. by rewrite <- (Hit params). }
    assert (Hpc : map url_encode (map kv_text kvs) = map (fun kv => kv.1 ++ "="%char :: url_encode kv.2) kvs).
    { rewrite map_map. apply map_ext_in. intros kv H%elem_of_list_In. destruct (Hin kv H) as [H1 _].
      unfold kv_text. rewrite !url_encode_app. by rewrite (plain_except_encode _ _ H1). }
    rewrite Hpc in *.
    rewrite (route_parse_url _ _ path kvs).
    + cbn [rt_params route_new]. by rewrite (insert_all_map params) by (apply Hit).
    + done.
    + by destruct path.
    + constructor.
      * done.
      * intros H. apply map_eq_nil in H. by apply (valid_order_nonempty it params).
      * apply Forall_map, Forall_forall. intros kv H. destruct (Hin kv H) as [H1 H2]. simpl.
        rewrite not_elem_of_app, not_elem_of_cons. split; [|split; [done|by apply url_encode_no_amp]].
        eapply plain_except_not_in; [done|by_compute].
      * apply Forall2_fmap_l. apply Forall_Forall2_diag, Forall_forall. intros kv H.
        destruct (Hin kv H) as [H1 H2]. destruct kv as [k v]. simpl.
        constructor; [|apply form_decodes_encode].
        eapply plain_except_not_in; [exact H1|by_compute].
Qed.
