(** C14-C19, C78: headers (src/cppnet/http/header/http_header.cpp). *)
From Verif.Proof Require Import HeaderProof.

Implicit Types (h : gmap bytes bytes) (k v : bytes).

(** ** C14 *)

(** The header a call stores, in HTTP terms. *)
Definition stored_by (o : header_op) : option (bytes * bytes) :=
  match o with
  | HAdd k v | HIndexSet k v => Some (k, v)
  | HSetContentLength n => Some (B "Content-Length", int_to_string n)
  | HSetContentTypeStr s => Some (B "Content-Type", s)
  | HSetHost s => Some (B "Host", s)
  | HSetLongConnection b => Some (B "Connection", if b : bool then B "keep-alive" else B "close")
  | HIndex _ | HClear | HSetCookie _ => None
  end.

(** The calls after the last Clear. *)
Fixpoint since_clear (acc ops : list header_op) : list header_op :=
  match ops with
  | [] => acc
  | HClear :: ops' => since_clear [] ops'
  | o :: ops' => since_clear (acc ++ [o]) ops'
  end.

Definition last_added (ops : list header_op) (k : bytes) : option bytes :=
  last_val (omap stored_by (since_clear [] ops)) k.

(** Set-Cookie accumulates instead (see C18). *)
Theorem header_get_returns_last_added : forall (ops : list header_op) (k : bytes),
  k <> B "Set-Cookie" ->
  header_get (header_run ∅ ops) k = default [] (last_added ops k).
Proof.
  intros ops k Hk. unfold last_added.
  assert (Hsnoc : forall (l : list (bytes * bytes)) kv, last_val (l ++ [kv]) k =
    if decide (kv.1 = k) then Some kv.2 else last_val l k).
  { induction l as [|[k' v'] l IH]; intros [k1 v1]; simpl; [done|].
    rewrite IH. simpl. destruct (decide (k1 = k)); [done|]. done. }
  assert (H : forall ops acc h,
    header_get h k = default [] (last_val (omap stored_by acc) k) ->
    header_get (header_run h ops) k = default [] (last_val (omap stored_by (since_clear acc ops)) k)).
  { clear ops. induction ops as [|o ops IH]; intros acc h Hh; [done|]. unfold header_run. cbn [foldl].
    fold (header_run (header_step h o) ops).
    assert (Hst : forall k' v', stored_by o = Some (k', v') -> o <> HClear ->
      header_get (header_step h o) k = (if decide (k' = k) then v' else header_get h k) ->
      header_get (header_run (header_step h o) ops) k =
        default [] (last_val (omap stored_by (since_clear acc (o :: ops))) k)).
    { intros k' v' Ho Hne Hg. destruct o; try done; cbn [since_clear]; apply IH;
      (rewrite Hg, omap_app; simpl in Ho |- *; rewrite Hsnoc; injection Ho as <- <-; cbn [fst snd];
       destruct (decide _); done). }
    assert (Hins : forall k' v', header_get (<[k' := v']> h) k = if decide (k' = k) then v' else header_get h k).
    { intros k' v'. unfold header_get. destruct (decide (k' = k)) as [->|].
      - by rewrite lookup_insert.
      - by rewrite lookup_insert_ne. }
    assert (Hidx : forall k', header_get (header_index h k').2 k = header_get h k).
    { intros k'. unfold header_index. destruct (h !! k') as [v'|] eqn:E; [done|]. simpl. rewrite Hins.
      destruct (decide (k' = k)) as [->|]; [|done]. unfold header_get. by rewrite E. }
    destruct o as [k' v'|k'|k' v'| |n|s|s|b|c].
    - by eapply Hst; [..|apply Hins].
    - apply IH. cbn [header_step]. rewrite Hidx, Hh, omap_app. simpl. by rewrite app_nil_r.
    - eapply Hst; [done..|]. cbn [header_step]. unfold header_index_set, header_get.
      destruct (decide (k' = k)) as [->|].
      + by rewrite lookup_insert.
      + rewrite lookup_insert_ne by done. apply Hidx.
    - apply IH. done.
    - by eapply Hst; [..|apply Hins].
    - by eapply Hst; [..|apply Hins].
    - by eapply Hst; [..|apply Hins].
    - by eapply Hst; [..|apply Hins].
    - apply IH. cbn [header_step]. rewrite omap_app. simpl. rewrite app_nil_r, <- Hh.
      unfold header_set_cookie, header_get. destruct (h !! B "Set-Cookie"); by rewrite lookup_insert_ne. }
  apply H. done.
Qed.

(** ** C15 *)

(** [t] is what ToString prints, without the terminating blank line. *)
Definition header_round_trip_full : Prop := forall it h t,
  valid_order it -> h <> ∅ -> map_Forall (fun k v => carried (k, v)) h ->
  header_to_string it h = t ++ CRLF ++ CRLF -> fits t ->
  header_parse ∅ t = Ok (kSuccess, h).

(** An empty value is read back as ":". *)
Theorem header_round_trip_refuted : ~ header_round_trip_full.
Proof.
  intros H. specialize (H map_to_list {[ B "X-Empty" := [] ]} (B "X-Empty: ") valid_order_sorted).
  assert (Hx : header_parse ∅ (B "X-Empty: ") = Ok (kSuccess, {[ B "X-Empty" := [] ]})).
  { apply H.
    - intros E. apply (f_equal (fun m => m !! B "X-Empty")) in E. by vm_compute in E.
    - apply map_Forall_singleton. repeat split; [by_compute| | |done];
        intros Hc; by apply find_idx_None_contains in Hc.
    - by vm_compute.
    - by vm_compute. }
  vm_compute in Hx. congruence.
Qed.

(** What is missing is the empty value only. *)
Theorem header_round_trip_partial : forall it h t,
  valid_order it -> h <> ∅ -> map_Forall (fun k v => carried (k, v) /\ v <> []) h ->
  header_to_string it h = t ++ CRLF ++ CRLF -> fits t ->
  header_parse ∅ t = Ok (kSuccess, h).
Proof. exact header_print_parse. Qed.

(** The missing case exactly: a value of [n] spaces (or none) is stored as a
    colon followed by the spaces. *)
Theorem header_parse_blank_value : forall h k n,
  ":"%char ∉ k -> one_line k -> fits (k ++ ":"%char :: replicate n SP) ->
  header_parse h (k ++ ":"%char :: replicate n SP) =
    Ok (kSuccess, <[k := ":"%char :: replicate n SP]> h).
Proof.
  intros h k n Hk Hl Hf.
  apply (header_parse_fields h [k ++ ":"%char :: replicate n SP] [(k, ":"%char :: replicate n SP)]);
    [done|done| |].
  - constructor; [|constructor]. intros Hc.
    apply contains_pair_app in Hc as [Hc|Hc]; [done| |done..].
    destruct Hc as (a & b & E). assert (H : CR ∈ replicate n SP) by (rewrite E; set_solver).
    by apply elem_of_replicate_inv in H.
  - constructor; [by apply sf_blank|constructor].
Qed.

(** What Parse makes of any block of fields with non-empty values. *)
Theorem header_parse_reads_fields : forall h (lines : list bytes) (kvs : list (bytes * bytes)),
  fits (join CRLF lines) -> lines <> [] -> Forall one_line lines ->
  Forall2 header_field lines kvs -> Forall (fun kv => kv.2 <> []) kvs ->
  exists h', header_parse h (join CRLF lines) = Ok (kSuccess, h') /\
    forall k, h' !! k = match last_val kvs k with Some v => Some v | None => h !! k end.
Proof.
  intros h lines kvs Hf Hne Hl HF Hv. eexists. split.
  - apply header_parse_fields; [done..|]. by apply fields_stored.
  - intros k. apply insert_all_lookup.
Qed.

Theorem header_parse_never_crashes : forall h s, fits s -> is_ok (header_parse h s).
Proof. intros h s Hf. destruct (header_parse_total h s Hf) as (rc & h' & H). by eexists. Qed.

(** A line without a colon stops the parse with an error; the fields of the
    lines before it have been stored, those after it have not. *)
Theorem header_parse_stops_at_bad_line :
  forall h (good : list bytes) (bad : bytes) (rest : list bytes) (kvs : list (bytes * bytes)),
  fits (join CRLF (good ++ bad :: rest)) -> join CRLF (good ++ bad :: rest) <> [] ->
  Forall one_line (good ++ bad :: rest) ->
  Forall2 header_field good kvs -> Forall (fun kv => kv.2 <> []) kvs -> ":"%char ∉ bad ->
  exists h', header_parse h (join CRLF (good ++ bad :: rest)) = Ok (kLogicErr, h') /\
    forall k, h' !! k = match last_val kvs k with Some v => Some v | None => h !! k end.
Proof.
  intros h good bad rest kvs Hf Hne Hl HF Hv Hb. eexists. split.
  - rewrite (header_parse_pieces _ _ (good ++ bad :: rest)); [|done|done|].
    + apply header_lines_bad; [|..|done].
      * apply join_fits_all in Hf. by apply Forall_app in Hf as [? _].
      * by apply fields_stored.
    + apply pieces_join_crlf; [by destruct good|done].
  - intros k. apply insert_all_lookup.
Qed.

(** ** C16 *)
Theorem content_length_set_get : forall h (n : Z),
  (0 <= n <= int_max)%Z -> header_get_content_length (header_set_content_length h n) = n.
Proof.
  intros h n Hn. unfold header_get_content_length, header_set_content_length.
  rewrite lookup_insert, stoi_int_to_string; [done|]. unfold int_min, int_max in *. lia.
Qed.

Theorem content_length_missing : forall h,
  h !! B "Content-Length" = None -> header_get_content_length h = (-1)%Z.
Proof. intros h H. unfold header_get_content_length. by rewrite H. Qed.

(** A value whose first byte is no digit, sign or space, and the empty value. *)
Theorem content_length_non_numeric : forall h v,
  h !! B "Content-Length" = Some v ->
  (v = [] \/ exists c r, v = c :: r /\ is_digit c = false /\ is_space c = false /\
     c <> "+"%char /\ c <> "-"%char) ->
  header_get_content_length h = (-1)%Z.
Proof.
  intros h v Hv Hc. unfold header_get_content_length. rewrite Hv.
  destruct Hc as [->|(c & r & -> & Hd & Hs & Hp & Hm)]; [done|].
  unfold stoi. simpl. rewrite Hs.
  destruct (Ascii.eqb_spec c "-") as [->|]; [done|]. destruct (Ascii.eqb_spec c "+") as [->|]; [done|].
  simpl. by rewrite Hd.
Qed.

(** Decimal digits, possibly followed by other text: their value if it fits an
    int, else -1. *)
Theorem content_length_digits : forall h (ds rest : bytes),
  h !! B "Content-Length" = Some (ds ++ rest) ->
  ds <> [] -> Forall (fun c => is_digit c = true) ds ->
  (forall c, head rest = Some c -> is_digit c = false) ->
  header_get_content_length h = if (dec_value ds <=? int_max)%Z then dec_value ds else (-1)%Z.
Proof.
  intros h ds rest Hh Hne Hds Hrest. unfold header_get_content_length. rewrite Hh.
  assert (Hpos : (0 <= dec_value ds)%Z).
  { unfold dec_value. assert (H : forall l a, (0 <= a)%Z -> Forall (fun c => is_digit c = true) l ->
      (0 <= fold_left (fun acc c => (acc * 10 + digit_val c)%Z) l a)%Z).
    { induction l as [|c l IH]; intros a Ha HF; simpl; [done|].
      apply Forall_cons in HF as [Hc HF]. apply IH; [|done].
      unfold is_digit in Hc. unfold digit_val. lia. }
    by apply H. }
  assert (Hp : digits_prefix (ds ++ rest) = ds).
  { rewrite digits_prefix_app by done. destruct rest as [|c rest]; simpl; [by rewrite app_nil_r|].
    rewrite Hrest by done. by rewrite app_nil_r. }
  assert (Hs : stoi (ds ++ rest) = stoi_range (dec_value ds)).
  { unfold stoi. destruct ds as [|c ds]; [done|]. apply Forall_cons in Hds as [Hc Hds].
    cbn [app drop_space] in *. rewrite (digit_not_space _ Hc).
    destruct (digit_not_sign _ Hc) as [-> ->]. by rewrite Hp. }
  rewrite Hs. unfold stoi_range, int_min. destruct (Z.leb_spec (dec_value ds) int_max).
  - by replace (_ && _)%bool with true by lia.
  - by replace (_ && _)%bool with false by lia.
Qed.

(** ** C17 *)
Theorem cookie_lookup : forall h (pcs : list bytes) (cookies : list (bytes * bytes)) key,
  h !! B "Cookie" = Some (join (B ";") pcs) -> fits (join (B ";") pcs) -> pcs <> [] ->
  Forall2 cookie_piece pcs cookies ->
  header_get_cookie_val h key = Ok (default [] (first_val cookies key)).
Proof. exact get_cookie_ok. Qed.

Theorem cookie_lookup_missing : forall h key,
  h !! B "Cookie" = None -> header_get_cookie_val h key = Ok [].
Proof. intros h key H. unfold header_get_cookie_val. by rewrite H. Qed.

(** ** C18 *)

(** Names and values that fit in a Set-Cookie header. *)
Definition good_cookie (c : cookie) : Prop :=
  "="%char ∉ ck_key c /\ ";"%char ∉ ck_key c /\ ";"%char ∉ ck_value c.

Definition every_cookie_delivered_full : Prop := forall (cs : list cookie) c,
  Forall good_cookie cs -> c ∈ cs ->
  exists v, foldl header_set_cookie ∅ cs !! B "Set-Cookie" = Some v /\
    browser_cookie v (ck_key c, ck_value c).

(** What holds: the first cookie, and only it, is delivered. *)
Theorem every_cookie_delivered_partial : forall (c : cookie) (cs : list cookie) h,
  h !! B "Set-Cookie" = None -> good_cookie c ->
  exists v, foldl header_set_cookie h (c :: cs) !! B "Set-Cookie" = Some v /\
    forall kv, browser_cookie v kv <-> kv = (ck_key c, ck_value c).
Proof.
  intros c cs h Hh (H1 & H2 & H3).
  assert (Hc : header_set_cookie h c !! B "Set-Cookie" = Some (cookie_str c)).
  { unfold header_set_cookie. rewrite Hh. by rewrite lookup_insert. }
  destruct (set_cookies_shape cs _ _ Hc) as (rest & Hr & Hrest).
  exists (cookie_str c ++ rest). split; [exact Hr|].
  assert (Hb : browser_cookie (cookie_str c ++ rest) (ck_key c, ck_value c)).
  { destruct (cookie_str_shape c) as (r & -> & Hr'). split; [done|]. split; [done|]. split; [done|].
    exists (r ++ rest). cbn [fst snd]. split; [by rewrite <- !app_assoc; cbn [app]; rewrite <- !app_assoc|].
    destruct Hr' as [->|Hr']; [done|]. right. by destruct r. }
  intros kv. split; [|by intros ->]. intros Hkv. by eapply browser_cookie_det.
Qed.

Theorem every_cookie_delivered_refuted : ~ every_cookie_delivered_full.
Proof.
  intros H.
  pose (c1 := Cookie (B "sid") (B "1") [] [] [] false false).
  pose (c2 := Cookie (B "lang") (B "en") [] [] [] false false).
  assert (Hg : Forall good_cookie [c1; c2]) by (repeat constructor; by_compute).
  destruct (H [c1; c2] c2 Hg) as (v & Hv & Hb); [by right; left|].
  destruct (every_cookie_delivered_partial c1 [c2] ∅) as (v' & Hv' & Hb');
    [done|by apply Forall_cons in Hg as [? _]|].
  rewrite Hv in Hv'. injection Hv' as <-. by apply Hb' in Hb.
Qed.

(** ** C19 *)
Definition content_type_round_trip_full : Prop := forall custom h ct h' custom',
  header_set_content_type custom h ct = (h', custom') -> header_get_content_type h' = ct.

Theorem content_type_round_trip_partial : forall custom h ct h' custom',
  ct <> kCustom -> header_set_content_type custom h ct = (h', custom') ->
  header_get_content_type h' = ct /\ custom' = custom.
Proof.
  intros custom h ct h' custom' Hne H. unfold header_set_content_type in H.
  destruct ct; try done; simpl in H; injection H as <- <-;
    unfold header_get_content_type; rewrite lookup_insert; by vm_compute.
Qed.

Theorem content_type_round_trip_refuted : ~ content_type_round_trip_full.
Proof.
  intros H. destruct (header_set_content_type ∅ ∅ kCustom) as [h' c'] eqn:E.
  specialize (H _ _ _ _ _ E). vm_compute in E. injection E as <- <-. by vm_compute in H.
Qed.

(** The suffixes the library knows itself. *)
Definition builtin_suffixes : list bytes :=
  map B ["html"; "htm"; "txt"; "css"; "less"; "js"; "mjs"; "json"; "png"; "jpg"; "jpeg"; "gif"; "webp"]%string.

Definition custom_type_full : Prop := forall custom ft ct custom',
  set_custom_content_type custom ft ct = custom' ->
  (convert_to_str custom' (convert_file_type custom' ft) ft).1 = ct.

Theorem custom_type_partial : forall custom ft ct custom',
  set_custom_content_type custom ft ct = custom' -> ft ∉ builtin_suffixes ->
  convert_to_str custom' (convert_file_type custom' ft) ft = (ct, custom').
Proof.
  intros custom ft ct custom' <- Hft. unfold set_custom_content_type.
  assert (Hn : forall s, s ∈ builtin_suffixes -> streq ft s = false).
  { intros s Hs. unfold streq. apply bool_decide_false. intros ->. done. }
  unfold convert_file_type.
  rewrite !Hn by by_compute. cbn [orb]. rewrite lookup_insert. simpl. by rewrite lookup_insert.
Qed.

Theorem custom_type_refuted : ~ custom_type_full.
Proof.
  intros H. specialize (H ∅ (B "js") (B "application/javascript") _ eq_refl). by vm_compute in H.
Qed.

(** ** C78 *)
Definition to_lower (c : ascii) : ascii :=
  if ((65 <=? byteN c) && (byteN c <=? 90))%N then ascii_of_N (byteN c + 32) else c.
Definition same_name (a b : bytes) : Prop := map to_lower a = map to_lower b.

Definition header_names_case_insensitive_full : Prop := forall h k1 k2,
  same_name k1 k2 -> header_get h k1 = header_get h k2.

(** A body announced as content-length is not seen. *)
Theorem header_names_case_insensitive_refuted :
  ~ header_names_case_insensitive_full /\
  exists h, header_parse ∅ (B "content-length: 5") = Ok (kSuccess, h) /\
    same_name (B "content-length") (B "Content-Length") /\
    header_get_content_length h = (-1)%Z.
Proof.
  split.
  - intros H. specialize (H {[ B "host" := B "a" ]} (B "host") (B "Host")).
    assert (Hx : same_name (B "host") (B "Host")) by by vm_compute.
    specialize (H Hx). by vm_compute in H.
  - eexists. split; [by vm_compute|]. by vm_compute.
Qed.

Print Assumptions header_get_returns_last_added.
Print Assumptions header_round_trip_refuted.
Print Assumptions header_round_trip_partial.
Print Assumptions header_parse_blank_value.
Print Assumptions header_parse_reads_fields.
Print Assumptions header_parse_never_crashes.
Print Assumptions header_parse_stops_at_bad_line.
Print Assumptions content_length_set_get.
Print Assumptions content_length_missing.
Print Assumptions content_length_non_numeric.
Print Assumptions content_length_digits.
Print Assumptions cookie_lookup.
Print Assumptions cookie_lookup_missing.
Print Assumptions every_cookie_delivered_partial.
Print Assumptions every_cookie_delivered_refuted.
Print Assumptions content_type_round_trip_partial.
Print Assumptions content_type_round_trip_refuted.
Print Assumptions custom_type_partial.
Print Assumptions custom_type_refuted.
Print Assumptions header_names_case_insensitive_refuted.

(** Non-vacuity. *)
Example ex_history_get :
  let ops := [HAdd (B "A") (B "0"); HClear; HAdd (B "A") (B "1"); HIndex (B "B"); HSetHost (B "h");
              HIndexSet (B "A") (B "2"); HSetContentLength 12] in
  header_get (header_run ∅ ops) (B "A") = B "2" /\ header_get (header_run ∅ ops) (B "B") = [] /\
  header_get (header_run ∅ ops) (B "Content-Length") = B "12".
Proof. by vm_compute. Qed.

Example ex_header_round_trip :
  let h : gmap bytes bytes := <[B "Host" := B "example.com:80"]> {[ B "Accept" := B "text/html, */*" ]} in
  h <> ∅ /\ map_Forall (fun k v => carried (k, v) /\ v <> []) h /\
  exists t, header_to_string map_to_list h = t ++ CRLF ++ CRLF /\ fits t.
Proof.
  intros h. split; [|split].
  - intros E. apply (f_equal (fun m => m !! B "Host")) in E. by vm_compute in E.
  - apply map_Forall_to_list.
    assert (E : map_to_list h = [(B "Accept", B "text/html, */*"); (B "Host", B "example.com:80")] \/
                map_to_list h = [(B "Host", B "example.com:80"); (B "Accept", B "text/html, */*")])
      by (vm_compute; auto).
    destruct E as [-> | ->]; repeat constructor; try by_compute;
      intros Hc; by apply find_idx_None_contains in Hc.
  - exists (join CRLF (field_lines (map_to_list h))). split; by vm_compute.
Qed.

Example ex_cookies : exists pcs, join (B ";") pcs = B "a=1; b=2; a=3" /\
  Forall2 cookie_piece pcs [(B "a", B "1"); (B "b", B "2"); (B "a", B "3")].
Proof.
  exists [B "a=1"; B " b=2"; B " a=3"]. split; [by vm_compute|].
  constructor; [exists 0|constructor; [exists 1|constructor; [exists 1|constructor]]];
    (split; [by vm_compute|]); repeat split; by_compute.
Qed.
