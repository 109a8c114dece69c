(** Proofs about requests and responses: the common part. *)
From Verif.Model Require Export Resp.
From Verif.Proof Require Export RouteProof HeaderProof.

(** ** The shape of a message *)
Lemma find_idx_skip n s k i :
  k <= length s -> (forall j, j < k -> ~ n `prefix_of` drop j s) -> find_idx n (drop k s) = Some i ->
  find_idx n s = Some (k + i).
Proof.
  intros Hk Hno Hi. destruct (find_idx_Some _ _ _ Hi) as ([r Hr] & _ & Hmin).
  apply find_idx_unique.
  - rewrite drop_drop in Hr. exists r. done.
  - intros j Hj. destruct (decide (j < k)) as [|Hge]; [by apply Hno|].
    intros Hp. apply (Hmin (j - k)); [lia|]. rewrite drop_drop.
    replace (k + (j - k)) with j by lia. done.
Qed.

Lemma crlf2_prefix s : CRLFCRLF `prefix_of` s -> CRLF `prefix_of` s.
Proof. intros [r ->]. by exists (CRLF ++ r). Qed.

Lemma first_crlf_min first rest j :
  one_line first -> j < length first -> ~ CRLF `prefix_of` drop j (first ++ CRLF ++ rest).
Proof.
  intros H1 Hj. destruct (find_idx_Some CRLF (first ++ CRLF ++ rest) (length first)) as (_ & _ & H).
  - by apply find_idx_pair.
  - by apply H.
Qed.

Lemma message_find_crlf s first hdrs body :
  message s first hdrs body -> find_idx CRLF s = Some (length first).
Proof. intros (-> & H1 & _). by apply find_idx_pair. Qed.

Lemma crlf_not_prefix_line l rest :
  one_line l -> l <> [] -> ~ CRLF `prefix_of` l ++ CRLF ++ rest.
Proof.
  intros Hl Hne. apply (first_crlf_min l rest 0 Hl). destruct l; [done|]. simpl. lia.
Qed.

Lemma message_find_crlf2 s first hdrs body :
  message s first hdrs body ->
  find_idx CRLFCRLF s = Some (length first + length (crlf_lines hdrs)).
Proof.
  intros (-> & H1 & HF). revert first H1. induction HF as [|l ls [Hl Hne] HF IH]; intros first H1.
  - cbn. rewrite Nat.add_0_r. apply (find_idx_unique CRLFCRLF).
    + exists body. by rewrite drop_app.
    + intros j Hj Hp. apply crlf2_prefix in Hp. by apply (first_crlf_min first (CRLF ++ body) j).
  - unfold crlf_lines. cbn [map concat]. rewrite <- !app_assoc.
    fold (crlf_lines ls).
    replace (length first + length (l ++ CRLF ++ crlf_lines ls)) with
      ((length first + 2) + (length l + length (crlf_lines ls)))
      by (rewrite !app_length; simpl; lia).
    specialize (IH l Hl).
    apply find_idx_skip.
    + rewrite !app_length. simpl. lia.
    + intros j Hj Hp. destruct (decide (j < length first)) as [|Hge].
      { apply crlf2_prefix in Hp. by eapply first_crlf_min. }
      destruct (decide (j = length first)) as [->|].
      { rewrite drop_app in Hp. destruct Hp as [r Hr].
        change (CRLFCRLF ++ r) with (CRLF ++ CRLF ++ r) in Hr. apply app_inv_head in Hr.
        apply (crlf_not_prefix_line l (crlf_lines ls ++ CRLF ++ body)); [done|done|].
        rewrite Hr. by exists r. }
      assert (j = length first + 1) as -> by lia.
      destruct Hp as [r Hr]. rewrite <- drop_drop, drop_app in Hr. simpl in Hr. done.
    + rewrite <- drop_drop, drop_app. exact IH.
Qed.

Lemma message_exists n s :
  length s <= n -> contains CRLFCRLF s -> exists first hdrs body, message s first hdrs body.
Proof.
  revert s. induction n as [|n IH]; intros s Hn (a & b & Hs).
  - destruct s; [|simpl in Hn; lia]. by destruct a.
  - destruct (find_idx CRLF s) as [i|] eqn:Ei.
    2:{ apply find_idx_None_contains in Ei. exfalso. apply Ei. subst s.
        by exists a, (CRLF ++ b). }
    pose proof (find_idx_split _ _ _ Ei) as Hsplit.
    pose proof (find_idx_before CRLF _ _ ltac:(done) Ei) as Hone.
    pose proof (find_idx_bound _ _ _ Ei) as Hb.
    set (first := take i s) in *. set (T := drop (i + length CRLF) s) in *.
    assert (Hlf : length first = i) by (unfold first; rewrite take_length; simpl in Hb; lia).
    destruct (starts_with CRLF T) eqn:Hst.
    + apply starts_with_prefix in Hst as [body Hbody].
      exists first, [], body. split; [by rewrite Hsplit, Hbody|]. split; [exact Hone|constructor].
    + assert (HT : contains CRLFCRLF T).
      { assert (Hp : CRLFCRLF `prefix_of` drop (length a) s) by (exists b; by rewrite Hs, drop_app).
        destruct (decide (length a < i)) as [Hlt|Hge].
        { exfalso. apply crlf2_prefix in Hp. rewrite Hsplit in Hp.
          apply (first_crlf_min first T (length a)); [exact Hone|lia|exact Hp]. }
        destruct (decide (length a = i)) as [Heq|Hne].
        { exfalso. rewrite Heq, Hsplit in Hp. rewrite <- Hlf, drop_app in Hp. destruct Hp as [r Hr].
          change (CRLFCRLF ++ r) with (CRLF ++ CRLF ++ r) in Hr. apply app_inv_head in Hr.
          assert (H : starts_with CRLF T = true) by (rewrite Hr; by apply starts_with_app). congruence. }
        destruct (decide (length a = i + 1)) as [Heq|Hne'].
        { exfalso. rewrite Heq, Hsplit in Hp. rewrite <- Hlf in Hp. rewrite <- drop_drop, drop_app in Hp.
          destruct Hp as [r Hr]. simpl in Hr. done. }
        destruct Hp as [r Hr]. exists (drop (i + 2) a), b. unfold T. simpl length.
        rewrite Hs, drop_app_le by lia. done. }
      destruct (IH T) as (l & ls & body & Hm); [|done|].
      { unfold T. rewrite drop_length. simpl in *. lia. }
      destruct Hm as (HTe & Hl & HF).
      exists first, (l :: ls), body. split; [|split; [exact Hone|]].
      * rewrite Hsplit, HTe. unfold crlf_lines. cbn [map concat]. by rewrite <- !app_assoc.
      * constructor; [|done]. split; [done|]. intros ->. rewrite HTe in Hst. done.
Qed.

(** ** The header block handed to the header parser *)
Lemma leading_fields_exists ls : exists kvs, leading_fields ls kvs.
Proof.
  induction ls as [|l ls [kvs IH]]; [exists []; constructor|].
  destruct (decide (":"%char ∈ l)) as [Hin|Hin].
  - destruct (stored_field_exists _ Hin) as [kv Hkv]. exists (kv :: kvs). by constructor.
  - exists []. by constructor.
Qed.

Lemma header_lines_leading h ls kvs bad more :
  Forall fits ls -> leading_fields ls kvs -> ":"%char ∉ bad ->
  header_lines h (ls ++ bad :: more) = Ok (kLogicErr, insert_all h kvs).
Proof.
  intros Hf HL Hb. revert h Hf. induction HL as [|l ls Hl|l ls [k v] kvs Hl HL IH]; intros h Hf.
  - cbn [app header_lines]. by rewrite header_line_none.
  - cbn [app header_lines]. by rewrite header_line_none.
  - apply Forall_cons in Hf as [Hf1 Hf]. cbn [app header_lines].
    rewrite (header_line_ok _ _ Hf1 Hl). cbn [mbind outcome_bind]. by rewrite IH.
Qed.

Lemma pieces_crlf_lines ls z pz :
  Forall one_line ls -> pieces CRLF z pz -> pieces CRLF (crlf_lines ls ++ z) (ls ++ pz).
Proof.
  intros HF Hz. induction HF as [|l ls Hl HF IH]; [done|].
  unfold crlf_lines. cbn [map concat app]. rewrite <- !app_assoc. constructor; [|exact IH].
  intros j Hj. by apply first_crlf_min.
Qed.

(** The text after the header lines that is still part of the block. *)
Lemma block_tail_pieces (n : nat) body :
  fits body -> exists bad more, pieces CRLF (take n (CRLF ++ body)) (bad :: more) /\ ":"%char ∉ bad.
Proof.
  intros Hf. destruct n as [|[|n]].
  - exists [], []. split; [|by_compute]. constructor. by apply contains_nil.
  - exists [CR], []. split; [|by_compute]. simpl. constructor. intros Hc.
    by apply find_idx_None_contains in Hc.
  - destruct (split_spec (take n body) CRLF [] false) as (l & Hl & _); [by apply fits_take|done|].
    exists [], l. split; [|by_compute].
    change (take (S (S n)) (CRLF ++ body)) with ([] ++ CRLF ++ take n body).
    constructor; [|done]. intros j Hj. simpl in Hj. lia.
Qed.

Lemma take_app_plus {A} (a b : list A) n : take (length a + n) (a ++ b) = a ++ take n b.
Proof. by rewrite firstn_app_2. Qed.

Lemma header_parse_block h first hdrs body kvs :
  fits (first ++ CRLF ++ crlf_lines hdrs ++ CRLF ++ body) ->
  Forall (fun l => one_line l /\ l <> []) hdrs -> leading_fields hdrs kvs ->
  header_parse h (take (length first + length (crlf_lines hdrs)) (crlf_lines hdrs ++ CRLF ++ body)) =
    Ok (kLogicErr, insert_all h kvs).
Proof.
  intros Hf HF HL.
  replace (length first + length (crlf_lines hdrs)) with (length (crlf_lines hdrs) + length first) by lia.
  rewrite take_app_plus.
  assert (Hfb : fits body) by by do 4 apply fits_app_r in Hf.
  destruct (block_tail_pieces (length first) body Hfb) as (bad & more & Hp & Hbad).
  set (z := take (length first) (CRLF ++ body)) in *.
  assert (Hfz : fits (crlf_lines hdrs ++ z)).
  { unfold z. rewrite <- take_app_plus. apply fits_take. by do 2 apply fits_app_r in Hf. }
  destruct hdrs as [|l ls].
  - inversion HL; subst. cbn [crlf_lines map concat app]. destruct z as [|c z'] eqn:Ez; [done|].
    rewrite (header_parse_pieces _ _ (bad :: more)); [|done|done|done].
    cbn [header_lines]. by rewrite header_line_none.
  - assert (Hl : Forall one_line (l :: ls)) by (eapply Forall_impl; [exact HF|]; by intros ? [? _]).
    pose proof (pieces_crlf_lines _ _ _ Hl Hp) as Hpp.
    rewrite (header_parse_pieces _ _ ((l :: ls) ++ bad :: more)); [|done| |done].
    + apply header_lines_leading; [|done|done].
      pose proof (pieces_fits _ _ _ Hfz Hpp) as Hall. by apply Forall_app in Hall as [? _].
    + apply Forall_cons in HF as [[_ Hne] _]. unfold crlf_lines. simpl. by destruct l.
Qed.
