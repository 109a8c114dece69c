(** C234: how many bytes HttpServer::HandleRead
    (src/cppnet/http/server/http_server.cpp:279-411) takes for the body of a request, for
    all header lines, and what RFC 9112 (6.3) asks. *)
From Coq Require Import ZifyBool.
From Verif.Lib Require Import DecFacts.
From Verif.Proof Require Import ServerProof.
From Verif.Props Require Import MessageProps RouterProps ServerProps HttpRulesProps.

(** * Numbers as C reads them *)

Definition digit (c : ascii) : Prop := c ∈ B "0123456789".
Definition white (c : ascii) : Prop := c ∈ [SP; "009"; "010"; "011"; "012"; "013"]%char.
(** The number that decimal digits say. *)
Definition says (ds : bytes) : Z := foldl (fun n c => (10 * n + (Z.of_N (byteN c) - 48))%Z) 0%Z ds.
(** [v] is white space, a sign or none, digits, and anything; the number is an int. *)
Definition c_number (v : bytes) (z : Z) : Prop := exists ws sign ds rest,
  v = ws ++ sign ++ ds ++ rest /\ Forall white ws /\ (sign = [] \/ sign = B "+" \/ sign = B "-") /\
  ds <> [] /\ Forall digit ds /\ (forall c, head rest = Some c -> ~ digit c) /\
  z = (if decide (sign = B "-") then - says ds else says ds)%Z /\ (- 2 ^ 31 <= z < 2 ^ 31)%Z.

Lemma digit_is c : is_digit c = true <-> digit c.
Proof. unfold digit. destruct c as [[] [] [] [] [] [] [] []]; split; intros H; first [by vm_compute in H | by_compute | (exfalso; revert H; by_compute)]. Qed.
Lemma white_is c : is_space c = true <-> white c.
Proof. unfold white. destruct c as [[] [] [] [] [] [] [] []]; split; intros H; first [by vm_compute in H | by_compute | (exfalso; revert H; by_compute)]. Qed.
Lemma says_is ds : dec_value ds = says ds.
Proof.
  unfold dec_value, says, digit_val. generalize 0%Z as n. induction ds as [|c ds IH]; intros n; [done|].
  cbn [fold_left foldl]. rewrite IH. f_equal. lia.
Qed.

Lemma drop_space_split s : exists ws, s = ws ++ drop_space s /\ Forall white ws /\ (forall c, head (drop_space s) = Some c -> ~ white c).
Proof.
  induction s as [|c s (ws & IH1 & IH2 & IH3)]; [by exists []|]. cbn [drop_space]. destruct (is_space c) eqn:E.
  - exists (c :: ws). split; [cbn; by f_equal|]. split; [|done]. constructor; [by apply white_is|done].
  - exists []. split; [done|]. split; [constructor|]. intros c' [= <-] H. apply white_is in H. congruence.
Qed.
Lemma drop_space_white ws s : Forall white ws -> (forall c, head s = Some c -> ~ white c) -> drop_space (ws ++ s) = s.
Proof.
  induction 1 as [|c ws Hc HF IH]; intros Hs; cbn [app drop_space].
  - destruct s as [|c s]; [done|]. cbn [drop_space]. destruct (is_space c) eqn:E; [|done]. exfalso. apply (Hs c eq_refl). by apply white_is.
  - apply white_is in Hc. rewrite Hc. by apply IH.
Qed.
Lemma digits_split s : exists rest, s = digits_prefix s ++ rest /\ Forall digit (digits_prefix s) /\ (forall c, head rest = Some c -> ~ digit c).
Proof.
  induction s as [|c s (rest & IH1 & IH2 & IH3)]; [exists []; split; [done|]; by split; [constructor|]|]. cbn [digits_prefix]. destruct (is_digit c) eqn:E.
  - exists rest. split; [cbn; by f_equal|]. split; [|done]. constructor; [by apply digit_is|done].
  - exists (c :: s). split; [done|]. split; [constructor|]. intros c' [= <-] H. apply digit_is in H. congruence.
Qed.
Lemma digits_stop ds rest : Forall digit ds -> (forall c, head rest = Some c -> ~ digit c) -> digits_prefix (ds ++ rest) = ds.
Proof.
  induction 1 as [|c ds Hc HF IH]; intros Hr; cbn [app digits_prefix].
  - destruct rest as [|c rest]; [done|]. cbn [digits_prefix]. destruct (is_digit c) eqn:E; [|done]. exfalso. apply (Hr c eq_refl). by apply digit_is.
  - apply digit_is in Hc. rewrite Hc. f_equal. by apply IH.
Qed.
Lemma range_is z z' : stoi_range z = Ok z' <-> z' = z /\ (- 2 ^ 31 <= z < 2 ^ 31)%Z.
Proof.
  unfold stoi_range, int_min, int_max. destruct (_ && _) eqn:E.
  - split; [intros [= ->]; lia|]. intros [-> _]. done.
  - split; [done|]. intros [_ H]. lia.
Qed.

(** std::stoi reads exactly those. *)
Lemma stoi_reads v z : stoi v = Ok z <-> c_number v z.
Proof.
  split.
  - intros H. unfold stoi in H. destruct (drop_space_split v) as (ws & Ev & Hws & _). revert Ev H. generalize (drop_space v) as s1. intros s1 -> H.
    destruct (match s1 with [] => _ | _ => _ end) as [neg s2] eqn:E2.
    destruct (digits_split s2) as (rest & Er & Hds & Hrest).
    assert (Hs : exists sign, s1 = sign ++ s2 /\ (sign = [] \/ sign = B "+" \/ sign = B "-") /\ (sign = B "-" <-> neg = true)).
    { destruct s1 as [|c s1].
      - injection E2 as <- <-. exists []. split; [done|]. split; [by left|]. done.
      - destruct (Ascii.eqb c "-") eqn:Em; [|destruct (Ascii.eqb c "+") eqn:Ep]; injection E2 as <- <-.
        + apply Ascii.eqb_eq in Em as ->. exists (B "-"). split; [done|]. split; [by right; right|]. done.
        + apply Ascii.eqb_eq in Ep as ->. exists (B "+"). split; [done|]. split; [by right; left|]. done.
        + exists []. split; [done|]. split; [by left|]. done. }
    destruct Hs as (sign & -> & Hsign & Hneg).
    destruct (digits_prefix s2) as [|d ds] eqn:Ed; [done|]. rewrite Er. exists ws, sign, (d :: ds), rest.
    apply range_is in H as [-> Hr]. split; [done|]. split; [done|]. split; [done|]. split; [done|]. split; [done|]. split; [done|].
    rewrite !says_is in *. destruct neg.
    + rewrite decide_True by by apply Hneg. done.
    + rewrite decide_False; [done|]. intros Hx. apply Hneg in Hx. done.
  - intros (ws & sign & ds & rest & -> & Hws & Hsign & Hne & Hds & Hrest & Hz & Hr).
    destruct ds as [|d ds]; [done|].
    assert (Hd : digit d) by by apply Forall_cons in Hds as [? _].
    assert (Hd' : is_digit d = true) by by apply digit_is.
    unfold stoi. rewrite drop_space_white; [|done|].
    + destruct (digit_not_sign _ Hd') as [Hm Hp].
      destruct Hsign as [->|[->| ->]]; cbn [app B] in *.
      * rewrite Hm, Hp. change (d :: ds ++ rest) with ((d :: ds) ++ rest). rewrite digits_stop by done. apply range_is.
        rewrite says_is. rewrite decide_False in Hz by done. subst z. by split.
      * change (B "+") with ["+"%char]. cbn [app]. change (Ascii.eqb "+" "-") with false. change (Ascii.eqb "+" "+") with true. cbv iota beta zeta.
        change (d :: ds ++ rest) with ((d :: ds) ++ rest). rewrite digits_stop by done. apply range_is.
        rewrite says_is. rewrite decide_False in Hz by done. subst z. by split.
      * change (B "-") with ["-"%char]. cbn [app]. change (Ascii.eqb "-" "-") with true. cbv iota beta zeta.
        change (d :: ds ++ rest) with ((d :: ds) ++ rest). rewrite digits_stop by done. apply range_is.
        rewrite says_is. rewrite decide_True in Hz by done. subst z. by split.
    + intros c Hc Hw. apply white_is in Hw.
      destruct Hsign as [->|[->| ->]]; injection Hc as <-; [|by vm_compute in Hw..].
      rewrite (digit_not_space _ Hd') in Hw. done.
Qed.

Lemma says_pos ds : Forall digit ds -> (0 <= says ds)%Z.
Proof.
  unfold says. assert (H : forall n, (0 <= n)%Z -> Forall digit ds -> (0 <= foldl (fun n c => (10 * n + (Z.of_N (byteN c) - 48))%Z) n ds)%Z).
  { induction ds as [|c ds IH]; intros n Hn HF; [done|]. apply Forall_cons in HF as [Hc HF]. cbn [foldl]. apply IH; [|done].
    apply digit_is in Hc. unfold is_digit in Hc. lia. }
  intros HF. by apply H.
Qed.

(** * How much is taken *)

(** The number of bytes taken for the body, given the header fields: the number that the
    value of the last Content-Length begins with, if it is positive. *)
Definition taken (kvs : list (bytes * bytes)) (n : nat) : Prop :=
  (exists v z, last_val kvs (B "Content-Length") = Some v /\ c_number v z /\ (0 < z)%Z /\ n = Z.to_nat z) \/
  (n = 0 /\ forall v z, last_val kvs (B "Content-Length") = Some v -> c_number v z -> (z <= 0)%Z).

(** Whatever the header lines are, the request is handed to the handlers with as many bytes
    as that, and what follows is read as the next request. *)
Theorem framing_exact : forall hit ro e head hdrs kvs path body wr l t,
  register [] [] recorder router_new = Ok (kSuccess, ro) ->
  request_head head hdrs path -> leading_fields hdrs kvs -> taken kvs (length body) -> short (head ++ body) -> NUL ∉ body ->
  exists r, rt_path (rq_route r) = path /\ rq_body r = body /\
    handle_read hit wr ro e wr0 (Stream (map Byte (head ++ body) ++ l) t) = respond hit wr resp_new e (seen r) (Stream l t).
Proof.
  intros hit ro e head hdrs kvs path body wr l t Hro (first & m & tg & v & params & Hm & Hl & Hk & Hv & Htg & Hu & Ha) HL Htk Hs Hnul.
  assert (Hsh : short head) by (unfold short in *; rewrite app_length in Hs; lia).
  destruct (request_parse_reads req_new head first hdrs [] m tg v path params kvs Hsh Hm Hl Hk Hv Htg Hu HL) as (r0 & Hp & _ & _ & Hpa & Hb & _ & Hh).
  set (r := Req (rq_method r0) (rq_version r0) (rq_header r0) (rq_route r0) body).
  destruct (message_head _ _ _ _ Hm) as (Et & _). rewrite app_nil_r in Et.
  assert (Hm' : message (head ++ body) first hdrs body).
  { destruct Hm as (-> & H1 & H2). split; [by rewrite <- !app_assoc|]. done. }
  assert (E : handle_read hit wr ro e wr0 (Stream (map Byte (head ++ body) ++ l) t) = answer hit wr ro r e wr0 (Stream l t)).
  { apply (handle_read_message hit wr ro e wr0 (head ++ body) first hdrs r l t Hs).
    - done.
    - by exists m, tg, v.
    - done.
    - rewrite <- Et, Hp. unfold r. destruct r0; cbn in Hb |- *. by subst.
    - unfold header_get_content_length. change (rq_header r) with (rq_header r0). rewrite Hh. cbn [rq_header req_new].
      destruct Htk as [(x & z & Hx & Hc & Hpos & Hn)|[Hn Hx]].
      + left. rewrite Hx. apply stoi_reads in Hc. rewrite Hc. unfold r. cbn [rq_body]. rewrite Hn. lia.
      + right. split; [by apply nil_length_inv|]. destruct (last_val kvs _) as [x|]; [|cbn; rewrite lookup_empty; lia].
        destruct (stoi x) as [z| | | | |] eqn:Ez; try lia. by apply (Hx x z eq_refl), stoi_reads. }
  destruct recorder_dispatch as (ro' & Hro' & Hdis). rewrite Hro in Hro'. injection Hro' as <-.
  rewrite <- Hpa in Ha.
  rewrite (answer_ok _ _ _ _ _ _ _ _ _ (Hdis _ (ctx_new r resp_new) wr0 Ha eq_refl)) in E.
  exists r. by split.
Qed.

Lemma taken_exists kvs : exists n, taken kvs n.
Proof.
  destruct (last_val kvs (B "Content-Length")) as [v|] eqn:E.
  - destruct (stoi v) as [z| | | | |] eqn:Ez.
    + destruct (Z.ltb_spec 0 z).
      * exists (Z.to_nat z). left. exists v, z. rewrite <- stoi_reads. done.
      * exists 0. right. split; [done|]. intros v' z' Ev Hc. rewrite E in Ev. injection Ev as <-. apply stoi_reads in Hc. rewrite Ez in Hc. injection Hc as <-. done.
    + exists 0. right. split; [done|]. intros v' z' Ev Hc. rewrite E in Ev. injection Ev as <-. apply stoi_reads in Hc. by rewrite Ez in Hc.
    + exists 0. right. split; [done|]. intros v' z' Ev Hc. rewrite E in Ev. injection Ev as <-. apply stoi_reads in Hc. by rewrite Ez in Hc.
    + exists 0. right. split; [done|]. intros v' z' Ev Hc. rewrite E in Ev. injection Ev as <-. apply stoi_reads in Hc. by rewrite Ez in Hc.
    + exists 0. right. split; [done|]. intros v' z' Ev Hc. rewrite E in Ev. injection Ev as <-. apply stoi_reads in Hc. by rewrite Ez in Hc.
    + exists 0. right. split; [done|]. intros v' z' Ev Hc. rewrite E in Ev. injection Ev as <-. apply stoi_reads in Hc. by rewrite Ez in Hc.
  - exists 0. right. split; [done|]. intros v z Hv. congruence.
Qed.

(** * What RFC 9112 (6.3) asks *)

Definition names_length (kv : bytes * bytes) : Prop := lower kv.1 = B "content-length".
(** The length that the fields say, or none: then the request has to be refused. (Lists of
    equal numbers may be read or refused; they are left out.) *)
Inductive rfc_body (kvs : list (bytes * bytes)) : option nat -> Prop :=
| rb_none : Forall (fun kv => ~ names_length kv) kvs -> rfc_body kvs (Some 0)
| rb_some kv ds : kv ∈ kvs -> names_length kv -> Forall (fun kv => names_length kv -> kv.2 = ds) kvs ->
    ds <> [] -> Forall digit ds -> rfc_body kvs (Some (Z.to_nat (says ds)))
| rb_bad kv : kv ∈ kvs -> names_length kv -> ~ Forall digit kv.2 -> ","%char ∉ kv.2 -> rfc_body kvs None
| rb_differ kv kv' : kv ∈ kvs -> kv' ∈ kvs -> names_length kv -> names_length kv' -> kv.2 <> kv'.2 -> rfc_body kvs None.

Definition framed (spelled : bytes * bytes -> Prop) : Prop := forall hit ro e head hdrs kvs path body k l t,
  valid_order hit -> register [] [] recorder router_new = Ok (kSuccess, ro) ->
  request_head head hdrs path -> Forall2 header_field hdrs kvs -> Forall (fun kv => kv.2 <> []) kvs -> Forall spelled kvs ->
  rfc_body kvs (Some (length body)) -> short (head ++ body) -> NUL ∉ body ->
  exists r out, rq_body r = body /\
    handle_read hit (WTake k) ro e wr0 (Stream (map Byte (head ++ body) ++ l) t) = Ok (Served (seen r) (Stream l t) [out] (take k out) false).
Definition refused : Prop := forall hit ro e head hdrs kvs path wr l t v,
  valid_order hit -> register [] [] recorder router_new = Ok (kSuccess, ro) ->
  request_head head hdrs path -> Forall2 header_field hdrs kvs -> Forall (fun kv => kv.2 <> []) kvs -> rfc_body kvs None ->
  handle_read hit wr ro e wr0 (Stream (map Byte head ++ l) t) = Ok v -> w_user (sv_world v) = [].
Definition framing_full : Prop := framed (fun _ => True) /\ refused.

Lemma fields_lead hdrs kvs : Forall2 header_field hdrs kvs -> Forall (fun kv => kv.2 <> []) kvs -> leading_fields hdrs kvs.
Proof.
  induction 1 as [|h kv hdrs kvs Hh HF IH]; intros Hv; [constructor|]. apply Forall_cons in Hv as [Hv1 Hv]. constructor; [by constructor|by apply IH].
Qed.

Definition plainly_spelled (kv : bytes * bytes) : Prop := names_length kv -> kv.1 = B "Content-Length".
Lemma rfc_taken kvs n : Forall plainly_spelled kvs -> (Z.of_nat n < 2 ^ 31)%Z -> rfc_body kvs (Some n) -> taken kvs n.
Proof.
  intros Hsp Hn H. inversion H as [Hno|kv ds Hin Hnm Hall Hne Hds| |]; subst.
  - right. split; [done|]. intros v z Hv. apply last_val_In in Hv. rewrite Forall_forall in Hno. exfalso. by apply (Hno _ Hv).
  - destruct (last_val kvs (B "Content-Length")) as [v|] eqn:E.
    + assert (v = ds) as ->. { apply last_val_In in E. rewrite Forall_forall in Hall. by apply (Hall _ E). }
      assert (Hc : forall z, c_number ds z <-> z = says ds).
      { intros z. rewrite <- stoi_reads. assert (HF : Forall (fun c => is_digit c = true) ds) by (eapply Forall_impl; [exact Hds|]; intros c; apply digit_is).
        rewrite (stoi_digits ds HF Hne), range_is, says_is. split; [by intros [-> _]|]. intros ->. split; [done|].
        pose proof (says_pos ds Hds). lia. }
      destruct (Z.ltb_spec 0 (says ds)) as [Hp|Hp].
      * left. exists ds, (says ds). split; [done|]. split; [by apply Hc|]. done.
      * right. split; [lia|]. intros v z Hv Hz. rewrite E in Hv. injection Hv as <-. apply Hc in Hz. lia.
    + exfalso. rewrite Forall_forall in Hsp. pose proof (Hsp _ Hin Hnm) as Hk. revert E. destruct kv as [k v]. cbn in Hk. subst k. clear -Hin.
      induction kvs as [|[k' v'] kvs IH]; [by apply elem_of_nil in Hin|]. cbn [last_val]. apply elem_of_cons in Hin as [[= <- <-]|Hin].
      * destruct (last_val kvs _); [done|]. by rewrite decide_True.
      * specialize (IH Hin). by destruct (last_val kvs _).
Qed.

(** Missing: names in other cases than the library's, and the second half. *)
Theorem framing_partial : framed plainly_spelled.
Proof.
  intros hit ro e head hdrs kvs path body k l t Hit Hro Hh HF Hv Hsp Hr Hs Hnul.
  assert (Hn : (Z.of_nat (length body) < 2 ^ 31)%Z) by (unfold short in Hs; rewrite app_length in Hs; lia).
  destruct (framing_exact hit ro e head hdrs kvs path body (WTake k) l t Hro Hh (fields_lead _ _ HF Hv) (rfc_taken _ _ Hsp Hn Hr) Hs Hnul) as (r & _ & Hb & E).
  destruct (respond_new hit (WTake k) e r (Stream l t) Hit) as (out & sent & cl & E1 & Hcl & Ht); [done|].
  destruct cl; [discriminate (proj1 Hcl eq_refl)|]. rewrite E1, (Ht k eq_refl) in E. by exists r, out.
Qed.

(** No header line makes the server refuse a request: when what it takes for the body has
    arrived, the handlers see it. *)
Theorem never_refused : forall hit ro e head hdrs path k t,
  valid_order hit -> register [] [] recorder router_new = Ok (kSuccess, ro) -> request_head head hdrs path ->
  exists n, forall body l, length body = n -> short (head ++ body) -> NUL ∉ body ->
    exists r out, rt_path (rq_route r) = path /\ rq_body r = body /\
      handle_read hit (WTake k) ro e wr0 (Stream (map Byte (head ++ body) ++ l) t) = Ok (Served (seen r) (Stream l t) [out] (take k out) false).
Proof.
  intros hit ro e head hdrs path k t Hit Hro Hh. destruct (leading_fields_exists hdrs) as [kvs HL]. destruct (taken_exists kvs) as [n Hn].
  exists n. intros body l <- Hs Hnul.
  destruct (framing_exact hit ro e head hdrs kvs path body (WTake k) l t Hro Hh HL Hn Hs Hnul) as (r & Hp & Hb & E).
  destruct (respond_new hit (WTake k) e r (Stream l t) Hit) as (out & sent & cl & E1 & Hcl & Ht); [done|].
  destruct cl; [discriminate (proj1 Hcl eq_refl)|]. rewrite E1, (Ht k eq_refl) in E. by exists r, out.
Qed.

Lemma text_fields kvs : Forall plain_field kvs -> Forall2 header_field (field_lines kvs) kvs /\ Forall (fun kv => kv.2 <> []) kvs.
Proof.
  induction 1 as [|kv kvs (H1 & H2 & H3 & H4 & H5) HF [IH1 IH2]]; [split; constructor|]. cbn [field_lines map].
  split; constructor; try done. exists 1. by split.
Qed.

Definition two_lengths : list (bytes * bytes) := [(B "Content-Length", B "23"); (B "Content-Length", B "0")].
Definition signed_length : list (bytes * bytes) := [(B "Content-Length", B "+2")].
Definition huge_length : list (bytes * bytes) := [(B "Content-Length", B "4294967298")].

Lemma plain_two : Forall plain_field two_lengths /\ Forall plain_field signed_length /\ Forall plain_field huge_length.
Proof. repeat constructor; by_compute || done. Qed.

Lemma two_lengths_none : rfc_body two_lengths None.
Proof. eapply (rb_differ _ (B "Content-Length", B "23") (B "Content-Length", B "0")); by_compute || done. Qed.
Lemma two_lengths_taken : taken two_lengths 0.
Proof.
  right. split; [done|]. intros v z Hv' Hz. apply stoi_reads in Hz. vm_compute in Hv'. injection Hv' as <-. vm_compute in Hz. injection Hz as <-. done.
Qed.

Theorem refused_refuted : ~ refused.
Proof.
  intros H. destruct plain_two as (Hp & _). destruct recorder_dispatch as (ro & Hro & _).
  assert (Hh : request_head (req_text mPOST v1_1 two_lengths []) (field_lines two_lengths) (B "/a")) by by apply req_text_head.
  destruct (text_fields _ Hp) as [HF Hv].
  destruct (framing_exact map_to_list ro [] _ _ _ _ [] (WTake 0) [] Wait Hro Hh (fields_lead _ _ HF Hv) two_lengths_taken) as (r & _ & _ & E);
    [by vm_compute|by apply not_elem_of_nil|].
  destruct (respond_new map_to_list (WTake 0) [] r (Stream [] Wait) valid_order_sorted) as (out & sent & cl & E1 & _); [done|].
  rewrite E1, app_nil_r in E. pose proof (H _ _ _ _ _ _ _ _ _ _ _ valid_order_sorted Hro Hh HF Hv two_lengths_none E) as Hx. discriminate Hx.
Qed.

Definition lower_length : list (bytes * bytes) := [(B "content-length", B "2")].
Theorem framed_refuted : ~ framed (fun _ => True).
Proof.
  intros H. destruct recorder_dispatch as (ro & Hro & _).
  assert (Hp : Forall plain_field lower_length) by (repeat constructor; by_compute || done).
  assert (Hh : request_head (req_text mPOST v1_1 lower_length []) (field_lines lower_length) (B "/a")) by by apply req_text_head.
  destruct (text_fields _ Hp) as [HF Hv].
  assert (Hb : rfc_body lower_length (Some 2)).
  { apply (rb_some _ (B "content-length", B "2") (B "2")); [by left|by vm_compute|by repeat constructor|done|by_compute]. }
  assert (Htk : taken lower_length 0).
  { right. split; [done|]. intros v z Hx. vm_compute in Hx. discriminate Hx. }
  destruct (framing_exact map_to_list ro [] _ _ _ _ [] (WTake 0) (map Byte (B "hi")) Wait Hro Hh (fields_lead _ _ HF Hv) Htk) as (r & _ & _ & E);
    [by vm_compute|by apply not_elem_of_nil|].
  destruct (respond_new map_to_list (WTake 0) [] r (Stream (map Byte (B "hi")) Wait) valid_order_sorted) as (out & sent & cl & E1 & _); [done|].
  assert (Hall : Forall (fun _ : bytes * bytes => True) lower_length) by by repeat constructor.
  destruct (H map_to_list ro [] _ _ _ _ (B "hi") 0 [] Wait valid_order_sorted Hro Hh HF Hv Hall Hb) as (r' & out' & _ & E'); [by vm_compute|by_compute|].
  rewrite E1 in E. rewrite map_app, <- app_assoc, app_nil_r in E'. rewrite !app_nil_r in E. rewrite E' in E. injection E as _ Hx. discriminate Hx.
Qed.

Theorem framing_refuted : ~ framing_full.
Proof. intros [_ H]. by apply refused_refuted. Qed.

(** Two different lengths: the second counts, and the body is read as a request that the
    handlers see. *)
Example two_lengths_ex : exists ro w' s' outs, register [] [] recorder router_new = Ok (kSuccess, ro) /\
  serve map_to_list [WTake 0; WTake 0] ro [] wr0 (of_bytes (req_text mPOST v1_1 two_lengths smuggled) Wait) = Ok (w', s', outs, false) /\
  map (fun r => (rq_method r, rt_path (rq_route r), rq_body r)) (w_user w') = [(mPOST, B "/a", []); (mGET, B "/admin", [])].
Proof. do 4 eexists. split; [vm_compute; reflexivity|]. split; vm_compute; reflexivity. Qed.

(** [+2] is read as 2; a length that is no int as none. *)
Example odd_lengths_ex : rfc_body signed_length None /\ taken signed_length 2 /\ taken huge_length 0 /\ c_number (B "  -12ab") (-12)%Z.
Proof.
  split; [|split; [|split]].
  - apply (rb_bad _ (B "Content-Length", B "+2")); [by left|by vm_compute| |by_compute]. intros H. apply Forall_cons in H as [H _]. revert H. by_compute.
  - left. exists (B "+2"), 2%Z. split; [by vm_compute|]. split; [by apply stoi_reads; vm_compute|done].
  - right. split; [done|]. intros v z Hv Hz. apply stoi_reads in Hz. vm_compute in Hv. injection Hv as <-. vm_compute in Hz. discriminate Hz.
  - by apply stoi_reads; vm_compute.
Qed.

Example framing_ex : exists ro r out, register [] [] recorder router_new = Ok (kSuccess, ro) /\ rq_body r = B "hi" /\
  handle_read map_to_list (WTake 9) ro [] wr0 (Stream (map Byte (req_text mPOST v1_1 [(B "Content-Length", B "02")] [] ++ B "hi") ++ []) Wait) =
    Ok (Served (seen r) (Stream [] Wait) [out] (take 9 out) false).
Proof.
  destruct recorder_dispatch as (ro & Hro & _). set (kvs := [(B "Content-Length", B "02")]).
  assert (Hp : Forall plain_field kvs) by (repeat constructor; by_compute || done). destruct (text_fields _ Hp) as [HF Hv].
  destruct (framing_partial map_to_list ro [] (req_text mPOST v1_1 kvs []) (field_lines kvs) kvs (B "/a") (B "hi") 9 [] Wait) as (r & out & Hb & E).
  - apply valid_order_sorted.
  - done.
  - by apply req_text_head.
  - done.
  - done.
  - by repeat constructor.
  - apply (rb_some kvs (B "Content-Length", B "02") (B "02")); [by left|by vm_compute|by repeat constructor|done|by_compute].
  - by vm_compute.
  - by_compute.
  - exists ro, r, out. split; [exact Hro|]. split; [exact Hb|]. exact E.
Qed.

Print Assumptions framing_exact.
Print Assumptions framing_partial.
Print Assumptions framing_refuted.
Print Assumptions refused_refuted.
Print Assumptions framed_refuted.
Print Assumptions never_refused.
