(** Lemmas on TLS connections. *)
From Verif.Spec Require Export SslSpec.

Local Open Scope Z_scope.

Lemma flat_cons i l : flat (i :: l) = (match i with Rec b => map Byte b | SGap => [Gap] end) ++ flat l.
Proof. done. Qed.
Lemma next_record_spec n l t : (0 < n)%nat →
  match flat l with
  | [] => match t with
          | Eof => next_record n l t = Ok (0, [], Tls [] [] t)
          | Err => next_record n l t = Ok (-1, [], Tls [] [] t)
          | Wait => next_record n l t = Blocked
          end
  | Gap :: r => ∃ s', next_record n l t = Ok (-1, [], s') ∧ tls_stream s' = Stream r t
  | Byte c :: r => ∃ b s', b ≠ [] ∧ (length b ≤ n)%nat ∧ next_record n l t = Ok (rc_of b, b, s') ∧
      flat l = map Byte b ++ sm_items (tls_stream s') ∧ tl_tail s' = t ∧ (length b + tl_size s' ≤ tl_size (Tls [] l t))%nat
  end.
Proof.
  intros Hn. induction l as [|[[|c b]|] l IH].
  - by destruct t.
  - exact IH.
  - rewrite flat_cons. cbn [map app]. cbn [next_record]. eexists (take n (c :: b)), _.
    split; [by destruct n; [lia|]|]. split; [rewrite take_length; lia|]. split; [done|].
    unfold tls_stream, tl_size. cbn [sm_items tl_buf tl_items tl_tail].
    split; [rewrite app_assoc, <- map_app, take_drop; done|]. split; [done|].
    rewrite take_length, drop_length, fmap_cons. cbn [sum_list sum_list_with length]. simpl. lia.
  - rewrite flat_cons. cbn [app next_record]. eexists. split; [done|]. done.
Qed.

Lemma ssl_read_spec num s : 0 < num →
  match sm_items (tls_stream s) with
  | [] => match tl_tail s with
          | Eof => ∃ s', ssl_read num s = Ok (0, [], s') ∧ tls_stream s' = tls_stream s
          | Err => ∃ s', ssl_read num s = Ok (-1, [], s') ∧ tls_stream s' = tls_stream s
          | Wait => ssl_read num s = Blocked
          end
  | Gap :: r => ∃ s', ssl_read num s = Ok (-1, [], s') ∧ tls_stream s' = Stream r (tl_tail s)
  | Byte c :: r => ∃ b s', b ≠ [] ∧ (length b ≤ Z.to_nat num)%nat ∧ ssl_read num s = Ok (rc_of b, b, s') ∧
      sm_items (tls_stream s) = map Byte b ++ sm_items (tls_stream s') ∧ tl_tail s' = tl_tail s ∧ (length b + tl_size s' ≤ tl_size s)%nat
  end.
Proof.
  intros Hn. unfold ssl_read. rewrite (proj2 (Z.ltb_ge _ _)), (proj2 (Z.eqb_neq _ _)) by lia.
  destruct s as [[|c b] l t]; cbn [tls_stream tl_buf tl_items tl_tail sm_items map app].
  - pose proof (next_record_spec (Z.to_nat num) l t ltac:(lia)) as H.
    destruct (flat l) as [|[c|] r] eqn:Ef.
    + destruct t; try done; (eexists; split; [exact H|]); unfold tls_stream; simpl; by rewrite Ef.
    + exact H.
    + exact H.
  - eexists (take (Z.to_nat num) (c :: b)), _. split; [by destruct (Z.to_nat num) eqn:?; [lia|]|].
    split; [rewrite take_length; lia|]. split; [done|]. unfold tl_size. cbn [tl_buf tl_items tl_tail].
    split; [rewrite app_assoc, <- map_app, take_drop; done|]. split; [done|]. rewrite take_length, drop_length. simpl. lia.
Qed.

(** ** The waiting loop *)
Lemma to_int32_id z : int_min ≤ z ≤ int_max → to_int32 z = z.
Proof. unfold to_int32, int_min, int_max. intros. rewrite Z.mod_small; lia. Qed.
Lemma int_to_size_id z : 0 ≤ z < 2 ^ 64 → int_to_size z = Z.to_N z.
Proof. unfold int_to_size. intros. by rewrite Z.mod_small by lia. Qed.
Lemma szsub_id a b : (b ≤ a)%N → (a < 2 ^ 64)%N → szsub a b = (a - b)%N.
Proof.
  intros Hb Ha. unfold szsub, size_mod. replace (a + 2 ^ 64 - b)%N with ((a - b) + 1 * 2 ^ 64)%N by lia.
  rewrite N.mod_add by lia. apply N.mod_small. lia.
Qed.

(** The number that line 68 passes. *)
Definition ask (len : N) (total : Z) : Z := to_int32 (Z.of_N (szsub len (int_to_size total))).
Lemma ask_eq len total : 0 ≤ total ≤ int_max → total < Z.of_N len → (len < 2 ^ 64)%N →
  ask len total = to_int32 (Z.of_N len - total).
Proof.
  unfold int_max. intros Ht Hl Hm. unfold ask. rewrite int_to_size_id by lia. rewrite szsub_id by lia.
  f_equal. lia.
Qed.

Lemma wait_all_unfold fuel len total acc s : (0 ≤ total ≤ int_max) → (len < 2 ^ 64)%N →
  wait_all (S fuel) len total acc s =
  if total <? Z.of_N len then
    r ← ssl_read (to_int32 (Z.of_N len - total)) s;
    let '(rc, b, s') := r in
    if rc <=? 0 then Ok (kSysErr, acc ++ b, s')
    else if total + rc <=? int_max then wait_all fuel len (total + rc) (acc ++ b) s' else UB
  else Ok (total, acc, s).
Proof.
  intros Ht Hl. cbn [wait_all]. unfold int_max in Ht. rewrite int_to_size_id by lia.
  destruct (Z.ltb_spec total (Z.of_N len)) as [H|H].
  - rewrite (proj2 (N.ltb_lt _ _)) by lia. rewrite szsub_id by lia.
    replace (Z.of_N (len - Z.to_N total)) with (Z.of_N len - total) by lia. done.
  - by rewrite (proj2 (N.ltb_ge _ _)) by lia.
Qed.

(** Enough data: exactly the bytes asked for. *)
Lemma wait_all_enough fuel len total acc s b r :
  (tl_size s < fuel)%nat → 0 ≤ total → total + Z.of_nat (length b) = Z.of_N len → (len < 2 ^ 31)%N →
  sm_items (tls_stream s) = map Byte b ++ r →
  ∃ s', wait_all fuel len total acc s = Ok (Z.of_N len, acc ++ b, s') ∧ tls_stream s' = Stream r (tl_tail s).
Proof.
  revert total acc s b. induction fuel as [|fuel IH]; intros total acc s b Hf Ht Hb Hl Hs; [lia|].
  rewrite wait_all_unfold by (unfold int_max; lia). destruct b as [|c b].
  - simpl in Hb. rewrite (proj2 (Z.ltb_ge _ _)) by lia. exists s. rewrite app_nil_r. split; [do 2 f_equal; f_equal; lia|].
    simpl in Hs. unfold tls_stream in *. by rewrite <- Hs.
  - simpl in Hb. rewrite (proj2 (Z.ltb_lt _ _)) by lia. rewrite to_int32_id by (unfold int_min, int_max; lia).
    pose proof (ssl_read_spec (Z.of_N len - total) s ltac:(lia)) as H. rewrite Hs in H. cbn [map app] in H.
    destruct H as (p & s' & Hp & Hn & -> & Hi & Htl & Hz). cbn [mbind outcome_bind].
    destruct p as [|c' p]; [done|]. simpl in Hn.
    assert (∃ q, c :: b = (c' :: p) ++ q ∧ sm_items (tls_stream s') = map Byte q ++ r) as (q & Eq & Eq').
    { change (Byte c :: map Byte b ++ r) with (map Byte (c :: b) ++ r) in Hi.
      exists (drop (length (c' :: p)) (c :: b)).
      assert (take (length (c' :: p)) (map Byte (c :: b) ++ r) = map Byte (c' :: p)) as E1.
      { rewrite Hi. replace (length (c' :: p)) with (length (map Byte (c' :: p))) by apply map_length. apply take_app. }
      assert (drop (length (c' :: p)) (map Byte (c :: b) ++ r) = sm_items (tls_stream s')) as E2.
      { rewrite Hi. replace (length (c' :: p)) with (length (map Byte (c' :: p))) by apply map_length. apply drop_app. }
      assert (length (c' :: p) ≤ length (c :: b))%nat as Hle by (simpl; lia).
      rewrite take_app_le in E1 by (rewrite map_length; done). rewrite drop_app_le in E2 by (rewrite map_length; done).
      rewrite firstn_map in E1. split.
      - rewrite <- (take_drop (length (c' :: p)) (c :: b)) at 1. f_equal.
        clear -E1. revert E1. generalize (take (length (c' :: p)) (c :: b)) as u. intros u. generalize (c' :: p) as v. clear.
        induction u as [|a u IHu]; intros [|v' v]; simpl; intros H; try done. injection H as -> H. by rewrite (IHu v).
      - rewrite <- E2. by rewrite skipn_map. }
    assert (Z.of_nat (length (c :: b)) = Z.of_nat (length (c' :: p)) + Z.of_nat (length q)) as El by (rewrite Eq, app_length; lia).
    unfold rc_of. simpl length in El, Hz |- *. rewrite (proj2 (Z.leb_gt _ _)) by lia. rewrite (proj2 (Z.leb_le _ _)) by (unfold int_max; lia).
    destruct (IH (total + Z.of_nat (S (length p))) (acc ++ c' :: p) s' q) as (s2 & E2 & Es2); [lia|lia| |done|done|].
    { simpl length in *. lia. }
    exists s2. rewrite E2, <- app_assoc, <- Eq. split; [done|]. by rewrite Es2, Htl.
Qed.

(** Too little data before the stream is interrupted or ends. *)
Lemma wait_all_short fuel len total acc s b r :
  (tl_size s < fuel)%nat → 0 ≤ total → total + Z.of_nat (length b) < Z.of_N len → (len < 2 ^ 31)%N →
  sm_items (tls_stream s) = map Byte b ++ r → match r with Byte _ :: _ => False | _ => True end →
  match r, tl_tail s with
  | [], Wait => wait_all fuel len total acc s = Blocked
  | _, _ => ∃ s', wait_all fuel len total acc s = Ok (kSysErr, acc ++ b, s') ∧ tls_stream s' = Stream (List.tl r) (tl_tail s)
  end.
Proof.
  revert total acc s b. induction fuel as [|fuel IH]; intros total acc s b Hf Ht Hb Hl Hs Hr; [lia|].
  rewrite wait_all_unfold by (unfold int_max; lia). rewrite (proj2 (Z.ltb_lt _ _)) by lia.
  rewrite to_int32_id by (unfold int_min, int_max; lia).
  pose proof (ssl_read_spec (Z.of_N len - total) s ltac:(lia)) as H. rewrite Hs in H. destruct b as [|c b]; cbn [map app] in H.
  - rewrite app_nil_r. destruct r as [|[]r]; [|done|].
    + destruct (tl_tail s) eqn:Et.
      * destruct H as (s' & -> & Es). exists s'. cbn [mbind outcome_bind]. rewrite app_nil_r. split; [done|].
        rewrite Es. unfold tls_stream in *. rewrite Et. simpl in Hs. by rewrite Hs.
      * destruct H as (s' & -> & Es). exists s'. cbn [mbind outcome_bind]. rewrite app_nil_r. split; [done|].
        rewrite Es. unfold tls_stream in *. rewrite Et. simpl in Hs. by rewrite Hs.
      * by rewrite H.
    + destruct H as (s' & -> & Es). exists s'. cbn [mbind outcome_bind]. rewrite app_nil_r. by split.
  - destruct H as (p & s' & Hp & Hn & -> & Hi & Htl & Hz). cbn [mbind outcome_bind].
    destruct p as [|c' p]; [done|].
    assert (∃ q, c :: b = (c' :: p) ++ q ∧ sm_items (tls_stream s') = map Byte q ++ r) as (q & Eq & Eq').
    { change (Byte c :: map Byte b ++ r) with (map Byte (c :: b) ++ r) in Hi. revert Hi.
      generalize (c :: b) as u, (c' :: p) as v. clear -Hr. induction u as [|a u IHu]; intros [|v' v]; simpl; intros Hi.
      - by exists [].
      - by subst r.
      - exists (a :: u). by rewrite <- Hi.
      - injection Hi as -> Hi. destruct (IHu _ Hi) as (q & -> & ?). by exists q. }
    assert (Z.of_nat (length (c :: b)) = Z.of_nat (length (c' :: p)) + Z.of_nat (length q)) as El by (rewrite Eq, app_length; lia).
    unfold rc_of. simpl length in El, Hz, Hb |- *. rewrite (proj2 (Z.leb_gt _ _)) by lia. rewrite (proj2 (Z.leb_le _ _)) by (unfold int_max; lia).
    pose proof (IH (total + Z.of_nat (S (length p))) (acc ++ c' :: p) s' q ltac:(lia) ltac:(lia) ltac:(lia) Hl Eq' Hr) as H.
    rewrite Htl, <- app_assoc, <- Eq in H. exact H.
Qed.

(** 2 GB or more: never. *)
Lemma wait_all_huge fuel len total acc s :
  (tl_size s < fuel)%nat → 0 ≤ total ≤ Z.of_N len mod 2 ^ 32 → total = 0 ∨ Z.of_N len mod 2 ^ 32 < 2 ^ 31 → (2 ^ 31 ≤ len < 2 ^ 64)%N →
  wait_all fuel len total acc s = Blocked ∨ ∃ b s', wait_all fuel len total acc s = Ok (kSysErr, b, s').
Proof.
  revert total acc s. induction fuel as [|fuel IH]; intros total acc s Hf Ht Hm Hl; [lia|].
  rewrite wait_all_unfold by (unfold int_max; lia). rewrite (proj2 (Z.ltb_lt _ _)) by lia.
  pose proof (Z.div_mod (Z.of_N len) (2 ^ 32) ltac:(lia)) as Ed. pose proof (Z.mod_pos_bound (Z.of_N len) (2 ^ 32) ltac:(lia)) as Hb.
  set (m := Z.of_N len mod 2 ^ 32) in *. set (q := Z.of_N len / 2 ^ 32) in *.
  assert (Hask : to_int32 (Z.of_N len - total) ≤ 0 ∨ 0 < to_int32 (Z.of_N len - total) ∧ to_int32 (Z.of_N len - total) = m - total ∧ m < 2 ^ 31).
  { unfold to_int32. replace (Z.of_N len - total + 2 ^ 31) with ((m - total + 2 ^ 31) + q * 2 ^ 32) by lia.
    rewrite Z.mod_add by lia. destruct (decide (m < 2 ^ 31)) as [H|H].
    - rewrite Z.mod_small by lia. lia.
    - left. replace (m - total + 2 ^ 31) with ((m - total - 2 ^ 31) + 1 * 2 ^ 32) by lia. rewrite Z.mod_add by lia. rewrite Z.mod_small by lia. lia. }
  destruct Hask as [H0|(Hp & He & Hm2)].
  - right. unfold ssl_read. destruct (_ <? 0) eqn:E1; [by eexists _, _|]. rewrite (proj2 (Z.eqb_eq _ _)) by lia. by eexists _, _.
  - pose proof (ssl_read_spec (to_int32 (Z.of_N len - total)) s ltac:(lia)) as H.
    destruct (sm_items (tls_stream s)) as [|[c|] r].
    + destruct (tl_tail s); [..|left; by rewrite H]; right; destruct H as (s' & -> & _); by eexists _, _.
    + destruct H as (b & s' & Hb' & Hn & -> & _ & _ & Hz). cbn [mbind outcome_bind]. destruct b as [|c' b]; [done|].
      unfold rc_of. simpl length in *. rewrite (proj2 (Z.leb_gt _ _)) by lia. rewrite (proj2 (Z.leb_le _ _)) by (unfold int_max; lia).
      apply IH; lia.
    + right. destruct H as (s' & -> & _). by eexists _, _.
Qed.

(** ** Reading up to a delimiter *)
Lemma until_same fuel delim s ch buf : (tl_size s < fuel)%nat →
  seen (ssl_until_loop fuel delim s ch buf) = until_loop delim (sm_items (tls_stream s)) (tl_tail s) ch buf.
Proof.
  revert s ch buf. induction fuel as [|fuel IH]; intros s ch buf Hf; [lia|].
  pose proof (ssl_read_spec 1 s ltac:(lia)) as H. cbn [ssl_until_loop].
  replace (ssl_ioread FlNone 1 s) with (ssl_read 1 s) by (unfold ssl_ioread; by rewrite to_int32_id).
  destruct (sm_items (tls_stream s)) as [|[c|] r] eqn:Es; cbn [until_loop];
    (destruct (until_goes_on delim buf ch) as [go| | | | |]; cbn [mbind outcome_bind]; [|done..]); destruct go.
  - destruct (tl_tail s) eqn:Et.
    + destruct H as (s' & -> & E). cbn [mbind outcome_bind seen]. simpl. rewrite E. unfold tls_stream in *. simpl in Es. by rewrite Es, Et.
    + destruct H as (s' & -> & E). cbn [mbind outcome_bind seen]. simpl. rewrite E. unfold tls_stream in *. simpl in Es. by rewrite Es, Et.
    + by rewrite H.
  - simpl. unfold tls_stream in *. simpl in Es. by rewrite Es.
  - destruct H as (b & s' & Hb & Hn & -> & Hi & Ht & Hz). destruct b as [|c' [|c2 b]]; [done| |simpl in Hn; lia].
    simpl in Hi. injection Hi as <- ->. cbn [mbind outcome_bind]. simpl in Hz. change (rc_of [c]) with 1. simpl.
    rewrite IH by lia. by rewrite Ht.
  - simpl. unfold tls_stream in *. simpl in Es. by rewrite Es.
  - destruct H as (s' & -> & E). cbn [mbind outcome_bind seen]. simpl. by rewrite E.
  - simpl. unfold tls_stream in *. simpl in Es. by rewrite Es.
Qed.
