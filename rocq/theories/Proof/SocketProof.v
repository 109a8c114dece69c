From Verif.Model Require Export Socket.
From Verif.Spec Require Export SocketSpec.
From Verif.Lib Require Export CxxStringFacts.

(** ** ReadUntil *)
Definition lastch (buf : bytes) : ascii := default NUL (last buf).

Section until.
Context (d : bytes) (lc : ascii) (Hlast : last d = Some lc) (Hnul : lc <> NUL) (Hd : fits d).

Lemma delim_snoc : exists d', d = d' ++ [lc].
Proof. apply last_Some in Hlast as [l ->]. by exists l. Qed.

Lemma delim_last_at : str_at d (szsub (size d) 1) = Ok lc.
Proof.
  destruct delim_snoc as [d' Hd']. unfold str_at.
  assert (Hlen : length d = S (length d')) by (rewrite Hd', app_length; simpl; lia).
  assert (Hs : szsub (size d) 1 = N.of_nat (length d')).
  { unfold size, szsub, size_mod. unfold fits in Hd. rewrite Hlen in Hd |- *.
    replace (N.of_nat (S (length d')) + 2 ^ 64 - 1)%N with (N.of_nat (length d') + 1 * 2 ^ 64)%N by lia.
    rewrite N.mod_add by lia. apply N.mod_small. lia. }
  rewrite Hs. unfold size. rewrite Hlen.
  destruct (N.ltb_spec (N.of_nat (length d')) (N.of_nat (S (length d')))); [|lia].
  rewrite Nat2N.id, Hd', lookup_app_r by lia. by rewrite Nat.sub_diag.
Qed.

Lemma lastch_eq buf : Ascii.eqb (lastch buf) lc = true <-> last buf = Some lc.
Proof.
  rewrite ascii_eqb_true. unfold lastch. destruct (last buf) as [c|]; simpl; [split; congruence|].
  split; [|done]. intros H. by exfalso; apply Hnul.
Qed.

(** The loop condition, in terms of the bytes read so far. *)
Lemma goes_on_spec buf : fits buf ->
  until_goes_on d buf (lastch buf) =
    if decide (last buf = Some lc) then
      if decide (length buf < length d) then Throw OutOfRange
      else Ok (negb (bool_decide (d `suffix_of` buf)))
    else Ok true.
Proof.
  intros Hb. unfold until_goes_on. rewrite delim_last_at. cbn [mbind outcome_bind].
  destruct (decide (last buf = Some lc)) as [Hl|Hl].
  - rewrite (proj2 (lastch_eq buf) Hl). cbn [negb].
    unfold fits in Hb, Hd.
    destruct (decide (length buf < length d)) as [Hlt|Hge].
    + unfold substr_from. rewrite substr_throw; [done|].
      unfold szsub, size, size_mod. rewrite N.mod_small by lia. lia.
    + assert (Hs : szsub (size buf) (size d) = N.of_nat (length buf - length d)).
      { unfold szsub, size, size_mod.
        replace (N.of_nat (length buf) + 2 ^ 64 - N.of_nat (length d))%N
          with (N.of_nat (length buf - length d) + 1 * 2 ^ 64)%N by lia.
        rewrite N.mod_add by lia. apply N.mod_small. lia. }
      rewrite Hs, substr_from_nat by (done || lia). cbn [mbind outcome_bind]. f_equal. f_equal.
      apply bool_decide_ext. split.
      * intros H. exists (take (length buf - length d) buf). rewrite <- H at 2. by rewrite take_drop.
      * intros [k Hk]. rewrite Hk, app_length.
        replace (length k + length d - length d) with (length k) by lia. by rewrite drop_app.
  - destruct (Ascii.eqb (lastch buf) lc) eqn:E; [|done]. by apply lastch_eq in E.
Qed.

Definition goes_on (buf : bytes) : Prop :=
  last buf <> Some lc \/ (length d <= length buf /\ ~ d `suffix_of` buf).

Lemma goes_on_true buf : fits buf -> goes_on buf -> until_goes_on d buf (lastch buf) = Ok true.
Proof.
  intros Hb Hg. rewrite goes_on_spec by done.
  destruct (decide (last buf = Some lc)) as [Hl|Hl]; [|done].
  destruct Hg as [?|[Hlen Hns]]; [done|].
  rewrite decide_False by lia. by rewrite bool_decide_false.
Qed.

Lemma until_run s : forall buf l t,
  fits (buf ++ s) ->
  (forall p, p `prefix_of` s -> p <> s -> goes_on (buf ++ p)) ->
  until_loop d (map Byte s ++ l) t (lastch buf) buf
    = until_loop d l t (lastch (buf ++ s)) (buf ++ s).
Proof.
  induction s as [|c s IH]; intros buf l t Hf Hg.
  - by rewrite app_nil_r.
  - cbn [map app until_loop].
    rewrite goes_on_true; [|by eapply fits_app_l|rewrite <- (app_nil_r buf); apply Hg; [apply prefix_nil|done]].
    cbn [mbind outcome_bind].
    assert (Hc : c = lastch (buf ++ [c])) by (unfold lastch; by rewrite last_snoc).
    rewrite Hc at 1. rewrite IH.
    + by rewrite <- app_assoc.
    + by rewrite <- app_assoc.
    + intros p Hp Hne. rewrite <- app_assoc. apply Hg; [by apply prefix_cons|]. by intros [= ->].
Qed.

Lemma suffix_last buf : d `suffix_of` buf -> last buf = Some lc.
Proof.
  intros [k ->]. destruct delim_snoc as [d' Hd']. rewrite Hd', app_assoc. by rewrite last_snoc.
Qed.

Lemma not_early_goes_on s p :
  ~ early_end d s -> p `prefix_of` s -> ~ d `suffix_of` p -> goes_on p.
Proof.
  intros He [r Hr] Hns. destruct (decide (last p = Some lc)) as [Hl|Hl]; [right|by left].
  split; [|done]. destruct (decide (length d <= length p)) as [?|Hlt]; [done|]. exfalso. apply He.
  apply last_Some in Hl as [p' Hp']. exists (length p'), lc. repeat split; [done| |].
  - rewrite Hr, Hp', <- app_assoc, lookup_app_r by lia. by rewrite Nat.sub_diag.
  - rewrite Hp', app_length in Hlt. simpl in Hlt. lia.
Qed.

Lemma until_throw s l t :
  fits s -> early_end d s ->
  until_loop d (map Byte s ++ l) t NUL [] = Throw OutOfRange.
Proof.
  intros Hf (i & c & Hc & Hi & Hlt).
  rewrite Hlast in Hc. injection Hc as <-.
  (* the first such position *)
  assert (Hmin : exists j, s !! j = Some lc /\ j <= i /\ lc ∉ take j s).
  { destruct (list_find (eq lc) s) as [[j x]|] eqn:E.
    - apply list_find_Some in E as (Hj & <- & Hb). exists j. split; [done|].
      assert (Hji : j <= i). { destruct (decide (i < j)) as [h|]; [|lia]. by destruct (Hb i lc Hi h). }
      split; [done|]. intros Hin. apply elem_of_list_lookup in Hin as [k Hk].
      assert (k < j). { apply lookup_lt_Some in Hk. rewrite take_length in Hk. lia. }
      rewrite lookup_take in Hk by done. by apply (Hb k lc Hk).
    - exfalso. apply list_find_None in E. rewrite Forall_lookup in E. by apply (E i lc). }
  destruct Hmin as (j & Hj & Hji & Hnin).
  rewrite <- (take_drop j s) in Hf |- *. rewrite map_app, <- app_assoc.
  change NUL with (lastch []). change [] with (@nil ascii) at 1.
  rewrite (until_run (take j s) []).
  - cbn [app]. erewrite drop_S by done. cbn [map app until_loop].
    rewrite goes_on_true.
    + cbn [mbind outcome_bind].
      assert (Hff : fits (take j s ++ [lc])).
      { unfold fits in Hf |- *. rewrite app_length in *. erewrite drop_S in Hf by done. simpl in *. lia. }
      assert (Hg : until_goes_on d (take j s ++ [lc]) lc = Throw OutOfRange).
      { assert (Hlc : lc = lastch (take j s ++ [lc])) by (unfold lastch; by rewrite last_snoc).
        rewrite Hlc at 2. rewrite goes_on_spec by done. rewrite last_snoc, decide_True by done.
        rewrite decide_True; [done|]. rewrite app_length, take_length. simpl. lia. }
      destruct (map Byte (drop (S j) s) ++ l) as [|[c|] l']; cbn [until_loop]; by rewrite Hg.
    + by eapply fits_app_l.
    + left. intros Hl. apply last_Some in Hl as [p Hp]. apply Hnin. rewrite Hp.
      apply elem_of_app. right. by apply elem_of_list_singleton.
  - cbn [app]. by eapply fits_app_l.
  - intros p Hp _. cbn [app]. left. intros Hl. apply last_Some in Hl as [p' ->]. apply Hnin.
    destruct Hp as [r ->]. apply elem_of_app. left. apply elem_of_app. right.
    by apply elem_of_list_singleton.
Qed.

Lemma until_found s pre rest l t :
  fits s -> ~ early_end d s -> shortest_until d s pre rest ->
  until_loop d (map Byte s ++ l) t NUL [] =
    Ok (to_int32 (Z.of_nat (length pre)), pre, Stream (map Byte rest ++ l) t).
Proof.
  intros Hf He (Hs & Hsuf & Hshort). rewrite Hs, map_app, <- app_assoc.
  change NUL with (lastch []).
  rewrite (until_run pre []).
  - cbn [app]. assert (Hfp : fits pre) by (rewrite Hs in Hf; by eapply fits_app_l).
    assert (Hg : until_goes_on d pre (lastch pre) = Ok false).
    { rewrite goes_on_spec by done. rewrite decide_True by by apply suffix_last.
      rewrite decide_False by (apply suffix_length in Hsuf; lia). by rewrite bool_decide_true. }
    destruct (map Byte rest ++ l) as [|[c|] l'] eqn:E; cbn [until_loop]; rewrite Hg; cbn [mbind outcome_bind];
      unfold size; by rewrite nat_N_Z.
  - cbn [app]. rewrite Hs in Hf. by eapply fits_app_l.
  - intros p Hp Hne. cbn [app]. apply (not_early_goes_on s); [done| |].
    + rewrite Hs. by apply prefix_app_r.
    + intros Hsp. apply Hne. by apply Hshort.
Qed.

Lemma until_not_found s l t :
  fits s -> ~ early_end d s -> ~ contains d s ->
  until_loop d (map Byte s ++ l) t NUL [] =
    until_loop d l t (lastch s) s /\ until_goes_on d s (lastch s) = Ok true.
Proof.
  intros Hf He Hnc.
  assert (Hgo : forall p, p `prefix_of` s -> goes_on p).
  { intros p Hp. apply (not_early_goes_on s); [done..|]. intros [k Hk]. apply Hnc.
    destruct Hp as [r Hr]. exists k, r. by rewrite Hr, Hk, <- app_assoc. }
  split.
  - change NUL with (lastch []). rewrite (until_run s []); [done|done|].
    intros p Hp _. by apply Hgo.
  - apply goes_on_true; [done|]. by apply Hgo.
Qed.
End until.

Lemma find_shortest d s i :
  find_idx d s = Some i -> shortest_until d s (take (i + length d) s) (drop (i + length d) s).
Proof.
  intros E. pose proof (find_idx_bound _ _ _ E) as Hb.
  destruct (find_idx_Some _ _ _ E) as (Hp & _ & Hmin).
  split; [by rewrite take_drop|].
  assert (Hsplit : take (i + length d) s = take i s ++ d).
  { destruct Hp as [r Hr]. rewrite <- (take_drop i s) at 1. rewrite Hr.
    rewrite take_app_ge by (rewrite take_length; lia).
    rewrite take_length, Nat.min_l by lia.
    replace (i + length d - i) with (length d) by lia. by rewrite take_app. }
  split; [rewrite Hsplit; by exists (take i s)|].
  intros p [q Hq] [k Hk].
  assert (Hle : length k + length d + length q = i + length d).
  { assert (H : length (p ++ q) = i + length d) by (rewrite <- Hq, take_length; lia).
    rewrite Hk, !app_length in H. lia. }
  destruct (decide (length k < i)) as [Hlt|].
  - exfalso. apply (Hmin (length k) Hlt).
    rewrite <- (take_drop (i + length d) s), Hq, Hk, <- !app_assoc, drop_app. eexists. done.
  - assert (q = []) as -> by (apply nil_length_inv; lia). by rewrite app_nil_r in Hq.
Qed.

Lemma shortest_until_exists d s :
  d <> [] -> contains d s -> exists pre rest, shortest_until d s pre rest.
Proof.
  intros Hd Hc. apply find_idx_contains in Hc. destruct (find_idx d s) as [i|] eqn:E; [|done].
  do 2 eexists. by apply find_shortest.
Qed.

Lemma shortest_until_unique d s pre rest pre' rest' :
  shortest_until d s pre rest -> shortest_until d s pre' rest' -> pre = pre' /\ rest = rest'.
Proof.
  intros (Hs & Hd & Hm) (Hs' & Hd' & Hm').
  assert (pre = pre') as <-.
  { destruct (prefix_weak_total pre pre' s) as [H|H].
    - by exists rest. - by exists rest'.
    - by apply Hm'. - symmetry. by apply Hm. }
  split; [done|]. rewrite Hs in Hs'. by apply app_inv_head in Hs'.
Qed.

(** ** Read *)
Lemma grab_spec n l b r g : grab n l = (b, r, g) ->
  length b <= n /\ exists mid, l = map Byte b ++ mid ++ r /\
    (g = true /\ mid = [Gap] /\ length b < n \/ g = false /\ mid = [] /\ (length b = n \/ r = [])).
Proof.
  revert l b r g. induction n as [|n IH]; intros l b r g H; simpl in H.
  - injection H as <- <- <-. split; [done|]. exists []. split; [done|]. right. auto.
  - destruct l as [|[c|] l].
    + injection H as <- <- <-. simpl. split; [lia|]. exists []. split; [done|]. right. auto.
    + destruct (grab n l) as [[b' r'] g'] eqn:E. injection H as <- <- <-.
      destruct (IH _ _ _ _ E) as (Hlen & mid & -> & Hm). simpl. split; [lia|]. exists mid.
      split; [done|]. destruct Hm as [(-> & -> & ?)|(-> & -> & [?|?])]; [left|right|right]; repeat split; auto; lia.
    + injection H as <- <- <-. simpl. split; [lia|]. exists [Gap]. split; [done|]. left. split; [done|]. split; [done|lia].
Qed.

Lemma grab_enough n b l : length b = n -> grab n (map Byte b ++ l) = (b, l, false).
Proof.
  revert b. induction n as [|n IH]; intros [|c b] H; try done; simpl.
  rewrite IH; [done|]. by injection H.
Qed.

Lemma grab_end b n : length b < n -> grab n (map Byte b) = (b, [], false).
Proof.
  revert n. induction b as [|c b IH]; intros [|n] H; simpl in *; try lia; [done|].
  rewrite IH; [done|lia].
Qed.

Lemma recv_all_enough n b l t : length b = n ->
  recv_all n (Stream (map Byte b ++ l) t) = Ok (Z.of_nat n, b, Stream l t).
Proof.
  intros H. unfold recv_all. cbn [sm_items sm_tail]. rewrite grab_enough by done.
  rewrite H, Nat.eqb_refl. unfold rc_of. by rewrite H.
Qed.

Lemma recv_all_spec n s rc b s' : recv_all n s = Ok (rc, b, s') -> (0 < rc)%Z ->
  rc = Z.of_nat (length b) /\ length b <= n /\ sm_tail s' = sm_tail s /\
  exists mid, sm_items s = map Byte b ++ mid ++ sm_items s' /\
    (mid = [] \/ (mid = [Gap] /\ length b < n)).
Proof.
  unfold recv_all. destruct (grab n (sm_items s)) as [[b' r] g] eqn:E.
  destruct (grab_spec _ _ _ _ _ E) as (Hlen & mid & Hs & Hm).
  assert (HP : forall z, z = rc_of b' -> Ok (z, b', Stream r (sm_tail s)) = Ok (rc, b, s') ->
    rc = Z.of_nat (length b) /\ length b <= n /\ sm_tail s' = sm_tail s /\
    exists mid, sm_items s = map Byte b ++ mid ++ sm_items s' /\ (mid = [] \/ (mid = [Gap] /\ length b < n))).
  { intros z -> [= <- <- <-]. cbn [sm_tail sm_items]. repeat split; [done|]. exists mid. split; [done|].
    destruct Hm as [(_ & -> & ?)|(_ & -> & _)]; auto. }
  destruct (length b' =? n); [intros H _; by apply (HP _ eq_refl)|].
  assert (HQ : Ok (match b' with [] => (-1)%Z | _ => rc_of b' end, b', Stream r (sm_tail s)) = Ok (rc, b, s') ->
    (0 < rc)%Z -> Ok (rc_of b', b', Stream r (sm_tail s)) = Ok (rc, b, s')).
  { destruct b'; [|done]. intros [= <- _ _]. lia. }
  destruct g.
  - intros H1 H2. by apply (HP _ eq_refl), HQ.
  - destruct (sm_tail s) eqn:Et; [intros H _; by apply (HP _ eq_refl)| |done].
    intros H1 H2. by apply (HP _ eq_refl), HQ.
Qed.

Lemma recv_some_spec k n s rc b s' : recv_some k n s = Ok (rc, b, s') -> (0 < rc)%Z ->
  rc = Z.of_nat (length b) /\ length b <= n /\ sm_tail s' = sm_tail s /\
  sm_items s = map Byte b ++ sm_items s'.
Proof.
  unfold recv_some. destruct (Nat.eqb_spec n 0); [intros [= <- _ _]; lia|].
  destruct (sm_items s) as [|[c|] l] eqn:El.
  - destruct (sm_tail s); [intros [= <- _ _]; lia|intros [= <- _ _]; lia|done].
  - destruct (grab (n `min` (1 `max` k)) (Byte c :: l)) as [[b' r] g] eqn:E.
    intros [= <- <- <-] _. destruct (grab_spec _ _ _ _ _ E) as (Hlen & mid & Hs & _).
    cbn [sm_tail sm_items]. repeat split; [lia|]. rewrite Hs.
    replace (length b') with (length (map Byte b')) by by rewrite map_length. by rewrite drop_app.
  - intros [= <- _ _]. lia.
Qed.

Lemma cstr_no_nul b : NUL ∉ b -> cstr b = b.
Proof.
  induction b as [|c b IH]; intros H; [done|]. apply not_elem_of_cons in H as [H1 H2]. simpl.
  destruct (Ascii.eqb c NUL) eqn:E; [by apply ascii_eqb_true in E|]. by rewrite IH.
Qed.

(** [cstr b] is what comes before the first NUL byte. *)
Lemma cstr_split b : exists c, b = cstr b ++ c /\ NUL ∉ cstr b /\ (c = [] \/ head c = Some NUL).
Proof.
  induction b as [|x b (c & Hc & Hn & Hh)]; simpl.
  - exists []. split; [done|]. split; [apply not_elem_of_nil|by left].
  - destruct (Ascii.eqb x NUL) eqn:E.
    + apply ascii_eqb_true in E as ->. exists (NUL :: b). split; [done|].
      split; [apply not_elem_of_nil|by right].
    + exists c. split; [simpl; by rewrite <- Hc|]. split; [|done].
      apply not_elem_of_cons. split; [|done]. intros <-. by rewrite (proj2 (ascii_eqb_true _ _)) in E.
Qed.

(** ** Objects *)
Definition closes (fd : Z) (tr : list syscall) : nat := length (filter (.= SysClose fd) tr).

Lemma closes_app fd a b : closes fd (a ++ b) = closes fd a + closes fd b.
Proof. unfold closes. by rewrite filter_app, app_length. Qed.
