From Verif.Model Require Export File.
From Verif.Spec Require Export FileSpec.
From Verif.Lib Require Export CxxStringFacts.
From Verif.Proof Require Export TextProof.

Lemma fs_set_eq f p o : fs_set f p o p = o.
Proof. unfold fs_set. by rewrite decide_True. Qed.
Lemma fs_set_ne f p q o : q <> p -> fs_set f p o q = f q.
Proof. intros H. unfold fs_set. by rewrite decide_False. Qed.

Lemma find_last_of_split c s :
  fits s ->
  (c ∉ s /\ find_last_of s c = npos) \/
  (exists a b, s = a ++ c :: b /\ c ∉ b /\ find_last_of s c = N.of_nat (length a) /\
     N.of_nat (length a) <> npos).
Proof.
  intros Hf. unfold find_last_of. destruct (last_index_of _ s) as [i|] eqn:E.
  - right. apply last_index_of_Some in E. destruct E as (x & Hx & Hc & Hafter).
    apply ascii_eqb_true in Hc as ->.
    exists (take i s), (drop (S i) s). rewrite take_drop_middle by done. split; [done|].
    assert (Hi : i < length s) by by eapply lookup_lt_Some.
    split; [|rewrite take_length, Nat.min_l by lia; split; [done|]; apply (lt_npos s); [done|lia]].
    intros Hin. rewrite Forall_forall in Hafter. apply Hafter in Hin.
    by rewrite (proj2 (ascii_eqb_true c c) eq_refl) in Hin.
  - left. split; [|done]. apply last_index_of_None in E. intros Hin.
    rewrite Forall_forall in E. apply E in Hin.
    by rewrite (proj2 (ascii_eqb_true c c) eq_refl) in Hin.
Qed.

Lemma ext_of tmp : fits tmp ->
  exists x, extension tmp x /\
    (let pos := find_last_of tmp "."%char in
     if (pos =? npos)%N then Ok [] else substr_from tmp (szadd pos 1)) = Ok x.
Proof.
  intros Hf. destruct (find_last_of_split "."%char tmp Hf) as [[Hn He]|(a & b & -> & Hb & He & Hne)].
  - exists []. split; [by right|]. cbn zeta. by rewrite He, N.eqb_refl.
  - exists b. split; [left; by exists a|]. cbn zeta. rewrite He.
    destruct (N.eqb_spec (N.of_nat (length a)) npos); [done|]. by apply substr_after_char.
Qed.

Lemma extension_slash c x : extension ("/"%char :: c) x -> extension c x.
Proof.
  intros [(base & Hb & Hx)|[Hn ->]].
  - destruct base as [|y base]; [done|]. injection Hb as _ ->. left. by exists base.
  - right. split; [|done]. by apply not_elem_of_cons in Hn as [_ ?].
Qed.

Lemma file_suffix_ok p : fits p ->
  exists c x, last_component p c /\ extension c x /\ file_suffix p = Ok x.
Proof.
  intros Hf. unfold file_suffix.
  destruct (find_last_of_split "/"%char p Hf) as [[Hn He]|(a & b & -> & Hb & He & Hne)].
  - rewrite He, N.eqb_refl. change 0%N with (N.of_nat 0). rewrite substr_from_nat by (done || lia).
    rewrite drop_0. cbn [mbind outcome_bind]. destruct (ext_of p Hf) as (x & Hx & Hr).
    exists p, x. repeat split; [done|by left|done|done].
  - rewrite He. destruct (N.eqb_spec (N.of_nat (length a)) npos); [done|].
    rewrite substr_from_nat; [|done|rewrite app_length; lia]. rewrite drop_app.
    cbn [mbind outcome_bind].
    destruct (ext_of ("/"%char :: b)) as (x & Hx & Hr); [by eapply fits_app_r|].
    exists b, x. split; [split; [done|]; right; by exists a|]. split; [by apply extension_slash|done].
Qed.

Lemma last_component_unique p c c' : last_component p c -> last_component p c' -> c = c'.
Proof.
  intros [Hc [->|[d ->]]] [Hc' [H|[d' H]]].
  - done.
  - exfalso. apply Hc. rewrite H. apply elem_of_app. right. left.
  - exfalso. apply Hc'. rewrite <- H. apply elem_of_app. right. left.
  - revert d' H. induction d as [|x d IH]; intros [|y d'] H; simpl in H.
    + by injection H.
    + injection H as _ H. exfalso. apply Hc. rewrite H. apply elem_of_app. right. left.
    + injection H as _ H. exfalso. apply Hc'. rewrite <- H. apply elem_of_app. right. left.
    + injection H as _ H. by eapply IH.
Qed.

Lemma extension_unique c x x' : extension c x -> extension c x' -> x = x'.
Proof.
  intros [(b & -> & Hx)|[Hn ->]] [(b' & H & Hx')|[Hn' ->]].
  - revert b' H. induction b as [|y b IH]; intros [|y' b'] H; simpl in H.
    + by injection H.
    + injection H as _ H. exfalso. apply Hx. rewrite H. apply elem_of_app. right. left.
    + injection H as _ H. exfalso. apply Hx'. rewrite <- H. apply elem_of_app. right. left.
    + injection H as _ H. by eapply IH.
  - exfalso. apply Hn'. apply elem_of_app. right. left.
  - exfalso. apply Hn. rewrite H. apply elem_of_app. right. left.
  - done.
Qed.

(** ** Lines *)
Lemma getline_no_lf s : LF ∉ s -> getline s = [].
Proof.
  induction s as [|c s IH]; intros H; [done|]. apply not_elem_of_cons in H as [Hc Hs]. simpl.
  destruct (Ascii.eqb c LF) eqn:E; [by apply ascii_eqb_true in E; subst|]. by apply IH.
Qed.
Lemma getline_lf l s : LF ∉ l -> getline (l ++ LF :: s) = s.
Proof.
  induction l as [|c l IH]; intros H; simpl.
  - done.
  - apply not_elem_of_cons in H as [Hc Hs].
    destruct (Ascii.eqb c LF) eqn:E; [by apply ascii_eqb_true in E; subst|]. by apply IH.
Qed.

Lemma count_lines_ok s ls : text_lines s ls ->
  forall fuel k, length s <= fuel -> (k <= int_max)%Z ->
  count_lines fuel s k =
    if (k + Z.of_nat (length ls) <=? int_max)%Z then Ok (k + Z.of_nat (length ls))%Z else UB.
Proof.
  induction 1 as [|l Hne Hl|l s ls Hl H IH]; intros fuel k Hf Hk.
  - rewrite Z.add_0_r. rewrite (proj2 (Z.leb_le _ _) Hk). by destruct fuel.
  - destruct l as [|c l]; [done|]. destruct fuel as [|fuel]; [simpl in Hf; lia|].
    cbn [count_lines length]. change (Z.of_nat 1) with 1%Z. unfold int_succ.
    destruct (Z.eqb_spec k int_max) as [->|Hne']; cbn [mbind outcome_bind].
    + rewrite (proj2 (Z.leb_gt _ _)); [done|lia].
    + rewrite (proj2 (Z.leb_le _ _)) by lia. rewrite getline_no_lf by done. by destruct fuel.
  - rewrite app_length in Hf. simpl in Hf. destruct fuel as [|fuel]; [lia|].
    destruct (l ++ LF :: s) as [|c r] eqn:E; [by destruct l|].
    cbn [count_lines]. rewrite <- E, getline_lf by done. unfold int_succ. cbn [length].
    rewrite Nat2Z.inj_succ. destruct (Z.eqb_spec k int_max) as [->|Hne']; cbn [mbind outcome_bind].
    + rewrite (proj2 (Z.leb_gt _ _)); [done|lia].
    + rewrite IH by lia. by replace (k + 1 + Z.of_nat (length ls))%Z with (k + Z.succ (Z.of_nat (length ls)))%Z by lia.
Qed.

Lemma text_lines_exists s : exists ls, text_lines s ls.
Proof.
  remember (length s) as n eqn:Hn. revert s Hn. induction (lt_wf n) as [n _ IH]. intros s ->.
  destruct (decide (LF ∈ s)) as [Hin|Hn].
  - destruct (split_at_char _ _ Hin) as (a & b & -> & Ha).
    destruct (IH (length b)) with (s := b) as [ls Hls]; [rewrite app_length; simpl; lia|done|].
    exists (a :: ls). by constructor.
  - destruct s as [|c s]; [exists []; constructor|]. exists [c :: s]. by constructor.
Qed.
