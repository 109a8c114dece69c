(** C129-C132: datagrams (src/cppnet/socket/socket.cpp), and writing over TLS. *)
From Coq Require Import ZifyBool.
From Verif.Model Require Import Udp.

Local Open Scope Z_scope.

Definition udp_reachable (n : net) : Prop := exists k ls, n = udp_run ls (net_new k).

(** ** The invariant *)

Record uinv (n : net) : Prop := {
  ui_flight : forall f t p, (f, t, p) ∈ n_flight n -> exists j, ESent j f t p ∈ n_log n;
  ui_queue : forall i s f p, n_socks n !! i = Some s -> (f, p) ∈ us_queue s ->
    exists j a, us_addr s = Some a /\ ESent j f a p ∈ n_log n;
  ui_got : forall i len rc buf f, EGot i len rc buf f ∈ n_log n ->
    exists s j a p, n_socks n !! i = Some s /\ us_addr s = Some a /\ ESent j f a p ∈ n_log n /\
      rc = Z.of_nat (Nat.min len (length p)) /\ buf = cstr (take len p);
  ui_sent : forall j f t p, ESent j f t p ∈ n_log n -> exists s, n_socks n !! j = Some s /\ us_addr s = Some f;
  ui_unique : forall i j s s' a, n_socks n !! i = Some s -> n_socks n !! j = Some s' ->
    owns a s = true -> owns a s' = true -> i = j }.

Lemma owns_spec a s : owns a s = true <-> so_status (us_sock s) = kInit /\ us_addr s = Some a.
Proof. unfold owns, is_open. rewrite andb_true_iff, !bool_decide_eq_true. done. Qed.
Lemma in_use_false a n i s : in_use a n = false -> n_socks n !! i = Some s -> owns a s = false.
Proof.
  unfold in_use. intros H Hi. destruct (owns a s) eqn:E; [|done].
  assert (existsb (owns a) (n_socks n) = true); [|congruence].
  apply existsb_exists. exists s. split; [|done]. apply elem_of_list_In. by eapply elem_of_list_lookup_2.
Qed.

(** The new state has the same sockets, with the same addresses once they have one. *)
Definition keeps (n n' : net) : Prop := forall i s, n_socks n !! i = Some s ->
  exists s', n_socks n' !! i = Some s' /\ (forall a, us_addr s = Some a -> us_addr s' = Some a) /\
    (so_status (us_sock s') = kInit -> so_status (us_sock s) = kInit).

Lemma keeps_insert n i s s' fl lg : n_socks n !! i = Some s ->
  (forall a, us_addr s = Some a -> us_addr s' = Some a) ->
  (so_status (us_sock s') = kInit -> so_status (us_sock s) = kInit) ->
  keeps n (Net (<[i := s']> (n_socks n)) fl lg).
Proof.
  intros Hi Ha Hst j sj Hj. cbn [n_socks]. destruct (decide (j = i)) as [->|Hne].
  - exists s'. rewrite list_lookup_insert by (by apply lookup_lt_Some in Hi).
    assert (sj = s) as -> by congruence. done.
  - exists sj. rewrite list_lookup_insert_ne by done. done.
Qed.
Lemma keeps_refl n fl lg : keeps n (Net (n_socks n) fl lg).
Proof. intros i s Hi. by exists s. Qed.

Lemma insert_cases (n : net) i s s' j sj : n_socks n !! i = Some s -> <[i := s']> (n_socks n) !! j = Some sj ->
  (j = i /\ sj = s') \/ (j <> i /\ n_socks n !! j = Some sj).
Proof.
  intros Hi Hj. destruct (decide (j = i)) as [->|Hne]; [left|right].
  - rewrite list_lookup_insert in Hj by (by apply lookup_lt_Some in Hi). by injection Hj.
  - by rewrite list_lookup_insert_ne in Hj.
Qed.

Lemma step_keeps l n : keeps n (udp_step l n).
Proof.
  destruct l as [i a|i p to eph ok|k keep|k|i len|i|i]; cbn [udp_step].
  - destruct (n_socks n !! i) as [s|] eqn:E; [|destruct n; apply keeps_refl].
    destruct (_ && _) eqn:Ec; [|destruct n; apply keeps_refl].
    rewrite !andb_true_iff in Ec. destruct Ec as [[_ Ec] _]. apply bool_decide_eq_true in Ec.
    eapply keeps_insert; [done| |done]. by rewrite Ec.
  - destruct (n_socks n !! i) as [s|] eqn:E; [|destruct n; apply keeps_refl].
    destruct (us_addr s) as [from|] eqn:Ea.
    + destruct (write_udp _ _ _) as [rc [b|]]; cbn [snd]; [apply keeps_refl|destruct n; apply keeps_refl].
    + destruct (in_use eph n); [destruct n; apply keeps_refl|].
      destruct (write_udp _ _ _) as [rc [b|]]; cbn [snd]; [|destruct n; apply keeps_refl].
      eapply keeps_insert; [done| |done]. by rewrite Ea.
  - destruct (n_flight n !! k) as [[[f t] p]|]; [|destruct n; apply keeps_refl].
    intros i s Hi. cbn [n_socks]. exists (arrive1 f t p s). rewrite list_lookup_fmap, Hi. split; [done|].
    unfold arrive1. destruct (owns t s); done.
  - apply keeps_refl.
  - destruct (n_socks n !! i) as [s|] eqn:E; [|destruct n; apply keeps_refl].
    destruct (us_queue s) as [|[from p] q]; [destruct n; apply keeps_refl|].
    destruct (read_udp _ _ _ _ _) as [[rc buf] a]. destruct (0 <=? rc); [|destruct n; apply keeps_refl].
    by eapply keeps_insert.
  - destruct n; apply keeps_refl.
  - destruct (n_socks n !! i) as [s|] eqn:E; [|destruct n; apply keeps_refl].
    eapply keeps_insert; [done|done|]. cbn. destruct (decide _); done.
Qed.

Lemma arrivals_elem f t p l e : e ∈ arrivals f t p l ->
  exists i s, e = EArrived i f t p /\ l !! i = Some s /\ owns t s = true.
Proof.
  unfold arrivals. intros H. apply elem_of_list_fmap in H as (i & -> & H).
  apply elem_of_list_filter in H as [H _]. destruct (l !! i) as [s|] eqn:E; [|done]. by exists i, s.
Qed.

(** Every step adds to the log, keeps the sockets, and adds to flights and queues
    what was sent. *)
Lemma uinv_step l n : uinv n -> uinv (udp_step l n).
Proof.
  intros [If Iq Ig Is Iu]. pose proof (step_keeps l n) as HK. destruct n as [ss fl lg]. cbn [n_socks n_flight n_log] in *.
  destruct l as [i a|i p to eph ok|k keep|k|i len|i|i]; cbn [udp_step n_socks n_flight n_log] in *.
  - destruct (ss !! i) as [s|] eqn:E; [|done]. destruct (_ && _) eqn:Ec; [|done].
    rewrite !andb_true_iff in Ec. destruct Ec as [[Eo En] Eu]. apply bool_decide_eq_true in En. apply negb_true_iff in Eu.
    unfold set_sock in *. cbn [n_socks n_flight n_log] in *. constructor; cbn [n_socks n_flight n_log].
    + done.
    + intros j sj f p Hj Hq. destruct (insert_cases (Net ss fl lg) _ _ _ _ _ E Hj) as [[-> ->]|[_ Hj']]; [|by eapply Iq].
      cbn in *. destruct (Iq _ _ _ _ E Hq) as (? & ? & ? & _). congruence.
    + intros j len rc buf f H. destruct (Ig _ _ _ _ _ H) as (s1 & j1 & a1 & p1 & H1 & H2 & H3).
      destruct (HK _ _ H1) as (s2 & H4 & H5 & _). exists s2, j1, a1, p1. split; [done|]. split; [by apply H5|done].
    + intros j f t p H. destruct (Is _ _ _ _ H) as (s1 & H1 & H2). destruct (HK _ _ H1) as (s2 & H4 & H5 & _).
      exists s2. split; [done|by apply H5].
    + intros j1 j2 s1 s2 a' H1 H2 O1 O2.
      destruct (insert_cases (Net ss fl lg) _ _ _ _ _ E H1) as [[-> ->]|[N1 H1']],
        (insert_cases (Net ss fl lg) _ _ _ _ _ E H2) as [[-> ->]|[N2 H2']]; [done| | |by eapply Iu].
      * apply owns_spec in O1 as [_ [= ->]]. pose proof (in_use_false _ (Net ss fl lg) _ _ Eu H2'). congruence.
      * apply owns_spec in O2 as [_ [= ->]]. pose proof (in_use_false _ (Net ss fl lg) _ _ Eu H1'). congruence.
  - destruct (ss !! i) as [s|] eqn:E; [|done]. destruct (us_addr s) as [from|] eqn:Ea.
    + destruct (write_udp _ _ _) as [rc [b|]]; cbn [snd]; [|done]. constructor; cbn [n_socks n_flight n_log].
      * intros f t p' H. apply elem_of_app in H as [H|H].
        { destruct (If _ _ _ H) as [j Hj]. exists j. apply elem_of_app. by left. }
        apply elem_of_list_singleton in H as [= -> -> ->]. exists i. apply elem_of_app. right. by left.
      * intros j sj f p' Hj Hq. destruct (Iq _ _ _ _ Hj Hq) as (j1 & a1 & ? & ?). exists j1, a1. rewrite elem_of_app. tauto.
      * intros j len rc' buf f H. apply elem_of_app in H as [H|H]; [|by apply elem_of_list_singleton in H].
        destruct (Ig _ _ _ _ _ H) as (s1 & j1 & a1 & p1 & H1 & H2 & H3 & H4). exists s1, j1, a1, p1. rewrite elem_of_app. tauto.
      * intros j f t p' H. apply elem_of_app in H as [H|H]; [by eapply Is|]. apply elem_of_list_singleton in H as [= -> -> -> ->].
        by exists s.
      * done.
    + destruct (in_use eph _) eqn:Eu; [done|]. destruct (write_udp _ _ _) as [rc [b|]]; cbn [snd] in *; [|done].
      constructor; cbn [n_socks n_flight n_log].
      * intros f t p' H. apply elem_of_app in H as [H|H].
        { destruct (If _ _ _ H) as [j Hj]. exists j. apply elem_of_app. by left. }
        apply elem_of_list_singleton in H as [= -> -> ->]. exists i. apply elem_of_app. right. by left.
      * intros j sj f p' Hj Hq. destruct (insert_cases (Net ss fl lg) _ _ _ _ _ E Hj) as [[-> ->]|[_ Hj']].
        { cbn in *. destruct (Iq _ _ _ _ E Hq) as (? & ? & ? & _). congruence. }
        destruct (Iq _ _ _ _ Hj' Hq) as (j1 & a1 & ? & ?). exists j1, a1. rewrite elem_of_app. tauto.
      * intros j len rc' buf f H. apply elem_of_app in H as [H|H]; [|by apply elem_of_list_singleton in H].
        destruct (Ig _ _ _ _ _ H) as (s1 & j1 & a1 & p1 & H1 & H2 & H3 & H4).
        destruct (HK _ _ H1) as (s2 & H5 & H6 & _). exists s2, j1, a1, p1. rewrite elem_of_app. pose proof (H6 _ H2). tauto.
      * intros j f t p' H. apply elem_of_app in H as [H|H].
        { destruct (Is _ _ _ _ H) as (s1 & H1 & H2). destruct (HK _ _ H1) as (s2 & H4 & H5 & _).
          exists s2. split; [done|by apply H5]. }
        apply elem_of_list_singleton in H as [= -> -> -> ->]. eexists. rewrite list_lookup_insert by (by apply lookup_lt_Some in E).
        split; [done|done].
      * intros j1 j2 s1 s2 a' H1 H2 O1 O2.
        destruct (insert_cases (Net ss fl lg) _ _ _ _ _ E H1) as [[-> ->]|[N1 H1']],
          (insert_cases (Net ss fl lg) _ _ _ _ _ E H2) as [[-> ->]|[N2 H2']]; [done| | |by eapply Iu].
        -- apply owns_spec in O1 as [_ [= ->]]. pose proof (in_use_false _ (Net ss fl lg) _ _ Eu H2'). congruence.
        -- apply owns_spec in O2 as [_ [= ->]]. pose proof (in_use_false _ (Net ss fl lg) _ _ Eu H1'). congruence.
  - destruct (fl !! k) as [[[f t] p]|] eqn:Ek; [|done]. pose proof (elem_of_list_lookup_2 _ _ _ Ek) as Hfl.
    constructor; cbn [n_socks n_flight n_log] in *.
    + intros f' t' p' H. assert (H' : (f', t', p') ∈ fl).
      { destruct keep; [done|]. apply elem_of_list_lookup in H as [x H].
        destruct (decide (x < k)%nat); [rewrite lookup_delete_lt in H by done|rewrite lookup_delete_ge in H by lia];
          by eapply elem_of_list_lookup_2. }
      destruct (If _ _ _ H') as [j Hj]. exists j. apply elem_of_app. by left.
    + intros j sj f' p' Hj Hq. rewrite list_lookup_fmap in Hj. destruct (ss !! j) as [s|] eqn:Ej; [|done].
      injection Hj as <-. unfold arrive1 in *. destruct (owns t s) eqn:Eo.
      * cbn [us_queue us_addr] in *. apply elem_of_app in Hq as [Hq|Hq].
        { destruct (Iq _ _ _ _ Ej Hq) as (j1 & a1 & ? & ?). exists j1, a1. rewrite elem_of_app. tauto. }
        apply elem_of_list_singleton in Hq as [= -> ->]. apply owns_spec in Eo as [_ Eo].
        destruct (If _ _ _ Hfl) as [j1 Hj1]. exists j1, t. rewrite elem_of_app. tauto.
      * destruct (Iq _ _ _ _ Ej Hq) as (j1 & a1 & ? & ?). exists j1, a1. rewrite elem_of_app. tauto.
    + intros j len rc' buf f' H. apply elem_of_app in H as [H|H].
      2:{ apply arrivals_elem in H as (? & ? & H & _). done. }
      destruct (Ig _ _ _ _ _ H) as (s1 & j1 & a1 & p1 & H1 & H2 & H3 & H4).
      destruct (HK _ _ H1) as (s2 & H5 & H6 & _). exists s2, j1, a1, p1. rewrite elem_of_app. pose proof (H6 _ H2). tauto.
    + intros j f' t' p' H. apply elem_of_app in H as [H|H].
      2:{ apply arrivals_elem in H as (? & ? & H & _). done. }
      destruct (Is _ _ _ _ H) as (s1 & H1 & H2). destruct (HK _ _ H1) as (s2 & H4 & H5 & _).
      exists s2. split; [done|by apply H5].
    + intros j1 j2 s1 s2 a' H1 H2 O1 O2. rewrite list_lookup_fmap in H1, H2.
      destruct (ss !! j1) as [s1'|] eqn:E1; [|done]. destruct (ss !! j2) as [s2'|] eqn:E2; [|done].
      injection H1 as <-. injection H2 as <-. eapply (Iu _ _ _ _ a' E1 E2).
      * revert O1. unfold arrive1. destruct (owns t s1'); done.
      * revert O2. unfold arrive1. destruct (owns t s2'); done.
  - constructor; cbn [n_socks n_flight n_log]; [|done..]. intros f t p H. apply (If f t p).
    apply elem_of_list_lookup in H as [x H].
    destruct (decide (x < k)%nat); [rewrite lookup_delete_lt in H by done|rewrite lookup_delete_ge in H by lia];
      by eapply elem_of_list_lookup_2.
  - destruct (ss !! i) as [s|] eqn:E; [|done]. destruct (us_queue s) as [|[from p] q] eqn:Eq; [done|].
    unfold read_udp in *. destruct (decide _) as [Hst|Hst]; [|done]. cbn [recvfrom] in *. unfold recvfrom in *.
    destruct (0 <=? rc_of (take len p)) eqn:Erc; [|done].
    destruct (Iq i s from p E) as (j0 & a0 & Ha0 & Hs0). { rewrite Eq. by left. }
    constructor; cbn [n_socks n_flight n_log] in *.
    + intros f t p' H. destruct (If _ _ _ H) as [j Hj]. exists j. apply elem_of_app. by left.
    + intros j sj f p' Hj Hq. destruct (insert_cases (Net ss fl lg) _ _ _ _ _ E Hj) as [[-> ->]|[_ Hj']].
      * cbn in *. destruct (Iq i s f p' E) as (j1 & a1 & ? & ?); [rewrite Eq; by right|].
        exists j1, a1. rewrite elem_of_app. tauto.
      * destruct (Iq _ _ _ _ Hj' Hq) as (j1 & a1 & ? & ?). exists j1, a1. rewrite elem_of_app. tauto.
    + intros j len' rc' buf f H. apply elem_of_app in H as [H|H].
      * destruct (Ig _ _ _ _ _ H) as (s1 & j1 & a1 & p1 & H1 & H2 & H3 & H4).
        destruct (HK _ _ H1) as (s2 & H5 & H6 & _). exists s2, j1, a1, p1. rewrite elem_of_app. pose proof (H6 _ H2). tauto.
      * apply elem_of_list_singleton in H as [= -> -> -> -> ->]. eexists _, j0, a0, p.
        rewrite list_lookup_insert by (by apply lookup_lt_Some in E). split; [done|]. split; [done|].
        rewrite elem_of_app. split; [by left|]. unfold rc_of. rewrite take_length. done.
    + intros j f t p' H. apply elem_of_app in H as [H|H]; [|by apply elem_of_list_singleton in H].
      destruct (Is _ _ _ _ H) as (s1 & H1 & H2). destruct (HK _ _ H1) as (s2 & H4 & H5 & _).
      exists s2. split; [done|by apply H5].
    + intros j1 j2 s1 s2 a' H1 H2 O1 O2.
      assert (HO : forall j sj, <[i := USock (us_sock s) (us_addr s) q]> ss !! j = Some sj -> owns a' sj = true ->
        exists sj', ss !! j = Some sj' /\ owns a' sj' = true).
      { intros j sj Hj Ho. destruct (insert_cases (Net ss fl lg) _ _ _ _ _ E Hj) as [[-> ->]|[_ Hj']]; [by exists s|by exists sj]. }
      destruct (HO _ _ H1 O1) as (? & ? & ?), (HO _ _ H2 O2) as (? & ? & ?). by eapply Iu.
  - done.
  - destruct (ss !! i) as [s|] eqn:E; [|done]. unfold set_sock in *. cbn [n_socks n_flight n_log] in *.
    constructor; cbn [n_socks n_flight n_log].
    + done.
    + intros j sj f p' Hj Hq. destruct (insert_cases (Net ss fl lg) _ _ _ _ _ E Hj) as [[-> ->]|[_ Hj']]; [|by eapply Iq].
      cbn in Hq. by apply elem_of_nil in Hq.
    + intros j len rc buf f H. destruct (Ig _ _ _ _ _ H) as (s1 & j1 & a1 & p1 & H1 & H2 & H3).
      destruct (HK _ _ H1) as (s2 & H4 & H5 & _). exists s2, j1, a1, p1. split; [done|]. split; [by apply H5|done].
    + intros j f t p H. destruct (Is _ _ _ _ H) as (s1 & H1 & H2). destruct (HK _ _ H1) as (s2 & H4 & H5 & _).
      exists s2. split; [done|by apply H5].
    + intros j1 j2 s1 s2 a' H1 H2 O1 O2.
      assert (HO : forall j sj, <[i := USock (sock_call OClose 0 (us_sock s)).1.2 (us_addr s) []]> ss !! j = Some sj -> owns a' sj = true ->
        exists sj', ss !! j = Some sj' /\ owns a' sj' = true).
      { intros j sj Hj Ho. destruct (insert_cases (Net ss fl lg) _ _ _ _ _ E Hj) as [[-> ->]|[_ Hj']]; [|by exists sj].
        exists s. split; [done|]. apply owns_spec in Ho as [Ho1 Ho2]. apply owns_spec. cbn in *.
        destruct (decide _); done. }
      destruct (HO _ _ H1 O1) as (? & ? & ?), (HO _ _ H2 O2) as (? & ? & ?). by eapply Iu.
Qed.

Lemma uinv_new k : uinv (net_new k).
Proof.
  constructor; cbn; try (intros; by match goal with H : _ ∈ [] |- _ => apply elem_of_nil in H end).
  - intros i s f p Hi Hq. rewrite list_lookup_fmap in Hi. destruct (seq 0 k !! i); [|done]. injection Hi as <-.
    by apply elem_of_nil in Hq.
  - intros i j s s' a Hi _ Ho _. rewrite list_lookup_fmap in Hi. destruct (seq 0 k !! i); [|done]. injection Hi as <-.
    apply owns_spec in Ho as [_ Ho]. done.
Qed.
Lemma uinv_run ls n : uinv n -> uinv (udp_run ls n).
Proof. revert n. induction ls as [|l ls IH]; intros n H; [done|]. apply IH. by apply uinv_step. Qed.
Lemma uinv_reachable n : udp_reachable n -> uinv n.
Proof. intros (k & ls & ->). apply uinv_run, uinv_new. Qed.

(** ** C129 *)

(** What ReadUdp returns is a datagram that was sent to this socket, from the address
    that is reported. *)
Definition datagram_is_genuine_full : Prop := forall n i len rc buf from,
  udp_reachable n -> EGot i len rc buf from ∈ n_log n ->
  exists s a j p, n_socks n !! i = Some s /\ us_addr s = Some a /\ ESent j from a p ∈ n_log n /\
    rc = Z.of_nat (length (take len p)) /\ buf = take len p.

(** Missing: datagrams with NUL bytes, of which [buf] has the part before the first. *)
Theorem datagram_is_genuine_partial : forall n i len rc buf from,
  udp_reachable n -> EGot i len rc buf from ∈ n_log n ->
  exists s a j p, n_socks n !! i = Some s /\ us_addr s = Some a /\ ESent j from a p ∈ n_log n /\
    rc = Z.of_nat (length (take len p)) /\ buf `prefix_of` take len p /\
    (NUL ∉ take len p -> buf = take len p) /\
    (NUL ∈ take len p -> take (S (length buf)) p = buf ++ [NUL]).
Proof.
  intros n i len rc buf from HR H. destruct (ui_got n (uinv_reachable n HR) _ _ _ _ _ H) as (s & j & a & p & H1 & H2 & H3 & H4 & H5).
  exists s, a, j, p. split; [done|]. split; [done|]. split; [done|]. split; [by rewrite take_length|]. subst buf.
  assert (Hc : forall t, cstr t `prefix_of` t /\ (NUL ∉ t -> cstr t = t) /\ (NUL ∈ t -> take (S (length (cstr t))) t = cstr t ++ [NUL])).
  { intros t. induction t as [|c t (IH1 & IH2 & IH3)]; cbn [cstr].
    - split; [done|]. split; [done|]. intros Hx. by apply elem_of_nil in Hx.
    - destruct (Ascii.eqb c NUL) eqn:E.
      + apply Ascii.eqb_eq in E as ->. split; [apply prefix_nil|]. split; [intros Hx; destruct Hx; by left|done].
      + assert (c <> NUL) by (intros ->; by rewrite Ascii.eqb_refl in E).
        split; [by apply prefix_cons|]. split.
        * intros Hx. apply not_elem_of_cons in Hx as [_ Hx]. by rewrite IH2.
        * intros Hx. apply elem_of_cons in Hx as [Hx|Hx]; [congruence|]. specialize (IH3 Hx).
          change (c :: take (S (length (cstr t))) t = c :: (cstr t ++ [NUL])). by rewrite IH3. }
  destruct (Hc (take len p)) as (Hc1 & Hc2 & Hc3). split; [done|]. split; [done|]. intros Hx. specialize (Hc3 Hx).
  rewrite take_take in Hc3. rewrite <- Hc3. f_equal. apply (f_equal length) in Hc3. rewrite take_length, app_length in Hc3. change (length [NUL]) with 1%nat in Hc3. lia.
Qed.

Definition port (n : N) : address := Addr (htons n) (127, 0, 0, 1)%N.
(** The client's message has a NUL byte. *)
Theorem datagram_is_genuine_refuted : ~ datagram_is_genuine_full.
Proof.
  intros H.
  specialize (H (udp_run [UBind 0 (port 80); USend 1 [NUL; "a"%char] (port 80) (port 999) true; UArrive 0 false; URead 0 9] (net_new 2))
    0%nat 9%nat 2 [] (port 999)).
  destruct H as (s & a & j & p & _ & _ & _ & H1 & H2).
  - by eexists 2%nat, _.
  - vm_compute. right. right. by left.
  - rewrite <- H2 in H1. done.
Qed.

(** A client asks twice, its second question overtakes the first, the first arrives twice. *)
Definition ask : list ulabel := [UBind 0 (port 80); USend 1 (B "one") (port 80) (port 999) true;
  USend 1 (B "second") (port 80) (port 998) true; UArrive 1 false; UArrive 0 true; UArrive 0 false; URead 0 3; URead 0 9; URead 0 9].
Example datagram_ex : n_log (udp_run ask (net_new 2)) =
  [ESent 1 (port 999) (port 80) (B "one"); ESent 1 (port 999) (port 80) (B "second");
   EArrived 0 (port 999) (port 80) (B "second"); EArrived 0 (port 999) (port 80) (B "one"); EArrived 0 (port 999) (port 80) (B "one");
   EGot 0 3 3 (B "sec") (port 999); EGot 0 9 3 (B "one") (port 999); EGot 0 9 3 (B "one") (port 999)].
Proof. by vm_compute. Qed.
Example datagram_genuine_ex : exists s a j p, n_socks (udp_run ask (net_new 2)) !! 0%nat = Some s /\ us_addr s = Some a /\
  ESent j (port 999) a p ∈ n_log (udp_run ask (net_new 2)) /\ 3 = Z.of_nat (length (take 3 p)) /\ B "sec" `prefix_of` take 3 p.
Proof.
  destruct (datagram_is_genuine_partial (udp_run ask (net_new 2)) 0 3 3 (B "sec") (port 999)) as (s & a & j & p & H1 & H2 & H3 & H4 & H5 & _).
  - by exists 2%nat, ask.
  - rewrite datagram_ex. do 5 right. by left.
  - by exists s, a, j, p.
Qed.

(** ** C130 *)

Definition got_by (i : nat) (l : list uev) : list (nat * Z * bytes * address) :=
  omap (fun e => match e with EGot j len rc buf f => if (j =? i)%nat then Some (len, rc, buf, f) else None | _ => None end) l.
Definition arrived_at (i : nat) (l : list uev) : list (address * bytes) :=
  omap (fun e => match e with EArrived j f _ p => if (j =? i)%nat then Some (f, p) else None | _ => None end) l.
(** The result of a read of the datagram [d]. *)
Definition reads (g : nat * Z * bytes * address) (d : address * bytes) : Prop :=
  let '(len, rc, buf, f) := g in f = d.1 /\ rc = Z.of_nat (Nat.min len (length d.2)) /\ buf = cstr (take len d.2).

Lemma arrivals_at f t p l i : arrived_at i (arrivals f t p l) = (if from_option (owns t) false (l !! i) then [(f, p)] else []).
Proof.
  unfold arrived_at, arrivals.
  assert (H : forall k m, omap (fun e => match e with EArrived j f0 _ p0 => if (j =? i)%nat then Some (f0, p0) else None | _ => None end)
    ((fun j => EArrived j f t p) <$> filter (fun j => from_option (owns t) false (l !! j) = true) (seq k m))
    = (if decide (k <= i < k + m)%nat then if from_option (owns t) false (l !! i) then [(f, p)] else [] else [])).
  { intros k m. revert k. induction m as [|m IH]; intros k; cbn [seq].
    - rewrite decide_False by lia. done.
    - rewrite filter_cons. destruct (decide (from_option (owns t) false (l !! k) = true)) as [Hk|Hk].
      + rewrite fmap_cons. cbn [omap list_omap]. change (list_omap) with (@omap list _). rewrite IH.
        destruct (Nat.eqb_spec k i) as [->|Hne].
        * rewrite Hk, (decide_True (P := (i <= i < i + S m)%nat)) by lia. rewrite decide_False by lia. done.
        * destruct (decide (S k <= i < S k + m)%nat), (decide (k <= i < k + S m)%nat); done || lia.
      + rewrite IH. destruct (decide (k = i)) as [->|Hne].
        * rewrite decide_False by lia. rewrite decide_True by lia. apply not_true_is_false in Hk. by rewrite Hk.
        * destruct (decide (S k <= i < S k + m)%nat), (decide (k <= i < k + S m)%nat); done || lia. }
  rewrite H. destruct (l !! i) as [s|] eqn:E.
  - apply lookup_lt_Some in E. rewrite decide_True by lia. done.
  - destruct (decide _); done.
Qed.

Definition fifo (n : net) : Prop := forall i s, n_socks n !! i = Some s -> exists done rest,
  arrived_at i (n_log n) = done ++ rest /\ Forall2 reads (got_by i (n_log n)) done /\
  (so_status (us_sock s) = kInit -> rest = us_queue s).

Lemma fifo_log i l l' : (forall e, e ∈ l' -> match e with ESent _ _ _ _ => True | _ => False end) ->
  got_by i (l ++ l') = got_by i l /\ arrived_at i (l ++ l') = arrived_at i l.
Proof.
  intros H. unfold got_by, arrived_at. rewrite !omap_app.
  assert (omap (fun e => match e with EGot j len rc buf f => if (j =? i)%nat then Some (len, rc, buf, f) else None | _ => None end) l' = [] /\
    omap (fun e => match e with EArrived j f _ p => if (j =? i)%nat then Some (f, p) else None | _ => None end) l' = []) as [-> ->].
  2:{ by rewrite !app_nil_r. }
  induction l' as [|e l' IH]; [done|]. cbn. specialize (H e) as He. destruct e; try (destruct He; by left).
  apply IH. intros e Hin. apply H. by right.
Qed.

Lemma fifo_step l n : fifo n -> fifo (udp_step l n).
Proof.
  intros HF. destruct n as [ss fl lg].
  destruct l as [i a|i p to eph ok|k keep|k|i len|i|i]; cbn [udp_step n_socks n_flight n_log].
  - destruct (ss !! i) as [s|] eqn:E; [|done]. destruct (_ && _) eqn:Ec; [|done]. intros j sj Hj. cbn [n_socks n_log set_sock] in *.
    destruct (insert_cases (Net ss fl lg) _ _ _ _ _ E Hj) as [[-> ->]|[_ Hj']]; [by apply (HF i s E)|by apply HF].
  - destruct (ss !! i) as [s|] eqn:E; [|done].
    assert (HS : forall e, (exists j f t p, e = ESent j f t p) -> forall j sj, ss !! j = Some sj -> exists done rest,
      arrived_at j (lg ++ [e]) = done ++ rest /\ Forall2 reads (got_by j (lg ++ [e])) done /\ (so_status (us_sock sj) = kInit -> rest = us_queue sj)).
    { intros e (j0 & f & t & p0 & ->) j sj Hj. destruct (fifo_log j lg [ESent j0 f t p0]) as [-> ->].
      { intros e He. by apply elem_of_list_singleton in He as ->. } by apply HF. }
    destruct (us_addr s) as [from|] eqn:Ea.
    + destruct (write_udp _ _ _) as [rc [b|]]; cbn [snd]; [|done]. intros j sj Hj. cbn [n_socks n_log] in *.
      apply HS; [|done]. by eexists _, _, _, _.
    + destruct (in_use eph _); [done|]. destruct (write_udp _ _ _) as [rc [b|]]; cbn [snd]; [|done].
      intros j sj Hj. cbn [n_socks n_log] in *.
      destruct (insert_cases (Net ss fl lg) _ _ _ _ _ E Hj) as [[-> ->]|[_ Hj']]; [apply (HS _ ltac:(by eexists _, _, _, _) i s E)|].
      apply HS; [|done]. by eexists _, _, _, _.
  - destruct (fl !! k) as [[[f t] p]|] eqn:Ek; [|done]. intros j sj Hj. cbn [n_socks n_log] in *.
    rewrite list_lookup_fmap in Hj. destruct (ss !! j) as [s|] eqn:Ej; [|done]. injection Hj as <-.
    destruct (HF j s Ej) as (dn & rest & H1 & H2 & H3). cbn [n_log] in *.
    assert (HG : got_by j (lg ++ arrivals f t p ss) = got_by j lg).
    { unfold got_by. rewrite omap_app.
      assert (omap (fun e => match e with EGot j0 len rc buf f => if (j0 =? j)%nat then Some (len, rc, buf, f) else None | _ => None end)
        (arrivals f t p ss) = []) as ->; [|by rewrite app_nil_r].
      unfold arrivals. induction (filter _ _) as [|x y IH]; [done|]. cbn. apply IH. }
    rewrite HG. unfold arrived_at in *. rewrite omap_app. fold (arrived_at j (arrivals f t p ss)). rewrite arrivals_at, Ej. cbn [from_option].
    unfold arrive1. destruct (owns t s) eqn:Eo.
    + exists dn, (rest ++ [(f, p)]). rewrite H1, app_assoc. split; [done|]. split; [done|]. cbn. intros Hs. by rewrite H3.
    + exists dn, rest. rewrite app_nil_r. done.
  - done.
  - destruct (ss !! i) as [s|] eqn:E; [|done]. destruct (us_queue s) as [|[from p] q] eqn:Eq; [done|].
    unfold read_udp in *. destruct (decide _) as [Hst|Hst]; [|done]. unfold recvfrom in *.
    destruct (0 <=? rc_of (take len p)) eqn:Erc; [|done]. intros j sj Hj. cbn [n_socks n_log] in *.
    assert (HA : arrived_at j (lg ++ [EGot i len (rc_of (take len p)) (cstr (take len p)) from]) = arrived_at j lg).
    { unfold arrived_at. rewrite omap_app. cbn. by rewrite app_nil_r. }
    rewrite HA. unfold got_by. rewrite omap_app. fold (got_by j lg). cbn.
    destruct (insert_cases (Net ss fl lg) _ _ _ _ _ E Hj) as [[-> ->]|[Hn Hj']].
    + rewrite Nat.eqb_refl. destruct (HF i s E) as (dn & rest & H1 & H2 & H3). cbn [n_log] in *. specialize (H3 Hst).
      exists (dn ++ [(from, p)]), q. rewrite H1, H3, Eq, <- app_assoc. split; [done|]. split; [|done].
      apply Forall2_app; [done|]. constructor; [|constructor]. cbn. unfold rc_of. by rewrite take_length.
    + destruct (Nat.eqb_spec i j); [congruence|]. rewrite app_nil_r. by apply HF.
  - done.
  - destruct (ss !! i) as [s|] eqn:E; [|done]. intros j sj Hj. cbn [n_socks n_log set_sock] in *.
    destruct (insert_cases (Net ss fl lg) _ _ _ _ _ E Hj) as [[-> ->]|[_ Hj']]; [|by apply HF].
    destruct (HF i s E) as (dn & rest & H1 & H2 & H3). cbn [n_log] in *. exists dn, rest. split; [done|]. split; [done|].
    cbn. destruct (decide _); done.
Qed.
Lemma fifo_reachable n : udp_reachable n -> fifo n.
Proof.
  intros (k & ls & ->). assert (H : fifo (net_new k)).
  { intros i s Hi. cbn in *. exists [], []. split; [done|]. split; [constructor|]. intros _.
    rewrite list_lookup_fmap in Hi. destruct (seq 0 k !! i); [|done]. by injection Hi as <-. }
  revert H. generalize (net_new k) as n. induction ls as [|l ls IH]; intros n H; [done|]. apply IH. by apply fifo_step.
Qed.

(** One read returns one datagram, and the reads return them in the order in which
    they have arrived; those not yet read are in the queue. *)
Theorem one_read_one_datagram : forall n i s, udp_reachable n -> n_socks n !! i = Some s ->
  (forall k g, got_by i (n_log n) !! k = Some g -> exists d, arrived_at i (n_log n) !! k = Some d /\ reads g d) /\
  (so_status (us_sock s) = kInit -> arrived_at i (n_log n) = take (length (got_by i (n_log n))) (arrived_at i (n_log n)) ++ us_queue s).
Proof.
  intros n i s HR Hi. destruct (fifo_reachable n HR i s Hi) as (dn & rest & H1 & H2 & H3). split.
  - intros k g Hk. destruct (Forall2_lookup_l _ _ _ _ _ H2 Hk) as (d & Hd & Hr). exists d. split; [|done].
    rewrite H1. by apply lookup_app_l_Some.
  - intros Hs. rewrite (Forall2_length _ _ _ H2), H1, take_app. by rewrite H3.
Qed.
Example one_read_ex : got_by 0 (n_log (udp_run ask (net_new 2))) !! 1%nat = Some (9%nat, 3, B "one", port 999) /\
  exists d, arrived_at 0 (n_log (udp_run ask (net_new 2))) !! 1%nat = Some d /\ reads (9%nat, 3, B "one", port 999) d.
Proof.
  split; [by vm_compute|]. destruct (n_socks (udp_run ask (net_new 2)) !! 0%nat) as [s|] eqn:E; [|by vm_compute in E].
  apply (proj1 (one_read_one_datagram (udp_run ask (net_new 2)) 0 s (ex_intro _ 2%nat (ex_intro _ ask eq_refl)) E)). by vm_compute.
Qed.

(** ** C131 *)

(** What is sent to the address from which [j] has sent something arrives at [j] and
    nowhere else: a reply reaches the one who asked. *)
Definition reply_reaches_asker_full : Prop := forall n j a to q l1 l2 i f p, udp_reachable n ->
  n_log n = l1 ++ ESent j a to q :: l2 -> EArrived i f a p ∈ l2 -> i = j.

Definition reply_inv (n : net) : Prop := forall j a to q l1 l2 i f p s,
  n_log n = l1 ++ ESent j a to q :: l2 -> EArrived i f a p ∈ l2 ->
  n_socks n !! j = Some s -> so_status (us_sock s) = kInit -> i = j.

Lemma step_log l n : exists new, n_log (udp_step l n) = n_log n ++ new /\
  (new = [] \/ (exists e, new = [e] /\ match e with EArrived _ _ _ _ => False | _ => True end) \/
   exists f t p, new = arrivals f t p (n_socks n)).
Proof.
  assert (H0 : exists new, n_log n = n_log n ++ new /\
    (new = [] \/ (exists e, new = [e] /\ match e with EArrived _ _ _ _ => False | _ => True end) \/
    exists f t p, new = arrivals f t p (n_socks n))).
  { exists []. rewrite app_nil_r. tauto. }
  destruct l as [i a|i p to eph ok|k keep|k|i len|i|i]; cbn [udp_step]; try done.
  - destruct (n_socks n !! i); [|done]. destruct (_ && _); done.
  - destruct (n_socks n !! i) as [s|]; [|done]. destruct (us_addr s); [|destruct (in_use eph n); [done|]];
      destruct (write_udp _ _ _) as [rc [b|]]; cbn [snd]; try done; (eexists; split; [done|]; right; left; by eexists).
  - destruct (n_flight n !! k) as [[[f t] p]|]; [|done]. eexists. split; [done|]. right. right. by exists f, t, p.
  - destruct (n_socks n !! i) as [s|]; [|done]. destruct (us_queue s) as [|[f p] q]; [done|].
    destruct (read_udp _ _ _ _ _) as [[rc buf] a]. destruct (0 <=? rc); [|done].
    eexists. split; [done|]. right. left. by eexists.
  - destruct (n_socks n !! i); done.
Qed.

Lemma reply_step l n : uinv n -> reply_inv n -> reply_inv (udp_step l n).
Proof.
  intros HI HR j a to q l1 l2 i f p s Hl Hin Hj Hs.
  destruct (step_log l n) as (new & Hnew & Hcase). rewrite Hnew in Hl.
  (* j before the step *)
  assert (Hold : forall s0, n_socks n !! j = Some s0 -> so_status (us_sock s0) = kInit).
  { intros s0 H0. destruct (step_keeps l n j s0 H0) as (s1 & H1 & _ & H2). apply H2. congruence. }
  destruct (decide (length (n_log n) <= length l1)%nat) as [Hlen|Hlen].
  - (* the send is new *)
    assert (Hin' : EArrived i f a p ∈ new /\ ESent j a to q ∈ new).
    { assert (Hd : new = drop (length (n_log n)) l1 ++ ESent j a to q :: l2).
      { rewrite <- drop_app_le, <- Hl by done. by rewrite drop_app. }
      rewrite Hd, !elem_of_app, !elem_of_cons. tauto. }
    destruct Hin' as [Ha Hb]. destruct Hcase as [->|[(e & -> & He)|(f' & t' & p' & ->)]].
    + by apply elem_of_nil in Ha.
    + apply elem_of_list_singleton in Ha as <-. done.
    + apply arrivals_elem in Hb as (? & ? & Hb & _). done.
  - assert (Hsplit : exists l2', n_log n = l1 ++ ESent j a to q :: l2' /\ l2 = l2' ++ new).
    { assert (Hn : n_log n = take (length (n_log n)) (l1 ++ ESent j a to q :: l2)) by (by rewrite <- Hl, take_app).
      assert (He : new = drop (length (n_log n)) (l1 ++ ESent j a to q :: l2)) by (by rewrite <- Hl, drop_app).
      rewrite take_app_ge in Hn by lia. rewrite drop_app_ge in He by lia.
      destruct (length (n_log n) - length l1)%nat as [|m] eqn:Em; [lia|]. cbn [take drop] in *.
      exists (take m l2). split; [done|]. rewrite He. by rewrite take_drop. }
    destruct Hsplit as (l2' & Hl' & ->).
    assert (HS : ESent j a to q ∈ n_log n). { rewrite Hl'. apply elem_of_app. right. by left. }
    destruct (ui_sent n HI j a to q HS) as (s0 & Hs0 & Ha0).
    apply elem_of_app in Hin as [Hin|Hin].
    + eapply (HR j a to q l1 l2' i f p s0); [done|done|done|by apply Hold].
    + destruct Hcase as [->|[(e & -> & He)|(f' & t' & p' & ->)]].
      * by apply elem_of_nil in Hin.
      * apply elem_of_list_singleton in Hin as <-. done.
      * apply arrivals_elem in Hin as (i' & si & [= -> -> <- ->] & Hi & Ho).
        eapply (ui_unique n HI); [done|exact Hs0|done|]. apply owns_spec. split; [by apply Hold|done].
Qed.

(** Missing: an asker that has closed its socket; another socket may have got its
    address. *)
Theorem reply_reaches_asker_partial : forall n j a to q l1 l2 i f p s, udp_reachable n ->
  n_log n = l1 ++ ESent j a to q :: l2 -> EArrived i f a p ∈ l2 ->
  n_socks n !! j = Some s -> so_status (us_sock s) = kInit -> i = j.
Proof.
  intros n j a to q l1 l2 i f p s (k & ls & ->).
  assert (H : uinv (net_new k) /\ reply_inv (net_new k)).
  { split; [apply uinv_new|]. intros j' a' to' q' l1' l2' i' f' p' s' Hl. cbn in Hl. by destruct l1'. }
  revert H. generalize (net_new k) as n. induction ls as [|l ls IH]; intros n [H1 H2].
  - intros. by eapply H2.
  - apply IH. split; [by apply uinv_step|by apply reply_step].
Qed.

Definition late_reply : list ulabel := [UBind 0 (port 80); USend 1 (B "who") (port 80) (port 999) true; UArrive 0 false;
  URead 0 9; USend 0 (B "you") (port 999) (port 1) true; UClose 1; UBind 2 (port 999); UArrive 0 false].
Theorem reply_reaches_asker_refuted : ~ reply_reaches_asker_full.
Proof.
  intros H. specialize (H (udp_run late_reply (net_new 3)) 1%nat (port 999) (port 80) (B "who") []
    [EArrived 0 (port 999) (port 80) (B "who"); EGot 0 9 3 (B "who") (port 999); ESent 0 (port 80) (port 999) (B "you");
     EArrived 2 (port 80) (port 999) (B "you")] 2%nat (port 80) (B "you")).
  assert (E : (2 = 1)%nat); [|done]. apply H.
  - by exists 3%nat, late_reply.
  - by vm_compute.
  - do 3 right. by left.
Qed.
Example reply_ex : exists l1 l2, n_log (udp_run (take 5 late_reply ++ [UArrive 0 false; URead 1 9]) (net_new 3)) =
  l1 ++ ESent 1 (port 999) (port 80) (B "who") :: l2 /\ EArrived 1 (port 80) (port 999) (B "you") ∈ l2 /\
  (forall i f p, EArrived i f (port 999) p ∈ l2 -> i = 1%nat).
Proof.
  set (n := udp_run _ _). exists [], (drop 1 (n_log n)).
  assert (E : n_log n = [] ++ ESent 1 (port 999) (port 80) (B "who") :: drop 1 (n_log n)) by by vm_compute.
  split; [done|]. split; [vm_compute; do 3 right; by left|]. intros i f p Hin.
  destruct (n_socks n !! 1%nat) as [s|] eqn:Es; [|by vm_compute in Es].
  eapply (reply_reaches_asker_partial n _ _ _ _ _ _ _ _ _ s); [by eexists 3%nat, _|exact E|exact Hin|done|].
  vm_compute in Es. by injection Es as <-.
Qed.

Print Assumptions datagram_is_genuine_partial.
Print Assumptions datagram_is_genuine_refuted.
Print Assumptions one_read_one_datagram.
Print Assumptions reply_reaches_asker_partial.
Print Assumptions reply_reaches_asker_refuted.
