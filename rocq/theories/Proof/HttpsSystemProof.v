(** Facts about an HTTPS server with all its connections (HttpsSystem.v). *)
From Verif.Spec Require Import ServerSpec SslSpec.
From Verif.Proof Require Import SslProof ServerProof SocketProof HttpSystemProof.
From Verif.Props Require Import SslProps HttpsProps.
From Verif.Model Require Import HttpsSystem.

(** ** Reading when only data has arrived *)

Definition seen2 {A} (r : outcome (A * tls)) : outcome A := ofmap fst r.

Lemma seen_ok {A B} (r : outcome (A * B * tls)) x : seen r = x ->
  match r with
  | Ok (a, b, s) => x = Ok (a, b, tls_stream s)
  | Throw e => x = Throw e | UB => x = UB | Diverge => x = Diverge | Blocked => x = Blocked | Terminate => x = Terminate
  end.
Proof. intros <-. by destruct r as [[[a b] s]| | | | |]. Qed.

Lemma until_loop_bytes d b : forall ch buf len buf' s1,
  until_loop d (map Byte b) Wait ch buf = Ok (len, buf', s1) -> exists b', s1 = Stream (map Byte b') Wait.
Proof.
  induction b as [|c b IH]; intros ch buf len buf' s1 E; cbn [until_loop map] in E;
    destruct (until_goes_on d buf ch) as [[]| | | | |]; cbn [mbind outcome_bind] in E; try done.
  - injection E as _ _ <-. by exists [].
  - by eapply IH.
  - injection E as _ _ <-. by exists (c :: b).
Qed.

Lemma grab_bytes n b : grab n (map Byte b) = (take n b, map Byte (drop n b), false).
Proof.
  revert b. induction n as [|n IH]; intros b; [by destruct b|]. destruct b as [|c b]; [done|].
  cbn [grab map]. by rewrite IH.
Qed.
Lemma recv_all_bytes n b : recv_all n (Stream (map Byte b) Wait) =
  if decide (n <= length b) then Ok (Z.of_nat n, take n b, Stream (map Byte (drop n b)) Wait) else Blocked.
Proof.
  unfold recv_all. cbn [sm_items sm_tail]. rewrite grab_bytes. case_decide as H.
  - rewrite take_length, Nat.min_l by done. rewrite Nat.eqb_refl. unfold rc_of. by rewrite take_length, Nat.min_l.
  - rewrite take_length, Nat.min_r by lia. by rewrite (proj2 (Nat.eqb_neq _ _)) by lia.
Qed.

Lemma content_length_range h : (header_get_content_length h <= int_max)%Z.
Proof.
  unfold header_get_content_length. destruct (h !! _) as [v|]; [|unfold int_max; lia].
  destruct (stoi v) as [n| | | | |] eqn:E; try (unfold int_max; lia).
  unfold stoi in E. repeat case_match; try done; unfold stoi_range in E; repeat case_match; simplify_eq; lia.
Qed.

Lemma stream_eta s : s = Stream (sm_items s) (sm_tail s).
Proof. by destruct s. Qed.

(** MSG_WAITALL over TLS and over TCP, as long as only data arrives. *)
Lemma wait_all_bytes n s b : (0 < n <= int_max)%Z -> tls_stream s = Stream (map Byte b) Wait ->
  seen (ssl_read_string true (Z.to_N n) s) = read_string true 0 (Z.to_nat n) (Stream (map Byte b) Wait).
Proof.
  intros Hn Hs. unfold ssl_read_string, read_string, ssl_ioread. rewrite recv_all_bytes.
  assert (Hi : sm_items (tls_stream s) = map Byte b) by (by rewrite Hs).
  assert (Ht : tl_tail s = Wait) by (by injection Hs).
  unfold int_max in Hn. case_decide as H.
  - assert (Hi2 : sm_items (tls_stream s) = map Byte (take (Z.to_nat n) b) ++ map Byte (drop (Z.to_nat n) b)).
    { by rewrite <- map_app, take_drop. }
    destruct (wait_all_enough (S (S (tl_size s))) (Z.to_N n) 0 [] s (take (Z.to_nat n) b) (map Byte (drop (Z.to_nat n) b)))
      as (s' & -> & E); [lia|lia|rewrite take_length; lia|lia|done|].
    unfold seen. cbn [mbind outcome_bind app]. rewrite E, Ht. do 3 f_equal. f_equal. lia.
  - pose proof (wait_all_short (S (S (tl_size s))) (Z.to_N n) 0 [] s b [] ltac:(lia) ltac:(lia) ltac:(lia) ltac:(lia)) as E.
    rewrite app_nil_r, Ht in E. by rewrite (E Hi I).
Qed.

Section calm.
Context {U : Type}.
Implicit Types (w : world U) (ro : router U).

(** HandleRead does the same over TLS and over TCP. *)
Lemma handle_read_tls_calm hit wr ro e w s b :
  tls_stream s = Stream (map Byte b) Wait ->
  match handle_read_tls hit wr ro e w s with
  | Ok (v, s') => handle_read hit wr ro e w (tls_stream s) = Ok v /\ tls_stream s' = sv_rest v
  | Throw x => handle_read hit wr ro e w (tls_stream s) = Throw x
  | UB => handle_read hit wr ro e w (tls_stream s) = UB
  | Diverge => handle_read hit wr ro e w (tls_stream s) = Diverge
  | Blocked => handle_read hit wr ro e w (tls_stream s) = Blocked
  | Terminate => handle_read hit wr ro e w (tls_stream s) = Terminate
  end.
Proof.
  intros Hs. unfold handle_read_tls, handle_read.
  pose proof (seen_ok _ _ (ssl_read_until_same [] CRLFCRLF s)) as Hu.
  destruct (ssl_read_until [] CRLFCRLF s) as [[[len buf] s1]| | | | |]; rewrite Hu; cbn [mbind outcome_bind]; try done.
  assert (exists b', tls_stream s1 = Stream (map Byte b') Wait) as [b' Hb'].
  { rewrite Hs in Hu. unfold read_until in Hu. cbn [sm_items sm_tail] in Hu.
    change CRLFCRLF with (CR :: drop 1 CRLFCRLF) in Hu. cbv iota beta in Hu. eapply until_loop_bytes. exact Hu. }
  destruct (len <=? 0)%Z; [done|].
  destruct (req_parse req_new buf) as [[rc r]| | | | |]; cbn [mbind outcome_bind]; try done.
  destruct (negb (rc =? kSuccess)%Z).
  { destruct (resp_build hit _ []) as [[rc' p] rb]. by destruct (sock_write wr rb) as [[z sent]| | | | |]. }
  pose proof (content_length_range (rq_header r)) as Hmax.
  assert (Ha : forall r s2, match (v ← answer hit wr ro r e w (tls_stream s2); Ok (v, s2)) with
    | Ok (v, s') => answer hit wr ro r e w (tls_stream s2) = Ok v /\ tls_stream s' = sv_rest v
    | Throw x => answer hit wr ro r e w (tls_stream s2) = Throw x
    | UB => answer hit wr ro r e w (tls_stream s2) = UB
    | Diverge => answer hit wr ro r e w (tls_stream s2) = Diverge
    | Blocked => answer hit wr ro r e w (tls_stream s2) = Blocked
    | Terminate => answer hit wr ro r e w (tls_stream s2) = Terminate
    end).
  { clear. intros r s2. destruct (answer hit wr ro r e w (tls_stream s2)) as [v| | | | |] eqn:E; cbn [mbind outcome_bind]; try done.
    split; [done|]. symmetry. by eapply answer_rest. }
  destruct (Z.ltb_spec 0 (header_get_content_length (rq_header r))); [|apply Ha].
  pose proof (seen_ok _ _ (wait_all_bytes (header_get_content_length (rq_header r)) s1 b' ltac:(lia) Hb')) as Hr.
  rewrite Hb'.
  destruct (ssl_read_string true _ s1) as [[[rc' body] s2]| | | | |]; cbn [mbind outcome_bind]; rewrite Hr; cbn [mbind outcome_bind]; try done.
  destruct (rc' <=? 0)%Z; [done|]. apply Ha.
Qed.
End calm.

(** ** How far into the records reading has come *)

(** The connection is between two of the items [its], or inside one of them. *)
Definition within (its : list sitem) (s : tls) : Prop :=
  (tl_buf s = [] /\ exists pre, its = pre ++ tl_items s) \/
  (exists pre r c, its = pre ++ Rec r :: tl_items s /\ c <> [] /\ r = c ++ tl_buf s).

Lemma next_record_within its n l t rc b s' : (0 < n) -> (exists pre, its = pre ++ l) ->
  next_record n l t = Ok (rc, b, s') -> within its s'.
Proof.
  intros Hn. induction l as [|[[|c r]|] l IH]; intros [pre Hp] E; cbn [next_record] in E.
  - destruct t; try done; injection E as _ _ <-; left; (split; [done|]); by exists pre.
  - apply IH; [|done]. exists (pre ++ [Rec []]). by rewrite <- app_assoc.
  - injection E as _ _ <-. right. exists pre, (c :: r), (take n (c :: r)). cbn [tl_buf tl_items].
    split; [done|]. split; [by destruct n; [lia|]|]. by rewrite take_drop.
  - injection E as _ _ <-. left. split; [done|]. exists (pre ++ [SGap]). by rewrite <- app_assoc.
Qed.
Lemma ssl_read_within its num s rc b s' : within its s -> ssl_read num s = Ok (rc, b, s') -> within its s'.
Proof.
  intros Hw E. unfold ssl_read in E. destruct (Z.ltb_spec num 0); [by injection E as _ _ <-|].
  destruct (Z.eqb_spec num 0); [by injection E as _ _ <-|].
  destruct (tl_buf s) as [|x y] eqn:Eb.
  - eapply (next_record_within _ _ _ _ _ _ _ _ _ E). Unshelve. { lia. }
    destruct Hw as [[_ H']|(pre & r & c & -> & _)]; [done|]. exists (pre ++ [Rec r]). by rewrite <- app_assoc.
  - injection E as _ _ <-. destruct Hw as [[H' _]|(pre & r & c & -> & Hc & Hr)]; [congruence|].
    right. exists pre, r, (c ++ take (Z.to_nat num) (x :: y)). cbn [tl_buf tl_items]. split; [done|]. split.
    + by destruct c.
    + by rewrite <- app_assoc, take_drop, <- Eb.
Qed.
Lemma wait_all_within its fuel : forall len total acc s rc b s',
  within its s -> wait_all fuel len total acc s = Ok (rc, b, s') -> within its s'.
Proof.
  induction fuel as [|fuel IH]; intros len total acc s rc b s' Hw E; [done|]. cbn [wait_all] in E.
  destruct (int_to_size total <? len)%N; [|by injection E as _ _ <-].
  destruct (ssl_read _ s) as [[[rc1 b1] s1]| | | | |] eqn:E1; cbn [mbind outcome_bind] in E; try done.
  apply (ssl_read_within _ _ _ _ _ _ Hw) in E1. destruct (rc1 <=? 0)%Z; [by injection E as _ _ <-|].
  destruct (_ <=? int_max)%Z; [|done]. by eapply IH.
Qed.
Lemma until_within its fuel : forall d s ch buf rc b s',
  within its s -> ssl_until_loop fuel d s ch buf = Ok (rc, b, s') -> within its s'.
Proof.
  induction fuel as [|fuel IH]; intros d s ch buf rc b s' Hw E; [done|]. cbn [ssl_until_loop] in E.
  destruct (until_goes_on d buf ch) as [[]| | | | |]; cbn [mbind outcome_bind] in E; try done.
  - destruct (ssl_ioread FlNone 1 s) as [[[rc1 b1] s1]| | | | |] eqn:E1; cbn [mbind outcome_bind] in E; try done.
    unfold ssl_ioread in E1. apply (ssl_read_within _ _ _ _ _ _ Hw) in E1. destruct (rc1 <=? 0)%Z; [by injection E as _ _ <-|].
    by eapply IH.
  - by injection E as _ _ <-.
Qed.
Lemma handle_read_tls_within {U} its hit wr (ro : router U) e w s v s' :
  within its s -> handle_read_tls hit wr ro e w s = Ok (v, s') -> within its s'.
Proof.
  intros Hw E. unfold handle_read_tls in E.
  destruct (ssl_read_until [] CRLFCRLF s) as [[[len buf] s1]| | | | |] eqn:E1; cbn [mbind outcome_bind] in E; try done.
  assert (Hw1 : within its s1).
  { unfold ssl_read_until in E1. change CRLFCRLF with (CR :: drop 1 CRLFCRLF) in E1. cbv iota beta in E1. eapply until_within; [exact Hw|exact E1]. }
  destruct (len <=? 0)%Z; [by injection E as _ <-|].
  destruct (req_parse req_new buf) as [[rc r]| | | | |]; cbn [mbind outcome_bind] in E; try done.
  destruct (negb (rc =? kSuccess)%Z).
  { destruct (resp_build hit _ []) as [[rc' p] rb].
    destruct (sock_write wr rb) as [[z sent]| | | | |]; cbn [mbind outcome_bind] in E; try done. by injection E as _ <-. }
  destruct (0 <? _)%Z.
  - unfold ssl_read_string, ssl_ioread in E.
    destruct (wait_all _ _ _ _ s1) as [[[rc' body] s2]| | | | |] eqn:E2; cbn [mbind outcome_bind] in E; try done.
    apply (wait_all_within _ _ _ _ _ _ _ _ _ Hw1) in E2. destruct (rc' <=? 0)%Z; [by injection E as _ <-|].
    destruct (answer _ _ _ _ _ _ _); cbn [mbind outcome_bind] in E; try done. by injection E as _ <-.
  - destruct (answer _ _ _ _ _ _ _); cbn [mbind outcome_bind] in E; try done. by injection E as _ <-.
Qed.

Definition filled (rs : list bytes) : Prop := Forall (fun r => r <> []) rs.
Lemma suffix_split {A} (p1 p2 l1 l2 : list A) : p1 ++ l1 = p2 ++ l2 -> length l1 <= length l2 -> exists q, l2 = q ++ l1.
Proof.
  intros E Hl. exists (take (length l2 - length l1) l2).
  assert (E2 : drop (length l2 - length l1) l2 = l1); [|transitivity (take (length l2 - length l1) l2 ++ drop (length l2 - length l1) l2); [by rewrite take_drop|by rewrite E2]].
  assert (Ht : length p2 <= length p1) by (apply (f_equal length) in E; rewrite !app_length in E; lia).
  assert (E3 : drop (length p1) (p2 ++ l2) = l1) by (rewrite <- E; apply drop_app).
  rewrite drop_app_ge in E3 by done. etrans; [|exact E3]. f_equal.
  apply (f_equal length) in E. rewrite !app_length in E. lia.
Qed.
Lemma filled_concat_nil rs : filled rs -> concat rs = [] -> rs = [].
Proof. destruct rs as [|r rs]; [done|]. intros H E. apply Forall_cons in H as [H _]. cbn in E. by apply app_eq_nil in E as [? _]. Qed.
Lemma flat_recs rs : flat (Rec <$> rs) = map Byte (concat rs).
Proof. induction rs as [|r rs IH]; [done|]. rewrite fmap_cons, flat_cons, IH. cbn. by rewrite map_app. Qed.
Lemma map_Byte_inj b1 b2 : map Byte b1 = map Byte b2 -> b1 = b2.
Proof. revert b2. induction b1 as [|a b1 IH]; intros [|c b2] H; try done. injection H as -> H. f_equal. by apply IH. Qed.

(** All and only the bytes of [g] have been read: reading is between two records. *)
Lemma aligned_cut g rest s t :
  filled (g ++ rest) -> within (Rec <$> (g ++ rest)) s -> tls_stream s = Stream (map Byte (concat rest)) t ->
  tl_buf s = [] /\ tl_items s = Rec <$> rest.
Proof.
  intros Hf Hw Hs. unfold tls_stream in Hs. injection Hs as Hs _.
  assert (Hfr : filled rest) by (by apply Forall_app in Hf as [_ ?]).
  destruct Hw as [[Hb [pre Hp]]|(pre & r & c & Hp & Hc & Hr)].
  - split; [done|]. rewrite Hb in Hs. cbn in Hs.
    apply fmap_app_inv in Hp as (k1 & k2 & E1 & E2 & E). rewrite E2 in *.
    rewrite flat_recs in Hs. apply map_Byte_inj in Hs. f_equal.
    assert (Hfk : filled k2) by (rewrite E in Hf; by apply Forall_app in Hf as [_ ?]).
    destruct (decide (length k2 <= length rest)) as [Hl|Hl].
    + destruct (suffix_split _ _ _ _ (eq_sym E) Hl) as [q ->]. rewrite concat_app in Hs.
      symmetry in Hs. rewrite <- (app_nil_l (concat k2)) in Hs at 2. apply app_inv_tail in Hs.
      apply filled_concat_nil in Hs as ->; [done|]. by apply Forall_app in Hfr as [? _].
    + destruct (suffix_split _ _ _ _ E ltac:(lia)) as [q ->]. rewrite concat_app in Hs.
      rewrite <- (app_nil_l (concat rest)) in Hs at 2. apply app_inv_tail in Hs.
      apply filled_concat_nil in Hs as ->; [done|]. by apply Forall_app in Hfk as [? _].
  - replace (pre ++ Rec r :: tl_items s) with ((pre ++ [Rec r]) ++ tl_items s) in Hp by (by rewrite <- app_assoc).
    apply fmap_app_inv in Hp as (k1 & k2 & E1 & E2 & E). symmetry in E1.
    apply fmap_app_inv in E1 as (k0 & kr & E0 & E1 & ->). symmetry in E1. cbn in E1.
    destruct kr as [|r' [|]]; cbn in E1; try done. injection E1 as ->.
    rewrite E2 in *. rewrite flat_recs, <- map_app in Hs. apply map_Byte_inj in Hs.
    destruct (decide (length rest <= length k2)) as [Hl|Hl].
    + destruct (suffix_split _ _ _ _ E Hl) as [q Hq].
      destruct (tl_buf s) as [|x y] eqn:Eb.
      * split; [done|]. f_equal. cbn in Hs. rewrite Hq, concat_app in Hs.
        assert (Hfk : filled k2) by (rewrite E in Hf; by apply Forall_app in Hf as [_ ?]).
        rewrite <- (app_nil_l (concat rest)) in Hs at 2. apply app_inv_tail in Hs.
        apply filled_concat_nil in Hs as ->; [done|]. rewrite Hq in Hfk. by apply Forall_app in Hfk as [? _].
      * exfalso. apply (f_equal length) in Hs. rewrite Hq, concat_app, !app_length in Hs. simpl in Hs. lia.
    + assert (E' : k0 ++ r :: k2 = g ++ rest) by (rewrite E, <- app_assoc; done).
      destruct (suffix_split _ _ _ _ E' ltac:(simpl; lia)) as [q Hq].
      exfalso. apply (f_equal length) in Hs. rewrite Hq, concat_app in Hs. cbn in Hs. rewrite Hr in Hs.
      rewrite !app_length in Hs. destruct c; [done|]. simpl in Hs. lia.
Qed.

Lemma flat_bytes l x : flat l = map Byte x -> x = concat (records_of l).
Proof.
  revert x. induction l as [|[b|] l IH]; intros x H.
  - symmetry in H. by apply map_Byte_nil in H.
  - rewrite flat_cons in H. change (records_of (Rec b :: l)) with (b :: records_of l). cbn [concat].
    assert (exists y, x = b ++ y /\ flat l = map Byte y) as (y & -> & Hy).
    { clear IH. revert x H. induction b as [|c b IHb]; intros x H; [by exists x|]. destruct x as [|d x]; [done|].
      cbn in H. injection H as -> H. destruct (IHb x H) as (y & -> & ?). by exists y. }
    f_equal. by apply IH.
  - by destruct x.
Qed.
Lemma flat_of_app l x y : flat (l ++ x) = flat l ++ y -> flat x = y.
Proof. unfold flat. rewrite bind_app. apply app_inv_head. Qed.
Lemma records_of_recs rs : records_of (Rec <$> rs) = rs.
Proof. induction rs as [|r rs IH]; [done|]. rewrite fmap_cons. unfold records_of in *. cbn. by f_equal. Qed.

(** ** Runs *)

Section system.
Context {U : Type}.
Implicit Types (w : world U) (ro : router U).

Lemma xrun_app hit ro e (s : xsys U) a b :
  xrun hit ro e s (a ++ b) = (s' ← xrun hit ro e s a; xrun hit ro e s' b).
Proof.
  revert s. induction a as [|l a IH]; intros s; [done|]. simpl.
  destruct (xstep hit ro e s l) as [s1|]; [|done]. simpl. apply IH.
Qed.
Lemma xrun_snoc hit ro e (s s' : xsys U) ls l :
  xrun hit ro e s (ls ++ [l]) = Some s' ->
  exists s1, xrun hit ro e s ls = Some s1 /\ xstep hit ro e s1 l = Some s'.
Proof.
  rewrite xrun_app. destruct (xrun hit ro e s ls) as [s1|]; [|done]. simpl. intros H.
  exists s1. split; [done|]. by destruct (xstep hit ro e s1 l).
Qed.

Definition xabout (l : xlab) : nat :=
  match l with
  | XOpen i | XHello i _ | XSend i _ | XFin i | XShake i | XServe i _ _ | XResume i _ | XTimeout i _ => i
  end.

Lemma xread_other hit ro e wr m i c (s : xsys U) j :
  j <> i -> xs_conns (xread hit ro e wr m i c s) !! j = xs_conns s !! j.
Proof.
  intros H. unfold xread. destruct (handle_read_tls _ _ _ _ _ _) as [[v t]| | | | |]; cbn [xs_conns]; try done.
  by rewrite lookup_insert_ne.
Qed.

(** What a step is, by cases. *)
Lemma xstep_cases hit ro e (s s' : xsys U) l :
  xstep hit ro e s l = Some s' ->
  match l with
  | XOpen i => xs_thr s = XFree /\ xs_conns s !! i = None /\ s' = xwith s (XHand i) i tconn_new
  | _ => exists c, xs_conns s !! xabout l = Some c /\
    match l with
    | XOpen _ => False
    | XHello i good => tn_open c = true /\ tn_fin c = false /\ tn_hello c = None /\
        s' = xwith s (xs_thr s) i (TConn (tn_buf c) (tn_wire c) (tn_fin c) (Some good) (tn_est c) (tn_open c) (tn_out c) (tn_sent c))
    | XSend i bs => tn_open c = true /\ tn_fin c = false /\ tn_hello c = Some true /\
        s' = xwith s (xs_thr s) i (TConn (tn_buf c) (tn_wire c ++ [bs]) (tn_fin c) (tn_hello c) (tn_est c) (tn_open c) (tn_out c) (tn_sent c))
    | XFin i => tn_open c = true /\
        s' = xwith s (xs_thr s) i (TConn (tn_buf c) (tn_wire c) true (tn_hello c) (tn_est c) (tn_open c) (tn_out c) (tn_sent c))
    | XShake i => xs_thr s = XHand i /\
        ((tn_hello c = Some true /\
          s' = xwith s XFree i (TConn (tn_buf c) (tn_wire c) (tn_fin c) (tn_hello c) true (tn_open c) (tn_out c) (tn_sent c))) \/
         ((tn_hello c = Some false \/ tn_hello c = None /\ tn_fin c = true) /\ s' = xwith s XFree i (tn_closed c)))
    | XServe i leave wr => xs_thr s = XFree /\ tn_open c = true /\ (tn_wire c ≠ [] ∨ tn_fin c = true) /\
        (if leave then tn_fin c = true /\ s' = xwith s XFree i (tn_closed c) else s' = xread hit ro e wr [] i c s)
    | XResume i wr => xs_thr s = XIn i /\ s' = xread hit ro e wr [] i c s /\ xs_thr s' <> XIn i
    | XTimeout i wr =>
        (xs_thr s = XHand i /\ s' = xwith s XFree i (tn_closed c)) \/
        (xs_thr s = XIn i /\ s' = xread hit ro e wr [SGap] i c s)
    end
  end.
Proof.
  intros H. destruct l as [i|i g|i bs|i|i|i lv wr|i wr|i wr]; cbn [xstep xabout] in *;
    try (destruct (xs_conns s !! i) as [c|]; [|done]; cbn [mbind option_bind] in H; exists c; split; [done|]).
  - destruct (decide (_ ∧ _)) as [[? ?]|]; [|done]. by injection H as <-.
  - destruct (decide (_ ∧ _)) as [(? & ? & ?)|]; [|done]. by injection H as <-.
  - destruct (decide (_ ∧ _)) as [(? & ? & ?)|]; [|done]. by injection H as <-.
  - destruct (tn_open c) eqn:?; [|done]. by injection H as <-.
  - destruct (decide (xs_thr s = XHand i)); [|done]. split; [done|].
    destruct (tn_hello c) as [[]|] eqn:Eh.
    + injection H as <-. by left.
    + injection H as <-. right. split; [by left|done].
    + destruct (tn_fin c) eqn:?; [|done]. injection H as <-. right. split; [by right|done].
  - destruct (decide (_ ∧ _)) as [(? & ? & ?)|]; [|done]. do 3 (split; [done|]). destruct lv.
    + destruct (tn_fin c); [|done]. by injection H as <-.
    + by injection H as <-.
  - destruct (decide (xs_thr s = XIn i)); [|done]. destruct (decide (_ = XIn i)); [done|]. by injection H as <-.
  - destruct (decide (xs_thr s = XHand i)); [left; by injection H as <-|].
    destruct (decide (xs_thr s = XIn i)); [|done]. right. by injection H as <-.
Qed.

Lemma xstep_other hit ro e (s s' : xsys U) l j :
  xstep hit ro e s l = Some s' -> xabout l <> j -> xs_conns s' !! j = xs_conns s !! j.
Proof.
  intros H Hj. assert (Hn : j <> xabout l) by congruence. apply xstep_cases in H.
  destruct l as [i|i g|i bs|i|i|i lv wr|i wr|i wr]; cbn [xabout] in *.
  - destruct H as (_ & _ & ->). cbn. by rewrite lookup_insert_ne.
  - destruct H as (c & _ & _ & _ & _ & ->). cbn. by rewrite lookup_insert_ne.
  - destruct H as (c & _ & _ & _ & _ & ->). cbn. by rewrite lookup_insert_ne.
  - destruct H as (c & _ & _ & ->). cbn. by rewrite lookup_insert_ne.
  - destruct H as (c & _ & _ & [[_ ->]|[_ ->]]); cbn; by rewrite lookup_insert_ne.
  - destruct H as (c & _ & _ & _ & _ & H). destruct lv.
    + destruct H as [_ ->]. cbn. by rewrite lookup_insert_ne.
    + subst. by apply xread_other.
  - destruct H as (c & _ & _ & -> & _). by apply xread_other.
  - destruct H as (c & _ & [[_ ->]|[_ ->]]); [cbn; by rewrite lookup_insert_ne|by apply xread_other].
Qed.

(** Connections do not disappear. *)
Lemma xread_keeps hit ro e wr m i c (s : xsys U) j :
  is_Some (xs_conns s !! j) -> is_Some (xs_conns (xread hit ro e wr m i c s) !! j).
Proof.
  intros H. unfold xread. destruct (handle_read_tls _ _ _ _ _ _) as [[v t]| | | | |]; cbn [xs_conns]; try done.
  destruct (decide (j = i)) as [->|]; [rewrite lookup_insert; by eexists|by rewrite lookup_insert_ne].
Qed.
Lemma xwith_keeps (s : xsys U) t i c j : is_Some (xs_conns s !! j) -> is_Some (xs_conns (xwith s t i c) !! j).
Proof. intros H. cbn. destruct (decide (j = i)) as [->|]; [rewrite lookup_insert; by eexists|by rewrite lookup_insert_ne]. Qed.
Lemma xstep_keeps hit ro e (s s' : xsys U) l j :
  xstep hit ro e s l = Some s' -> is_Some (xs_conns s !! j) -> is_Some (xs_conns s' !! j).
Proof.
  intros H Hj. apply xstep_cases in H. destruct l as [i|i g|i bs|i|i|i lv wr|i wr|i wr]; cbn [xabout] in *.
  - destruct H as (_ & _ & ->). by apply xwith_keeps.
  - destruct H as (c & _ & _ & _ & _ & ->). by apply xwith_keeps.
  - destruct H as (c & _ & _ & _ & _ & ->). by apply xwith_keeps.
  - destruct H as (c & _ & _ & ->). by apply xwith_keeps.
  - destruct H as (c & _ & _ & [[_ ->]|[_ ->]]); by apply xwith_keeps.
  - destruct H as (c & _ & _ & _ & _ & H). destruct lv.
    + destruct H as [_ ->]. by apply xwith_keeps.
    + subst. by apply xread_keeps.
  - destruct H as (c & _ & _ & -> & _). by apply xread_keeps.
  - destruct H as (c & _ & [[_ ->]|[_ ->]]); [by apply xwith_keeps|by apply xread_keeps].
Qed.

(** The records that the peer of connection [i] has sent. *)
Definition recs_by (i : nat) (ls : list xlab) : list bytes :=
  ls ≫= fun l => match l with XSend j bs => if decide (j = i) then [bs] else [] | _ => [] end.
Lemma recs_by_snoc i ls l : recs_by i (ls ++ [l]) =
  recs_by i ls ++ match l with XSend j bs => if decide (j = i) then [bs] else [] | _ => [] end.
Proof. unfold recs_by. rewrite bind_app. f_equal. cbn. apply app_nil_r. Qed.

Lemma recs_by_none hit ro e w0 (s : xsys U) ls i :
  xrun hit ro e (xsys_new w0) ls = Some s -> xs_conns s !! i = None -> recs_by i ls = [].
Proof.
  revert s. induction ls as [|l ls IH] using rev_ind; intros s H Hi; [done|].
  apply xrun_snoc in H as (s1 & H1 & Hl). rewrite recs_by_snoc.
  assert (H0 : xs_conns s1 !! i = None).
  { destruct (xs_conns s1 !! i) as [c|] eqn:Ec; [|done].
    destruct (xstep_keeps _ _ _ _ _ _ i Hl) as [c' Hc']; [by exists c|congruence]. }
  rewrite (IH s1 H1 H0). cbn. destruct l; try done. case_decide; [|done]. subst.
  apply xstep_cases in Hl as (c & Hc & _). cbn in Hc. congruence.
Qed.

(** ** Peers that send whole requests *)

(** Nothing but data happens to connection [i] after the handshake, and writing does
    not fail. *)
Definition xcalm (i : nat) (l : xlab) : Prop :=
  match l with
  | XHello j good => j = i -> good = true
  | XFin j | XTimeout j _ => j <> i
  | XServe j _ wr | XResume j wr => j = i -> exists k, wr = WTake k
  | _ => True
  end.

Definition pending (c : tconn) : bytes := tn_buf c ++ concat (tn_wire c).
Record xprogress (ro : router U) (i : nat) (texts : list bytes) (rs : list req) (ls : list xlab) (c : tconn) (k : nat)
    : Prop := {
  xp_open : tn_open c = true; xp_fin : tn_fin c = false;
  xp_hello : tn_hello c <> Some false;
  xp_len : length (tn_out c) = k /\ k <= length texts;
  xp_in : concat (recs_by i ls) = concat (take k texts) ++ pending c;
  xp_out : Forall2 (answers ro) (take k rs) (tn_out c) }.

(** Reading is at the end of a request, and requests end at the ends of records. *)
Definition aligned (i : nat) (recss : list (list bytes)) (ls : list xlab) (c : tconn) (k : nat) : Prop :=
  tn_buf c = [] /\ recs_by i ls = concat (take k recss) ++ tn_wire c.
(** The peer's records, grouped by the requests [texts]. *)
Definition grouped (texts : list bytes) (recss : list (list bytes)) : Prop :=
  texts = map (@concat ascii) recss /\ Forall filled recss.

Lemma xprefix_pending (texts : list bytes) k i ls (c : tconn) :
  concat (recs_by i ls) = concat (take k texts) ++ pending c -> concat (recs_by i ls) `prefix_of` concat texts ->
  pending c `prefix_of` concat (drop k texts).
Proof.
  intros H Hp. rewrite H in Hp.
  assert (E : concat texts = concat (take k texts) ++ concat (drop k texts)) by (by rewrite <- concat_app, take_drop).
  rewrite E in Hp. by apply prefix_app_inv in Hp.
Qed.

Lemma conn_stream c : tn_fin c = false ->
  tls_stream (Tls (tn_buf c) ((Rec <$> tn_wire c) ++ []) (if tn_fin c then Eof else Wait)) = Stream (map Byte (pending c)) Wait.
Proof. intros ->. unfold tls_stream. cbn [tl_buf tl_items tl_tail]. by rewrite app_nil_r, flat_recs, <- map_app. Qed.

Lemma filled_prefix_length (a b : list bytes) : filled b -> a `prefix_of` b -> length (concat b) <= length (concat a) -> a = b.
Proof.
  intros Hf [q ->] Hl. rewrite concat_app, app_length in Hl. destruct (concat q) eqn:E; [|simpl in Hl; lia].
  apply filled_concat_nil in E as ->; [by rewrite app_nil_r|]. by apply Forall_app in Hf as [_ ?].
Qed.
Lemma filled_concat_all (recss : list (list bytes)) : Forall filled recss -> filled (concat recss).
Proof. unfold filled. induction 1; [constructor|]. cbn. by apply Forall_app. Qed.

(** One call of HandleRead for a connection in progress. *)
Lemma xread_progress hit ro e n (s : xsys U) i c texts rs ls k :
  valid_order hit -> requests texts rs -> Forall (tame ro) rs ->
  xprogress ro i texts rs ls c k -> concat (recs_by i ls) `prefix_of` concat texts ->
  let s' := xread hit ro e (WTake n) [] i c s in
  ((pending c = [] \/ exists text rest, drop k texts = text :: rest /\ pending c `prefix_of` text /\ pending c <> text) /\
     s' = XSys (xs_world s) (XIn i) (xs_conns s)) \/
  (exists w' c', s' = XSys w' XFree (<[i := c']> (xs_conns s)) /\ xprogress ro i texts rs ls c' (S k) /\
     tn_hello c' = tn_hello c /\
     forall recss, grouped texts recss -> recs_by i ls `prefix_of` concat recss ->
       aligned i recss ls c k -> aligned i recss ls c' (S k)).
Proof.
  intros Hit (HF & Hsh & Hnul) Htame [Ho Hf Hhe [Hk1 Hk2] Hin Hout] Hpre s'.
  pose proof (xprefix_pending _ _ _ _ _ Hin Hpre) as Hp.
  unfold s', xread. set (t0 := Tls _ _ _).
  assert (Hst : tls_stream t0 = Stream (map Byte (pending c)) Wait) by (by apply conn_stream).
  destruct (decide (pending c = [])) as [Hnil|Hne].
  { left. split; [by left|]. rewrite Hnil in Hst.
    unfold handle_read_tls. pose proof (seen_ok _ _ (ssl_read_until_same [] CRLFCRLF t0)) as Hu. rewrite Hst in Hu.
    destruct (ssl_read_until [] CRLFCRLF t0) as [[[len buf] s1]| | | | |]; by vm_compute in Hu. }
  destruct (pending_cases _ _ Hp Hne) as (text & rest & Ed & Hc).
  assert (Htk : texts !! k = Some text).
  { assert (Hd : drop k texts !! 0 = Some text) by (by rewrite Ed). rewrite lookup_drop in Hd.
    by rewrite Nat.add_0_r in Hd. }
  destruct (Forall2_lookup_l _ _ _ _ _ HF Htk) as (r & Hrk & Hr).
  pose proof (Forall_lookup_1 _ _ _ _ Hsh Htk) as Hs. pose proof (Forall_lookup_1 _ _ _ _ Hnul Hrk) as Hn.
  pose proof (Forall_lookup_1 _ _ _ _ Htame Hrk) as Ht. cbn beta in Hn.
  pose proof (handle_read_tls_calm hit (WTake n) ro e (xs_world s) t0 (pending c) Hst) as Hcalm.
  rewrite Hst in Hcalm.
  destruct Hc as [(q & Hq & Hqp)|[Hpp Hpn]].
  - right. rewrite Hq, map_app in Hcalm.
    destruct (handle_read_whole hit n ro e (xs_world s) text r (map Byte q) Wait Hit Hs Hr Hn Ht)
      as (w' & out & E & Ha).
    rewrite E in Hcalm.
    destruct (handle_read_tls hit (WTake n) ro e (xs_world s) t0) as [[v t1]| | | | |] eqn:Et; try done.
    destruct Hcalm as [Hv Hrest]. injection Hv as <-. cbn [sv_world sv_rest sv_wrote sv_sent sv_closed negb] in *.
    exists w'. eexists. split; [reflexivity|].
    assert (Hpend : tl_buf t1 ++ concat (records_of (tl_items t1)) = q).
    { unfold tls_stream in Hrest. injection Hrest as Hrest _.
      assert (exists y, q = tl_buf t1 ++ y /\ flat (tl_items t1) = map Byte y) as (y & -> & Hy).
      { revert Hrest. clear. revert q. induction (tl_buf t1) as [|a b IH]; intros q H; [by exists q|].
        destruct q as [|d q]; [done|]. cbn in H. injection H as -> H. destruct (IH q H) as (y & -> & ?). by exists y. }
      by rewrite <- (flat_bytes _ _ Hy). }
    split; [split; cbn [tn_buf tn_wire tn_fin tn_hello tn_open tn_out]; unfold pending; cbn [tn_buf tn_wire]|].
    + done.
    + done.
    + done.
    + rewrite app_length. simpl. apply lookup_lt_Some in Htk. lia.
    + rewrite Hin, (take_S_r _ _ _ Htk), concat_app, Hq, Hpend. simpl. by rewrite app_nil_r, app_assoc.
    + rewrite (take_S_r _ _ _ Hrk). apply Forall2_app; [done|]. by repeat constructor.
    + split; [done|]. intros recss [Hg1 Hg2] Hrp [Ha1 Ha2]. unfold aligned. cbn [tn_buf tn_wire].
      subst texts. change (map (@concat ascii) recss) with (@concat ascii <$> recss) in Htk. rewrite list_lookup_fmap in Htk. destruct (recss !! k) as [g|] eqn:Eg; [|done]. cbn in Htk. injection Htk as Htk.
      rewrite Ha2 in Hrp.
      assert (E' : concat recss = concat (take k recss) ++ concat (drop k recss)) by (by rewrite <- concat_app, take_drop).
      rewrite E' in Hrp. apply prefix_app_inv in Hrp. rewrite (drop_S _ _ _ Eg) in Hrp. cbn in Hrp.
      assert (Hpc : pending c = concat (tn_wire c)) by (unfold pending; by rewrite Ha1).
      assert (Hfg : filled g) by (by eapply Forall_lookup_1 in Eg).
      assert (exists rest', tn_wire c = g ++ rest') as [rest' Hx].
      { destruct (prefix_weak_total g (tn_wire c) _ (ex_intro _ _ eq_refl : g `prefix_of` g ++ concat (drop (S k) recss)) Hrp) as [Hx|Hx]; [done|].
        exists []. rewrite app_nil_r. apply filled_prefix_length; [done|done|]. rewrite <- Hpc, Hq, Htk, app_length. lia. }
      assert (Hqr : q = concat rest').
      { rewrite Hpc, Hx, concat_app, Htk in Hq. by apply app_inv_head in Hq. }
      destruct (aligned_cut g rest' t1 Wait) as [Hz1 Hz2].
      * rewrite <- Hx. apply filled_concat_all in Hg2. rewrite E' in Hg2. apply Forall_app in Hg2 as [_ Hg2].
        rewrite (drop_S _ _ _ Eg) in Hg2. cbn in Hg2. destruct Hrp as [z Hz]. rewrite Hz in Hg2. by apply Forall_app in Hg2 as [? _].
      * eapply handle_read_tls_within; [|exact Et]. left. unfold t0. cbn [tl_buf tl_items]. split; [done|].
        exists []. by rewrite Hx, !app_nil_r.
      * by rewrite Hrest, Hqr.
      * rewrite Hz1, Hz2, records_of_recs. split; [done|]. rewrite Ha2, (take_S_r _ _ _ Eg), concat_app. cbn.
        by rewrite app_nil_r, <- app_assoc, Hx.
  - left. split; [right; by exists text, rest|].
    rewrite (handle_read_piece_blocks hit n ro e (xs_world s) text r) in Hcalm by done.
    destruct (handle_read_tls hit (WTake n) ro e (xs_world s) t0) as [[v t1]| | | | |]; try done. by destruct Hcalm.
Qed.

Lemma xread_thr_other hit ro e wr m i j c (s : xsys U) : i <> j -> xs_thr (xread hit ro e wr m j c s) <> XIn i.
Proof. intros H. unfold xread. destruct (handle_read_tls _ _ _ _ _ _) as [[v t]| | | | |]; cbn; congruence. Qed.

Theorem run_xprogress hit ro e w0 (s : xsys U) ls i c texts rs :
  valid_order hit -> xrun hit ro e (xsys_new w0) ls = Some s -> xs_conns s !! i = Some c ->
  Forall (xcalm i) ls -> requests texts rs -> Forall (tame ro) rs -> concat (recs_by i ls) `prefix_of` concat texts ->
  exists k, xprogress ro i texts rs ls c k /\
    forall recss, grouped texts recss -> recs_by i ls `prefix_of` concat recss ->
      aligned i recss ls c k /\ (xs_thr s = XIn i -> tn_wire c <> []).
Proof.
  intros Hit H Hi Hcalm Hreq Htame. revert s c H Hi Hcalm.
  induction ls as [|l ls IH] using rev_ind; intros s c H Hi Hcalm Hp.
  { injection H as <-. unfold xsys_new in Hi. cbn [xs_conns] in Hi. by rewrite lookup_empty in Hi. }
  apply xrun_snoc in H as (s1 & H1 & Hl). apply Forall_app in Hcalm as [Hc1 Hc2].
  apply Forall_cons in Hc2 as [Hc2 _].
  assert (Hp1 : concat (recs_by i ls) `prefix_of` concat texts).
  { etrans; [|exact Hp]. rewrite recs_by_snoc, concat_app. by eexists. }
  assert (Hpg : forall recss : list (list bytes), recs_by i (ls ++ [l]) `prefix_of` concat recss -> recs_by i ls `prefix_of` concat recss).
  { intros recss Hx. etrans; [|exact Hx]. rewrite recs_by_snoc. by eexists. }
  assert (Hsame : (forall bs, l <> XSend i bs) -> recs_by i (ls ++ [l]) = recs_by i ls).
  { intros Hne. rewrite recs_by_snoc. destruct l; rewrite ?app_nil_r; try done. case_decide; [|by rewrite app_nil_r].
    subst. by destruct (Hne bs). }
  pose proof (xstep_cases _ _ _ _ _ _ Hl) as Hcs.
  destruct (decide (xabout l = i)) as [E|E].
  - (* an event of this connection *)
    destruct l as [j|j g|j bs|j|j|j lv wr|j wr|j wr]; cbn [xabout] in E; subst j; cbn [xcalm xabout] in *.
    + destruct Hcs as (Ht & Hn & ->). cbn in Hi. rewrite lookup_insert in Hi. injection Hi as <-.
      assert (Hr0 : recs_by i (ls ++ [XOpen i]) = []).
      { rewrite Hsame by done. by apply (recs_by_none _ _ _ _ _ _ _ H1). }
      exists 0. split; [split; cbn; try done; [lia|by rewrite Hr0|constructor]|].
      intros recss Hg Hrp. split; [split; [done|by rewrite Hr0]|done].
    + destruct Hcs as (c1 & Ec & Ho & Hf & Hh & ->). cbn in Hi. rewrite lookup_insert in Hi. injection Hi as <-.
      destruct (IH s1 c1 H1 Ec Hc1 Hp1) as (k & Hk & Ha). exists k. split.
      * destruct Hk. split; cbn; try done; [by rewrite (Hc2 eq_refl)|by rewrite Hsame].
      * intros recss Hg Hrp. destruct (Ha recss Hg (Hpg _ Hrp)) as [[Ha1 Ha2] Hb]. split; [split; cbn; [done|by rewrite Hsame]|done].
    + destruct Hcs as (c1 & Ec & Ho & Hf & Hh & ->). cbn in Hi. rewrite lookup_insert in Hi. injection Hi as <-.
      destruct (IH s1 c1 H1 Ec Hc1 Hp1) as (k & Hk & Ha). exists k.
      assert (Er : recs_by i (ls ++ [XSend i bs]) = recs_by i ls ++ [bs]) by (rewrite recs_by_snoc; by rewrite decide_True).
      split.
      * destruct Hk as [? ? ? ? Hin ?]. split; cbn; try done. rewrite Er, concat_app, Hin.
        unfold pending. cbn [tn_buf tn_wire]. by rewrite (concat_app (tn_wire c1)), !app_assoc.
      * intros recss Hg Hrp. destruct (Ha recss Hg (Hpg _ Hrp)) as [[Ha1 Ha2] Hb]. split; [split; cbn; [done|]|].
        -- by rewrite Er, Ha2, app_assoc.
        -- cbn. intros _ Hx. by apply app_eq_nil in Hx as [_ ?].
    + done.
    + destruct Hcs as (c1 & Ec & Ht & Hd). destruct (IH s1 c1 H1 Ec Hc1 Hp1) as (k & Hk & Ha). exists k.
      destruct Hd as [[Hh ->]|[Hx ->]].
      2:{ exfalso. destruct Hk as [? Hf Hh ? ? ?]. destruct Hx as [?|[_ ?]]; congruence. }
      cbn in Hi. rewrite lookup_insert in Hi. injection Hi as <-. split.
      * destruct Hk. split; cbn; try done. by rewrite Hsame.
      * intros recss Hg Hrp. destruct (Ha recss Hg (Hpg _ Hrp)) as [[Ha1 Ha2] Hb]. split; [split; cbn; [done|by rewrite Hsame]|done].
    + destruct Hcs as (c1 & Ec & Ht & Ho & Hor & Hd). destruct (IH s1 c1 H1 Ec Hc1 Hp1) as (k & Hk & Ha).
      destruct lv. { destruct Hk as [? Hf ? ? ? ?]. destruct Hd. congruence. }
      subst s. destruct (Hc2 eq_refl) as [n ->].
      assert (Hls : recs_by i (ls ++ [XServe i false (WTake n)]) = recs_by i ls) by (by apply Hsame).
      destruct (xread_progress hit ro e n s1 i c1 texts rs ls k Hit Hreq Htame Hk Hp1) as [[_ Es]|(w' & c' & Es & Hk' & Hh' & Ha')];
        rewrite Es in Hi |- *; cbn in Hi |- *.
      * rewrite Ec in Hi. injection Hi as <-. exists k. split; [destruct Hk; split; try done; by rewrite Hls|].
        intros recss Hg Hrp. destruct (Ha recss Hg (Hpg _ Hrp)) as [[Ha1 Ha2] Hb]. split; [split; [done|by rewrite Hls]|].
        intros _. destruct Hor as [?|Hor]; [done|]. destruct Hk as [? Hf ? ? ? ?]. congruence.
      * rewrite lookup_insert in Hi. injection Hi as <-. exists (S k). split; [destruct Hk'; split; try done; by rewrite Hls|].
        intros recss Hg Hrp. destruct (Ha recss Hg (Hpg _ Hrp)) as [Hal Hb].
        destruct (Ha' recss Hg (Hpg _ Hrp) Hal) as [Ha1 Ha2]. split; [split; [done|by rewrite Hls]|done].
    + destruct Hcs as (c1 & Ec & Ht & -> & Hne). destruct (IH s1 c1 H1 Ec Hc1 Hp1) as (k & Hk & Ha).
      destruct (Hc2 eq_refl) as [n ->].
      assert (Hls : recs_by i (ls ++ [XResume i (WTake n)]) = recs_by i ls) by (by apply Hsame).
      destruct (xread_progress hit ro e n s1 i c1 texts rs ls k Hit Hreq Htame Hk Hp1) as [[_ Es]|(w' & c' & Es & Hk' & Hh' & Ha')];
        rewrite Es in Hi, Hne |- *; cbn in Hi, Hne |- *; [done|].
      rewrite lookup_insert in Hi. injection Hi as <-. exists (S k). split; [destruct Hk'; split; try done; by rewrite Hls|].
      intros recss Hg Hrp. destruct (Ha recss Hg (Hpg _ Hrp)) as [Hal Hb].
      destruct (Ha' recss Hg (Hpg _ Hrp) Hal) as [Ha1 Ha2]. split; [split; [done|by rewrite Hls]|done].
    + done.
  - (* an event of another one *)
    assert (Hi1 : xs_conns s1 !! i = Some c) by (by rewrite <- (xstep_other _ _ _ _ _ _ _ Hl E)).
    destruct (IH s1 c H1 Hi1 Hc1 Hp1) as (k & Hk & Ha). exists k.
    assert (Hls : recs_by i (ls ++ [l]) = recs_by i ls).
    { apply Hsame. intros bs ->. by cbn in E. }
    split; [destruct Hk; split; try done; by rewrite Hls|].
    intros recss Hg Hrp. destruct (Ha recss Hg (Hpg _ Hrp)) as [[Ha1 Ha2] Hb]. split; [split; [done|by rewrite Hls]|].
    intros Ht. apply Hb. destruct l as [j|j g|j bs|j|j|j lv wr|j wr|j wr]; cbn [xabout] in *.
    + by destruct Hcs as (_ & _ & ->).
    + by destruct Hcs as (c1 & _ & _ & _ & _ & ->).
    + by destruct Hcs as (c1 & _ & _ & _ & _ & ->).
    + by destruct Hcs as (c1 & _ & _ & ->).
    + by destruct Hcs as (c1 & _ & _ & [[_ ->]|[_ ->]]).
    + destruct Hcs as (c1 & _ & _ & _ & _ & Hd). destruct lv; [by destruct Hd as [_ ->]|]. subst.
      exfalso. by apply (xread_thr_other hit ro e wr [] i j c1 s1).
    + destruct Hcs as (c1 & _ & _ & -> & _). exfalso. by apply (xread_thr_other hit ro e wr [] i j c1 s1).
    + destruct Hcs as (c1 & _ & [[_ ->]|[_ ->]]); [done|]. exfalso. by apply (xread_thr_other hit ro e wr [SGap] i j c1 s1).
Qed.
End system.
