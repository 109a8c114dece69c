(** What HandleRead does over TLS with records of any kind (Https.v). *)
From Verif.Spec Require Import ServerSpec SslSpec.
From Verif.Proof Require Import SslProof ServerProof SocketProof HttpSystemProof HttpsSystemProof StrangerProof.
From Verif.Props Require Import SslProps ClientProps.
From Verif.Model Require Import HttpsSystem.

(** ** Bytes that are left *)

Lemma tl_size_stream s : tl_size s = length (bytes_of (sm_items (tls_stream s))).
Proof.
  unfold tl_size, tls_stream. cbn [sm_items]. rewrite bytes_of_app, app_length. f_equal.
  - induction (tl_buf s) as [|c l IH]; [done|]. cbn. by rewrite <- IH.
  - induction (tl_items s) as [|[b|] l IH]; [done| |].
    + rewrite flat_cons, bytes_of_app, app_length, <- IH. cbn. f_equal. clear. induction b as [|c b IH]; [done|]. cbn. by rewrite <- IH.
    + rewrite flat_cons. cbn. exact IH.
Qed.
Lemma ssl_read_size num s rc b s' : ssl_read num s = Ok (rc, b, s') -> tl_size s' <= tl_size s.
Proof.
  unfold ssl_read. destruct (num <? 0)%Z; [by intros [= _ _ <-]|]. destruct (num =? 0)%Z; [by intros [= _ _ <-]|].
  destruct (tl_buf s) as [|c l] eqn:E.
  - destruct s as [bf its t]. cbn [tl_buf tl_items tl_tail] in *. subst bf. unfold tl_size at 2. cbn [tl_buf tl_items length].
    induction its as [|[[|c r]|] its IH]; cbn [next_record].
    + destruct t; try done; intros [= _ _ <-]; cbn; lia.
    + intros H. apply IH in H. cbn. lia.
    + intros [= _ _ <-]. unfold tl_size. cbn [tl_buf tl_items]. rewrite drop_length. cbn. lia.
    + intros [= _ _ <-]. unfold tl_size. cbn. lia.
  - intros [= _ _ <-]. unfold tl_size. cbn [tl_buf tl_items]. rewrite drop_length, E. lia.
Qed.
Lemma wait_all_size fuel : forall len total acc s rc b s', wait_all fuel len total acc s = Ok (rc, b, s') -> tl_size s' <= tl_size s.
Proof.
  induction fuel as [|fuel IH]; intros len total acc s rc b s' E; [done|]. cbn [wait_all] in E.
  destruct (int_to_size total <? len)%N; [|by injection E as _ _ <-].
  destruct (ssl_read _ s) as [[[rc1 b1] s1]| | | | |] eqn:E1; cbn [mbind outcome_bind] in E; try done.
  apply ssl_read_size in E1. destruct (rc1 <=? 0)%Z; [by injection E as _ _ <-|].
  destruct (_ <=? int_max)%Z; [|done]. apply IH in E. lia.
Qed.
Lemma until_size s len buf s1 : ssl_read_until [] CRLFCRLF s = Ok (len, buf, s1) ->
  tl_size s1 <= tl_size s /\ ((0 < len)%Z -> tl_size s1 < tl_size s).
Proof.
  intros E. pose proof (seen_ok _ _ (ssl_read_until_same [] CRLFCRLF s)) as Hu. rewrite E in Hu.
  change (read_until [] CRLFCRLF (tls_stream s)) with (until_loop CRLFCRLF (sm_items (tls_stream s)) (sm_tail (tls_stream s)) NUL []) in Hu.
  rewrite !tl_size_stream. split; [by eapply until_loop_shorter|].
  intros Hl. destruct (until_loop_prefix _ _ _ _ _ _ _ _ Hu Hl) as (x & -> & Hs & _ & c & Hg). apply goes_on_stops in Hg.
  cbn [app] in Hg. destruct Hg as (p1 & p2 & Hx). rewrite Hs, bytes_of_app, app_length.
  assert (He : forall y, length (bytes_of (map Byte y)) = length y) by (induction y as [|a y IH]; cbn; by rewrite ?IH).
  rewrite He, Hx, !app_length. cbn. lia.
Qed.

Section any.
Context {U : Type}.
Implicit Types (ro : router U) (w : world U).

(** Handlers have run for at most one request; the connection is closed, or something
    was taken from it. *)
Lemma handle_read_tls_what hit wr ro e w s v t : handle_read_tls hit wr ro e w s = Ok (v, t) ->
  (sv_world v = w \/ exists r c', dispatch ro (rt_path (rq_route r)) (ctx_new r resp_new) w = Ok (c', sv_world v)) /\
  tl_size t <= tl_size s /\ (sv_closed v = true \/ tl_size t < tl_size s).
Proof.
  intros E. unfold handle_read_tls in E.
  destruct (ssl_read_until [] CRLFCRLF s) as [[[len buf] s1]| | | | |] eqn:E1; cbn [mbind outcome_bind] in E; try done.
  apply until_size in E1 as [Hle Hlt].
  destruct (Z.leb_spec len 0) as [Hl|Hl]; [injection E as <- <-; cbn [sv_world sv_closed]; auto|]. specialize (Hlt Hl).
  destruct (req_parse req_new buf) as [[rc r]| | | | |]; cbn [mbind outcome_bind] in E; try done.
  destruct (negb (rc =? kSuccess)%Z).
  { destruct (resp_build hit _ []) as [[? ?] rb]. destruct (sock_write wr rb) as [o| | | | |]; cbn [mbind outcome_bind] in E; try done.
    injection E as <- <-; cbn [sv_world sv_closed]; auto. }
  destruct (0 <? _)%Z.
  - unfold ssl_read_string, ssl_ioread in E.
    destruct (wait_all _ _ _ _ s1) as [[[rc' body] s2]| | | | |] eqn:E2; cbn [mbind outcome_bind] in E; try done.
    apply wait_all_size in E2. destruct (rc' <=? 0)%Z; [injection E as <- <-; cbn [sv_world sv_closed]; split; [auto|split; [lia|auto]]|].
    destruct (answer _ _ _ _ _ _ _) as [v'| | | | |] eqn:E3; cbn [mbind outcome_bind] in E; try done. injection E as <- <-.
    apply answer_what in E3 as (_ & c' & Hd). split; [right; by eexists _, _|]. split; [lia|right; lia].
  - destruct (answer _ _ _ _ _ _ _) as [v'| | | | |] eqn:E3; cbn [mbind outcome_bind] in E; try done. injection E as <- <-.
    apply answer_what in E3 as (_ & c' & Hd). split; [right; by eexists _, _|]. split; [lia|right; lia].
Qed.

(** A read that gives up does not wait. *)
Lemma ssl_read_string_gives_up n s (q : bytes) : (0 < n <= int_max)%Z -> sm_items (tls_stream s) = map Byte q ++ [Gap] ->
  ssl_read_string true (Z.to_N n) s <> Blocked.
Proof.
  intros Hn Hs. unfold ssl_read_string, ssl_ioread, int_max in *. destruct (decide (Z.to_nat n <= length q)) as [Hl|Hl].
  - destruct (wait_all_enough (S (S (tl_size s))) (Z.to_N n) 0 [] s (take (Z.to_nat n) q) (map Byte (drop (Z.to_nat n) q) ++ [Gap]))
      as (s' & -> & E); [lia|lia|rewrite take_length; lia|lia| |done].
    by rewrite app_assoc, <- map_app, take_drop.
  - destruct (wait_all_short (S (S (tl_size s))) (Z.to_N n) 0 [] s q [Gap] ltac:(lia) ltac:(lia) ltac:(lia) ltac:(lia) Hs I) as (s' & -> & _). done.
Qed.
Lemma handle_read_tls_gives_up hit wr ro e w s b t : tls_stream s = Stream (map Byte b ++ [Gap]) t ->
  (forall r, dispatch ro (rt_path (rq_route r)) (ctx_new r resp_new) w <> Blocked) ->
  handle_read_tls hit wr ro e w s <> Blocked.
Proof.
  intros Hst Hd.
  assert (Hw : forall x, sock_write wr x <> Blocked) by (intros x; by destruct wr).
  assert (Ha : forall r s s2, (v ← answer hit wr ro r e w s; Ok (v, s2 : tls)) <> Blocked).
  { intros r s0 s2. unfold answer. apply bind_waits; [|done]. apply bind_waits; [apply Hd|]. intros [c' w']. unfold respond. destruct (resp_build hit _ []) as [[rc p2] buf].
    destruct (negb _); [destruct (resp_build hit _ buf) as [[? ?] ?]|]; (apply bind_waits; [apply Hw|]); by intros [? ?]. }
  unfold handle_read_tls. pose proof (seen_ok _ _ (ssl_read_until_same [] CRLFCRLF s)) as Hu.
  rewrite Hst in Hu. change (read_until [] CRLFCRLF (Stream ?x ?y)) with (until_loop CRLFCRLF x y NUL []) in Hu.
  destruct (until_loop_gap CRLFCRLF b t NUL []) as [Hu1 Hu2].
  destruct (ssl_read_until [] CRLFCRLF s) as [[[len buf] s1]| | | | |]; cbn [mbind outcome_bind]; try done.
  specialize (Hu2 _ _ _ Hu). destruct (Z.leb_spec len 0); [done|]. destruct Hu2 as [[q Hq]| ->]; [|lia].
  apply bind_waits; [apply parse_waits|]. intros [rc r]. destruct (negb _).
  { destruct (resp_build hit _ []) as [[? ?] rb]. apply bind_waits; [apply Hw|done]. }
  destruct (Z.ltb_spec 0 (header_get_content_length (rq_header r))); [|apply Ha].
  apply bind_waits.
  - apply (ssl_read_string_gives_up _ _ q); [|done]. split; [done|]. apply content_length_range.
  - intros [[rc' b'] s2]. destruct (rc' <=? 0)%Z; [done|apply Ha].
Qed.
End any.
