(** C188-C190: HttpClient::Send over TLS (src/cppnet/http/client/http_client.cpp after
    InitSSL, SSLSocket). *)
From Verif.Lib Require Import CxxStringFacts.
From Verif.Model Require Import ClientTls.
From Verif.Spec Require Import SslSpec.
From Verif.Proof Require Import ReqProof RespProof ServerProof SslProof SocketProof HttpSystemProof HttpsSystemProof.
From Verif.Props Require Import MessageProps ServerProps SslProps ClientProps.

(** ** C188 *)

Lemma grab_short n (b : bytes) r : length b < n -> match r with Byte _ :: _ => False | _ => True end ->
  grab n (map Byte b ++ r) = (b, List.tl r, match r with [] => false | _ => true end).
Proof.
  revert n. induction b as [|c b IH]; intros n Hn Hr.
  - destruct n as [|n]; [cbn in Hn; lia|]. destruct r as [|[] r]; done.
  - destruct n as [|n]; [cbn in Hn; lia|]. cbn [map app grab]. rewrite IH; [done|cbn in Hn; lia|done].
Qed.

(** Reading a body over TLS and over TCP: the same bytes, or both fail, or both wait. *)
Lemma body_same n s : (0 < n <= int_max)%Z ->
  match ssl_read_string true (Z.to_N n) s, read_string true 0 (Z.to_nat n) (tls_stream s) with
  | Ok (rc, b, s1), Ok (rc', b', s2) => (rc = n /\ rc' = n /\ b = b' /\ tls_stream s1 = s2) \/ (rc <> n /\ rc' <> n)
  | Blocked, Blocked => True
  | _, _ => False
  end.
Proof.
  intros Hn. unfold ssl_read_string, read_string, ssl_ioread, int_max in *.
  destruct (split_bytes (sm_items (tls_stream s))) as (b & r & Hs & Hr).
  destruct (decide (Z.to_nat n <= length b)) as [Hl|Hl].
  - destruct (wait_all_enough (S (S (tl_size s))) (Z.to_N n) 0 [] s (take (Z.to_nat n) b) (map Byte (drop (Z.to_nat n) b) ++ r))
      as (s' & -> & E); [lia|lia|rewrite take_length; lia|lia| |].
    { by rewrite app_assoc, <- map_app, take_drop. }
    unfold recv_all. rewrite Hs.
    assert (Hg : grab (Z.to_nat n) (map Byte b ++ r) = (take (Z.to_nat n) b, map Byte (drop (Z.to_nat n) b) ++ r, false)).
    { clear -Hl. revert b Hl. generalize (Z.to_nat n) as m. induction m as [|m IH]; intros b Hl; [done|].
      destruct b as [|c b]; [cbn in Hl; lia|]. cbn [map app grab take drop]. rewrite IH; [done|cbn in Hl; lia]. }
    rewrite Hg. rewrite take_length, Nat.min_l by done. rewrite Nat.eqb_refl. cbn [mbind outcome_bind app].
    left. unfold rc_of. rewrite take_length, Nat.min_l by done. rewrite E. split; [lia|]. split; [lia|]. done.
  - pose proof (wait_all_short (S (S (tl_size s))) (Z.to_N n) 0 [] s b r ltac:(lia) ltac:(lia) ltac:(lia) ltac:(lia) Hs Hr) as H.
    unfold recv_all. rewrite Hs, grab_short by (done || lia). rewrite (proj2 (Nat.eqb_neq _ _)) by lia.
    assert (Hrc : (match b with [] => (-1)%Z | _ => rc_of b end) <> n /\ rc_of b <> n).
    { unfold rc_of. destruct b; [cbn; lia|]. lia. }
    destruct Hrc as [Hrc1 Hrc2]. cbn [tls_stream sm_tail].
    destruct r as [|x r]; [destruct (tl_tail s)|]; try (destruct H as (s' & -> & _); cbn [mbind outcome_bind]; right; split; [unfold kSysErr; lia|done]).
    by rewrite H.
Qed.

(** As far as the caller can tell, Send over TLS is Send over TCP, wherever the records
    are cut and whatever interrupts them. *)
Definition same_but_rest (y y' : sent) : Prop :=
  st_rc y = st_rc y' /\ st_req y = st_req y' /\ st_resp y = st_resp y' /\ st_bytes y = st_bytes y'.
Theorem https_send_same : forall hit rit q p s,
  let msg := snd (req_build hit rit q []) in
  short msg ->
  match client_send_tls hit rit SwAll q p s, client_send true hit rit (WTake (length msg)) q p (tls_stream s) with
  | Ok (y, t), Ok y' => same_but_rest y y' /\ (st_rc y = kSuccess -> tls_stream t = st_rest y')
  | Throw x, Throw x' => x = x'
  | UB, UB | Diverge, Diverge | Blocked, Blocked | Terminate, Terminate => True
  | _, _ => False
  end.
Proof.
  intros hit rit q p s msg Hm. unfold client_send_tls, client_send, msg in *. cbn [negb].
  destruct (req_build hit rit q []) as [[rc q'] m]. cbn [snd] in *.
  destruct (negb (rc =? kSuccess)%Z); [done|].
  cbn [ssl_sock_write sock_write mbind outcome_bind]. rewrite take_ge by done. unfold ssl_iowrite, rc_of.
  assert (Hi : to_int32 (Z.of_N (size m)) = Z.of_nat (length m)).
  { unfold short in Hm. rewrite to_int32_id; unfold size, int_min, int_max; lia. }
  rewrite Hi. rewrite (proj2 (Z.ltb_ge _ _)) by lia. rewrite Nat2Z.id, take_ge by done.
  destruct (_ <=? 0)%Z; [done|].
  pose proof (seen_ok _ _ (ssl_read_until_same [] CRLFCRLF s)) as Hu.
  destruct (ssl_read_until [] CRLFCRLF s) as [[[len buf] s1]| | | | |]; rewrite Hu; cbn [mbind outcome_bind]; try done.
  destruct (len <=? 0)%Z; [done|].
  destruct (resp_parse p buf) as [[rc2 p1]| | | | |]; cbn [mbind outcome_bind]; try done.
  destruct (negb (rc2 =? kSuccess)%Z); [done|].
  destruct (Z.ltb_spec 0 (header_get_content_length (rs_header p1))) as [Hc|Hc]; [|done].
  pose proof (content_length_range (rs_header p1)) as Hmax.
  pose proof (body_same (header_get_content_length (rs_header p1)) s1 ltac:(lia)) as Hb.
  destruct (ssl_read_string true _ s1) as [[[n1 b1] t1]| | | | |], (read_string true 0 _ _) as [[[n2 b2] t2]| | | | |];
    cbn [mbind outcome_bind]; try done.
  destruct Hb as [(-> & -> & -> & E)|[H1 H2]].
  - rewrite Z.eqb_refl. cbn [negb]. split; [done|]. by intros _.
  - rewrite (proj2 (Z.eqb_neq _ _) H1), (proj2 (Z.eqb_neq _ _) H2). cbn [negb]. done.
Qed.

(** ** C189 *)

(** What the server sent reaches the client's caller, in records of any size. *)
Definition https_response_arrives_full : Prop := forall hit rit hit' q p p1 out s l t y s1,
  valid_order hit' -> resp_build hit' p [] = (kSuccess, p1, out) -> short out -> resp_sendable (rs_header p) ->
  short (snd (req_build hit rit q [])) -> tls_stream s = Stream (map Byte out ++ l) t ->
  client_send_tls hit rit SwAll q resp_new s = Ok (y, s1) -> st_rc y = kSuccess -> same_response p (st_resp y).

(** Missing: NUL bytes in the body. *)
Theorem https_response_arrives_partial : forall hit rit hit' q p p1 out s l t,
  valid_order hit' -> resp_build hit' p [] = (kSuccess, p1, out) -> short out -> resp_sendable (rs_header p) ->
  NUL ∉ rs_body p -> rs_version p <> vUNKNOWN ->
  rq_method q <> mUNKNOWN -> rq_version q <> vUNKNOWN ->
  short (snd (req_build hit rit q [])) -> tls_stream s = Stream (map Byte out ++ l) t ->
  exists y s1, client_send_tls hit rit SwAll q resp_new s = Ok (y, s1) /\
    st_rc y = kSuccess /\ same_response p (st_resp y) /\ tls_stream s1 = Stream l t.
Proof.
  intros hit rit hit' q p p1 out s l t Hit Hb Hs Hse Hn Hv Hm Hqv Hq Hst.
  pose proof (https_send_same hit rit q resp_new s Hq) as H. cbv zeta in H.
  assert (Hlen : exists k, length (snd (req_build hit rit q [])) = S k).
  { rewrite req_build_ok by done. cbn [snd]. match goal with |- exists k, ?x = S k => assert (0 < x) end.
    { rewrite !app_length. cbn. lia. }
    match goal with |- exists k, ?x = S k => exists (pred x) end. lia. }
  destruct Hlen as [k Hk]. rewrite Hk in H. rewrite Hst in H.
  destruct (response_arrives_partial hit rit hit' q p p1 out k l t Hit Hb Hs Hse Hn Hv Hm Hqv) as (x & Hx & Hrc & Hsame & Hrest).
  rewrite Hx in H. destruct (client_send_tls hit rit SwAll q resp_new s) as [[y s1]| | | | |]; try done.
  destruct H as [(E1 & _ & E3 & _) E4]. exists y, s1. split; [done|]. split; [congruence|]. split; [by rewrite E3|].
  rewrite E4 by congruence. done.
Qed.

(** ** C190 *)

Definition https_send_success_full : Prop := forall hit rit wr q p s y s1,
  client_send_tls hit rit wr q p s = Ok (y, s1) -> st_rc y = kSuccess -> exchanged q hit rit (tls_stream s) y.

(** Missing: an SSL_write that fails, and a request that is too long for it. *)
Theorem https_send_success_partial : forall hit rit q p s y s1,
  short (snd (req_build hit rit q [])) -> (forall b rest, sm_items (tls_stream s) = map Byte b ++ rest -> fits b) ->
  client_send_tls hit rit SwAll q p s = Ok (y, s1) -> st_rc y = kSuccess ->
  exchanged q hit rit (tls_stream s) y /\ st_rest y = tls_stream s1.
Proof.
  intros hit rit q p s y s1 Hq Hfit H Hrc.
  assert (Hrest : st_rest y = tls_stream s1).
  { clear -H. unfold client_send_tls in H. destruct (req_build hit rit q []) as [[rc q'] m].
    destruct (negb _); [by injection H as <- <-|]. destruct (ssl_sock_write _ _) as [[len o]| | | | |]; cbn [mbind outcome_bind] in H; try done.
    destruct (len <=? 0)%Z; [by injection H as <- <-|].
    destruct (ssl_read_until _ _ _) as [[[len2 buf] s2]| | | | |]; cbn [mbind outcome_bind] in H; try done.
    destruct (len2 <=? 0)%Z; [by injection H as <- <-|]. destruct (resp_parse p buf) as [[rc2 p1]| | | | |]; cbn [mbind outcome_bind] in H; try done.
    destruct (negb _); [by injection H as <- <-|]. destruct (0 <? _)%Z; [|by injection H as <- <-].
    destruct (ssl_read_string _ _ _) as [[[n b] s3]| | | | |]; cbn [mbind outcome_bind] in H; try done.
    destruct (negb _); by injection H as <- <-. }
  split; [|done].
  pose proof (https_send_same hit rit q p s Hq) as Hsame. cbv zeta in Hsame. rewrite H in Hsame.
  destruct (client_send true hit rit (WTake _) q p (tls_stream s)) as [y'| | | | |] eqn:E; try done.
  destruct Hsame as [(E1 & E2 & E3 & E4) E5].
  destruct (send_success_partial true hit rit (length (snd (req_build hit rit q []))) q p (tls_stream s) y') as [_ Hx]; [by intros q1 m ->|done|done|congruence|].
  unfold exchanged in *. rewrite <- E4, <- E3, <- (E5 Hrc), <- Hrest in Hx. exact Hx.
Qed.

(** SSL_write fails: nothing is sent, nothing received, and Send returns success. *)
Theorem https_failed_write_is_success : forall hit rit rc q p s,
  rq_method q <> mUNKNOWN -> rq_version q <> vUNKNOWN -> (rc <= 0)%Z ->
  exists q1, client_send_tls hit rit (SwFail rc) q p s = Ok (Sent kSuccess q1 p (tls_stream s) [], s).
Proof.
  intros hit rit rc q p s Hm Hv Hrc. unfold client_send_tls. rewrite req_build_ok by done.
  change (negb (kSuccess =? kSuccess)%Z) with false. cbv iota. cbn [ssl_sock_write ssl_iowrite mbind outcome_bind].
  rewrite (proj2 (Z.leb_le _ _) Hrc). by eexists.
Qed.
Theorem https_send_success_refuted : ~ https_send_success_full.
Proof.
  intros H. destruct (https_failed_write_is_success map_to_list map_to_list (-1) (ex_q "/" []) resp_new (of_records [] Wait))
    as (q1 & Hx); [done|done|lia|].
  destruct (H _ _ _ _ _ _ _ _ Hx eq_refl) as [_ (hd & f & hs & b & v & c & re & raw & Hi & Hm & _)].
  cbn in Hi. destruct hd; [|done]. destruct Hm as (Hm & _). symmetry in Hm. by apply app_eq_nil in Hm as [_ Hm].
Qed.

(** ** Examples *)

(** A response in three records, the last one longer than what is asked for. *)
Definition in_records : tls := of_records [B "HTTP/1.1 200 O"; B "K" ++ CRLF ++ B "Content-Length: 2" ++ CRLFCRLF ++ B "h"; B "i!"] Wait.
Example https_send_same_ex : exists y t y',
  client_send_tls map_to_list map_to_list SwAll (ex_q "/" []) resp_new in_records = Ok (y, t) /\
  client_send true map_to_list map_to_list (WTake 63) (ex_q "/" []) resp_new (tls_stream in_records) = Ok y' /\
  length (snd (req_build map_to_list map_to_list (ex_q "/" []) [])) = 63 /\
  st_rc y = kSuccess /\ rs_body (st_resp y) = B "hi" /\ rs_body (st_resp y') = B "hi" /\ t = Tls (B "!") [] Wait.
Proof. do 3 eexists. split; [by vm_compute|]. split; [by vm_compute|]. by vm_compute. Qed.

(** The body is interrupted: both fail. *)
Example https_send_same_ex2 : exists y t y',
  client_send_tls map_to_list map_to_list SwAll (ex_q "/" []) resp_new
    (Tls [] [Rec (B "HTTP/1.1 200 OK" ++ CRLF ++ B "Content-Length: 2" ++ CRLFCRLF ++ B "h"); SGap] Wait) = Ok (y, t) /\
  client_send true map_to_list map_to_list (WTake 63) (ex_q "/" []) resp_new
    (Stream (map Byte (B "HTTP/1.1 200 OK" ++ CRLF ++ B "Content-Length: 2" ++ CRLFCRLF ++ B "h") ++ [Gap]) Wait) = Ok y' /\
  st_rc y = kLogicErr /\ st_rc y' = kLogicErr.
Proof. do 3 eexists. split; [by vm_compute|]. split; [by vm_compute|]. by vm_compute. Qed.

Example https_response_arrives_ex : exists p1 out y s1,
  resp_build map_to_list (ex_p (B "data")) [] = (kSuccess, p1, out) /\
  client_send_tls map_to_list map_to_list SwAll (ex_q "/" []) resp_new (of_records [take 7 out; drop 7 out] Eof) = Ok (y, s1) /\
  st_rc y = kSuccess /\ same_response (ex_p (B "data")) (st_resp y).
Proof.
  destruct (resp_build map_to_list (ex_p (B "data")) []) as [[rc p1] out] eqn:E.
  assert (rc = kSuccess) as -> by (by vm_compute in E; injection E as <- _ _).
  assert (Hs : short out) by (vm_compute in E; injection E as _ <-; by vm_compute).
  destruct (https_response_arrives_partial map_to_list map_to_list map_to_list (ex_q "/" []) _ p1 out (of_records [take 7 out; drop 7 out] Eof) [] Eof
    valid_order_sorted E Hs (ex_p_sendable _)) as (y & s1 & Hx & Hrc & Hsame & _); [by_compute|done|done|done|by vm_compute| |].
  { unfold tls_stream, of_records. cbn [tl_buf tl_items tl_tail map app]. rewrite flat_recs. cbn [concat]. by rewrite !app_nil_r, take_drop. }
  by exists p1, out, y, s1.
Qed.

Theorem https_response_arrives_refuted : ~ https_response_arrives_full.
Proof.
  intros H. pose (p := ex_p (B "x" ++ [NUL] ++ B "y")).
  destruct (resp_build map_to_list p []) as [[rc p1] out] eqn:E.
  assert (rc = kSuccess) as -> by (by vm_compute in E; injection E as <- _ _).
  assert (Hs : short out) by (vm_compute in E; injection E as _ <-; by vm_compute).
  destruct (client_send_tls map_to_list map_to_list SwAll (ex_q "/" []) resp_new (of_records [out] Eof))
    as [[y s1]| | | | |] eqn:Ex; try (vm_compute in E; injection E as _ <-; by vm_compute in Ex).
  assert (Hst : tls_stream (of_records [out] Eof) = Stream (map Byte out ++ []) Eof).
  { unfold tls_stream, of_records. cbn [tl_buf tl_items tl_tail map app]. rewrite flat_recs. cbn [concat]. by rewrite !app_nil_r. }
  assert (Hq : short (snd (req_build map_to_list map_to_list (ex_q "/" []) []))) by (by vm_compute).
  pose proof (H map_to_list map_to_list map_to_list (ex_q "/" []) p p1 out (of_records [out] Eof) [] Eof y s1 valid_order_sorted E Hs (ex_p_sendable _) Hq Hst Ex) as Hg.
  vm_compute in E. injection E as _ <-. vm_compute in Ex. injection Ex as <- _. destruct (Hg eq_refl) as (_ & _ & Hb & _). by vm_compute in Hb.
Qed.

Example https_send_success_ex : exists y s1,
  client_send_tls map_to_list map_to_list SwAll (ex_q "/" []) resp_new in_records = Ok (y, s1) /\ st_rc y = kSuccess /\
  exchanged (ex_q "/" []) map_to_list map_to_list (tls_stream in_records) y.
Proof.
  destruct https_send_same_ex as (y & t & _ & E & _ & _ & Hrc & _). exists y, t. split; [exact E|]. split; [exact Hrc|].
  assert (Hq : short (snd (req_build map_to_list map_to_list (ex_q "/" []) []))) by (by vm_compute).
  apply (https_send_success_partial map_to_list map_to_list (ex_q "/" []) resp_new in_records y t Hq) in E; [by destruct E| |exact Hrc].
  intros b rest Hb. apply (f_equal length) in Hb. rewrite app_length, map_length in Hb.
  assert (Hl : length (sm_items (tls_stream in_records)) < 100) by (apply Nat.ltb_lt; by vm_compute). unfold fits. lia.
Qed.

Print Assumptions https_send_same.
Print Assumptions https_response_arrives_partial.
Print Assumptions https_response_arrives_refuted.
Print Assumptions https_send_success_partial.
Print Assumptions https_send_success_refuted.
Print Assumptions https_failed_write_is_success.
