(** C75, C76, C102-C106: TLS (src/cppnet/ssl). *)
From Verif.Lib Require Import DecFacts.
From Verif.Proof Require Import SslProof SocketProof.

Local Open Scope Z_scope.

(** * C75: reading *)

(** The bytes before the first interruption. *)
Lemma split_bytes (l : list item) : ∃ b r, l = map Byte b ++ r ∧ match r with Byte _ :: _ => False | _ => True end.
Proof.
  induction l as [|[c|] l (b & r & -> & H)]; [by exists [], []| |by exists [], (Gap :: map Byte b ++ r)].
  by exists (c :: b), r.
Qed.

(** A wait-all read returns exactly the number of bytes asked for, the next bytes
    of the connection, or an error: for all sizes and all cuts into records. *)
Theorem ssl_wait_all_exact len s : (len < 2 ^ 64)%N →
  match ssl_ioread FlWaitAll len s with
  | Ok (rc, b, s') => rc < 0 ∨
      (rc = Z.of_N len ∧ length b = N.to_nat len ∧ sm_items (tls_stream s) = map Byte b ++ sm_items (tls_stream s'))
  | Blocked => True
  | _ => False
  end.
Proof.
  intros Hl. unfold ssl_ioread. destruct (decide (len < 2 ^ 31)%N) as [H31|H31].
  - destruct (split_bytes (sm_items (tls_stream s))) as (b & r & Es & Hr).
    destruct (decide (N.to_nat len ≤ length b)%nat) as [Hb|Hb].
    + destruct (wait_all_enough (S (S (tl_size s))) len 0 [] s (take (N.to_nat len) b) (map Byte (drop (N.to_nat len) b) ++ r))
        as (s' & -> & E); [lia|lia|rewrite take_length; lia|lia| |].
      { by rewrite app_assoc, <- map_app, take_drop. }
      right. split; [done|]. cbn [app]. split; [rewrite take_length; lia|]. rewrite E, Es. cbn [sm_items]. by rewrite app_assoc, <- map_app, take_drop.
    + pose proof (wait_all_short (S (S (tl_size s))) len 0 [] s b r ltac:(lia) ltac:(lia) ltac:(lia) ltac:(lia) Es Hr) as H.
      destruct r as [|? r]; [destruct (tl_tail s)|]; try (destruct H as (s' & -> & _); by left). by rewrite H.
  - destruct (wait_all_huge (S (S (tl_size s))) len 0 [] s) as [->|(b & s' & ->)]; [lia| |by left|lia|done|by left].
    pose proof (Z.mod_pos_bound (Z.of_N len) (2 ^ 32)). lia.
Qed.
Print Assumptions ssl_wait_all_exact.

(** It succeeds as soon as the bytes are there (below 2 GB). *)
Theorem ssl_wait_all_succeeds b r s : Z.of_nat (length b) < 2 ^ 31 → sm_items (tls_stream s) = map Byte b ++ r →
  ∃ s', ssl_ioread FlWaitAll (N.of_nat (length b)) s = Ok (Z.of_nat (length b), b, s') ∧ tls_stream s' = Stream r (tl_tail s).
Proof.
  intros Hb Hs. unfold ssl_ioread.
  destruct (wait_all_enough (S (S (tl_size s))) (N.of_nat (length b)) 0 [] s b r) as (s' & -> & E); [lia..|done|].
  exists s'. by rewrite nat_N_Z.
Qed.
Print Assumptions ssl_wait_all_succeeds.
(** Nothing is returned when the connection ends, fails or gives up too early. *)
Theorem ssl_wait_all_fails b r s len : Z.of_nat (length b) < Z.of_N len < 2 ^ 31 → sm_items (tls_stream s) = map Byte b ++ r →
  r = [] ∧ tl_tail s ≠ Wait ∨ head r = Some Gap → ∃ s', ssl_ioread FlWaitAll len s = Ok (-1, b, s').
Proof.
  intros Hb Hs Hr. unfold ssl_ioread. pose proof (wait_all_short (S (S (tl_size s))) len 0 [] s b r ltac:(lia) ltac:(lia) ltac:(lia) ltac:(lia) Hs) as H.
  destruct r as [|[c|] r]; [|by destruct Hr as [[]|]|].
  - specialize (H I). destruct (tl_tail s); [..|by destruct Hr as [[]|]]; destruct H as (s' & -> & _); by exists s'.
  - destruct H as (s' & -> & _); [done|]. by exists s'.
Qed.
Print Assumptions ssl_wait_all_fails.
Example ssl_wait_all_ex :
  ssl_ioread FlWaitAll 6 (of_records [B "ab"; []; B "c"; B "defgh"] Wait) = Ok (6, B "abcdef", Tls (B "gh") [] Wait) ∧
  ssl_ioread FlWaitAll 9 (of_records [B "ab"; []; B "c"; B "defgh"] Eof) = Ok (-1, B "abcdefgh", Tls [] [] Eof) ∧
  ssl_ioread FlWaitAll 9 (of_records [B "ab"] Wait) = Blocked ∧
  ssl_ioread FlWaitAll (2 ^ 32 + 2) (of_records [B "abcd"] Eof) = Ok (-1, B "ab", Tls (B "cd") [] Eof).
Proof. by vm_compute. Qed.

(** Peeking *)
Definition ssl_peek_full : Prop := ∀ len s rc b s', ssl_read_peek len s = Ok (rc, b, s') → 0 < rc → tls_stream s' = tls_stream s.
Theorem ssl_peek_refuted : ¬ ssl_peek_full.
Proof.
  intros H. specialize (H 1%N (of_records [B "GET"] Eof) 1 (B "G") (Tls (B "ET") [] Eof) eq_refl ltac:(done)). by vm_compute in H.
Qed.
Print Assumptions ssl_peek_refuted.
(** What ReadPeek shows is gone, always. *)
Theorem ssl_peek_consumes len s rc b s' : ssl_read_peek len s = Ok (rc, b, s') → 0 < rc →
  ∃ u, sm_items (tls_stream s) = map Byte u ++ sm_items (tls_stream s') ∧ Z.of_nat (length u) = rc ∧ b = cstr u ∧ tls_stream s' ≠ tls_stream s.
Proof.
  unfold ssl_read_peek, ssl_ioread. intros H Hrc. set (num := to_int32 (Z.of_N len)) in *.
  assert (0 < num) as Hn.
  { destruct (decide (0 < num)); [done|]. exfalso. unfold ssl_read in H. destruct (num <? 0) eqn:En; [|rewrite (proj2 (Z.eqb_eq _ _)) in H by (clear H; lia)]; simpl in H; injection H as <- _ _; lia. }
  pose proof (ssl_read_spec num s Hn) as Hs. destruct (sm_items (tls_stream s)) as [|[c|] r] eqn:Es.
  - destruct (tl_tail s); [..|by rewrite Hs in H]; destruct Hs as (t & E & _); rewrite E in H; simpl in H; injection H as <- _ _; lia.
  - destruct Hs as (u & t & Hu & _ & E & Hi & Ht & _). rewrite E in H. simpl in H. injection H as <- <- <-.
    exists u. split; [done|]. split; [done|]. split; [done|]. intros Hc. assert (length (sm_items (tls_stream s)) = length (sm_items (tls_stream t))) as El by (by rewrite Hc).
    rewrite Es, Hi, app_length, map_length in El. destruct u; [done|]. simpl in El. lia.
  - destruct Hs as (t & E & _). rewrite E in H. simpl in H. injection H as <- _ _. lia.
Qed.
Print Assumptions ssl_peek_consumes.

(** * C102: ReadUntil on TLS is ReadUntil on the stream of bytes *)
Theorem ssl_read_until_same buf delim s : seen (ssl_read_until buf delim s) = read_until buf delim (tls_stream s).
Proof. unfold ssl_read_until, read_until. destruct delim as [|c d]; [done|]. rewrite until_same by lia. done. Qed.
Print Assumptions ssl_read_until_same.
(** So the records' boundaries do not matter. *)
Corollary ssl_read_until_records buf delim s s' : tls_stream s = tls_stream s' →
  seen (ssl_read_until buf delim s) = seen (ssl_read_until buf delim s').
Proof. intros H. by rewrite !ssl_read_until_same, H. Qed.
Print Assumptions ssl_read_until_records.
Example ssl_read_until_ex :
  ssl_read_until [] CRLF (of_records [B "ab"; [CR]; LF :: B "cd"] Wait) = Ok (4, B "ab" ++ CRLF, Tls (B "cd") [] Wait).
Proof. by vm_compute. Qed.

(** * C76: the server context *)

(** The context is there and has this certificate and this key. *)
Definition equipped (h : heap) (x : option nat) (cert key : bytes) : Prop :=
  ∃ i p, x = Some i ∧ hp h !! i = Some (HCtx (Some cert) (Some key) p).
Definition fresh (h : heap) : Prop := ∀ i, (hp_next h ≤ i)%nat → hp h !! i = None.

Definition ssl_svr_full : Prop := ∀ o m cert key pass h x h',
  fresh h → ctx_init_svr o m cert key pass None h = (kSuccess, x, h') → equipped h' x cert key.
(** A world in which everything is a certificate or a key. *)
Definition easy : ossl := Ossl (λ _, true) (λ _, true) (λ _ _, true) (λ _ _, true) (λ p, Some (B "content of " ++ p)).
Definition plenty : memory := Memory true true true true.
Theorem ssl_svr_refuted : ¬ ssl_svr_full.
Proof.
  intros H. specialize (H easy plenty (B "cert") (B "key") [] heap0).
  destruct (ctx_init_svr easy plenty (B "cert") (B "key") [] None heap0) as [[rc x] h'] eqn:E. vm_compute in E. injection E as <- <- <-.
  destruct (H _ _ ltac:(done) eq_refl) as (i & p & Hi & Hh). injection Hi as <-. by vm_compute in Hh.
Qed.
Print Assumptions ssl_svr_refuted.
(** InitSvr never loads a key, whatever it is given: the certificate is there, the
    key is not. *)
Theorem ssl_svr_no_key o m cert key pass h x h' :
  fresh h → ctx_init_svr o m cert key pass None h = (kSuccess, x, h') →
  ∃ i p, x = Some i ∧ hp h' !! i = Some (HCtx (Some cert) None p) ∧ os_cert o cert = true ∧ hp h !! i = None.
Proof.
  intros Hf H. unfold ctx_init_svr in H. rewrite decide_False in H by naive_solver. case_decide; [done|].
  destruct (me_ctx m); [|done]. simpl in H. destruct (me_bio m); [|done]. simpl in H.
  destruct (os_cert o cert) eqn:Eo; [|done]. simpl in H. destruct (os_accept o cert); [|done]. simpl in H. injection H as <- <-.
  exists (hp_next h). assert (hp h !! hp_next h = None) by (apply Hf; lia).
  case_decide; eexists; (split; [done|]); (split; [|done]); simpl;
    rewrite ?lookup_delete_ne by lia; by rewrite lookup_insert.
Qed.
Print Assumptions ssl_svr_no_key.

(** InitSvrFile has both, from the files that were named, and the key could be
    read with the password that was given. *)
Theorem ssl_svr_file_partial o m cp kp pass h x h' :
  NUL ∉ cp → NUL ∉ kp → ctx_init_svr_file o m cp kp pass None h = (kSuccess, x, h') →
  ∃ cert key, os_fs o cp = Some cert ∧ os_fs o kp = Some key ∧ equipped h' x cert key ∧
    os_cert o cert = true ∧ os_match o cert key = true ∧ os_key o (if decide (pass = []) then None else Some (cstr pass)) key = true.
Proof.
  intros Hc Hk H. unfold ctx_init_svr_file in H. destruct (decide (cp = [] ∨ kp = [])); [done|].
  destruct (me_ctx m); [|done]. simpl in H. rewrite !cstr_no_nul in H by done.
  destruct (os_fs o cp) as [cert|]; [|done]. destruct (os_cert o cert) eqn:E1; [|done]. destruct (os_accept o cert); [|done]. simpl in H.
  destruct (os_fs o kp) as [key|]; [|done]. destruct (os_key o _ key) eqn:E2; [|done]. destruct (os_match o cert key) eqn:E3; [|done]. simpl in H.
  injection H as <- <-. exists cert, key. split; [done|]. split; [done|]. split; [|done]. eexists _, _. split; [done|]. simpl. by rewrite lookup_insert.
Qed.
Print Assumptions ssl_svr_file_partial.
Example ssl_svr_file_ex : ∃ h, ctx_init_svr_file easy plenty (B "c.pem") (B "k.pem") (B "pw") None heap0 = (kSuccess, Some 0%nat, h) ∧
  hp h !! 0%nat = Some (HCtx (Some (B "content of c.pem")) (Some (B "content of k.pem")) (Some (B "pw"))).
Proof. eexists. split; [done|]. by vm_compute. Qed.

(** Initialised at most once: the three functions refuse a context that is
    initialised, and change nothing. *)
Theorem ssl_init_once_partial o m a b c x h i :
  x = Some i →
  ctx_init_svr o m a b c x h = (kLogicErr, x, h) ∧ ctx_init_svr_file o m a b c x h = (kLogicErr, x, h) ∧ ctx_init_cli m x h = (kLogicErr, x, h).
Proof. intros ->. unfold ctx_init_svr, ctx_init_svr_file, ctx_init_cli. by rewrite !decide_True by done. Qed.
Print Assumptions ssl_init_once_partial.
(** Init with a context does not refuse: the one that was there is lost. *)
Definition ssl_init_once_full : Prop := ∀ c x i, x = Some i → (ctx_init c x).2 = x.
Theorem ssl_init_once_refuted : ¬ ssl_init_once_full.
Proof. intros H. by specialize (H (Some 1%nat) (Some 0%nat) _ eq_refl). Qed.
Print Assumptions ssl_init_once_refuted.

(** * C103: nothing is left behind *)
(** After an initialisation that fails the heap is as before. *)
Definition ssl_init_no_leak_full : Prop := ∀ o m a b c x h rc x' h',
  ctx_init_svr_file o m a b c x h = (rc, x', h') ∨ ctx_init_svr o m a b c x h = (rc, x', h') ∨ ctx_init_cli m x h = (rc, x', h') →
  fresh h → rc ≠ kSuccess → hp h' = hp h.
(** A file that cannot be read: the new context is never freed. *)
Theorem ssl_init_no_leak_refuted : ¬ ssl_init_no_leak_full.
Proof.
  intros H. set (o := Ossl (λ _, true) (λ _, true) (λ _ _, true) (λ _ _, true) (λ _, None)).
  specialize (H o plenty (B "c") (B "k") [] None heap0 kSysErr None (h_new (HCtx None None None) heap0).2).
  discriminate H; [left; by vm_compute|done|done].
Qed.
Print Assumptions ssl_init_no_leak_refuted.
(** All ways to fail: nothing was made, or a context (and in InitSvr possibly the
    certificate) stays in memory. *)
Theorem ssl_init_no_leak_partial o m a b c x h rc x' h' :
  fresh h → rc ≠ kSuccess →
  (ctx_init_cli m x h = (rc, x', h') → hp h' = hp h ∧ x' = x) ∧
  (ctx_init_svr_file o m a b c x h = (rc, x', h') → x' = x ∧
     (hp h' = hp h ∨ ∃ cert p, hp h' = <[hp_next h := HCtx cert None p]> (hp h))) ∧
  (ctx_init_svr o m a b c x h = (rc, x', h') → x' = x ∧
     (hp h' = hp h ∨ hp h' = <[hp_next h := HCtx None None None]> (hp h) ∨
      ∃ j, hp h' = <[j := HCert a]> (<[hp_next h := HCtx None None None]> (hp h)))).
Proof.
  intros Hf Hrc. split_and!.
  - unfold ctx_init_cli. repeat (case_match; try (intros [= <- <- <-]; done)).
  - unfold ctx_init_svr_file. simpl. repeat case_match; intros [= <- <- <-]; try done; (split; [done|]).
    all: first [by left|right; eexists _, _; simpl; by rewrite ?insert_insert].
  - unfold ctx_init_svr. simpl. destruct (decide (x ≠ None)); [intros [= <- <- <-]; eauto|].
    destruct (decide (a = [] ∨ b = [])); [intros [= <- <- <-]; eauto|]. destruct (me_ctx m); [|intros [= <- <- <-]; eauto]. simpl.
    destruct (me_bio m); [|intros [= <- <- <-]; eauto]. simpl. destruct (os_cert o a); simpl.
    + destruct (os_accept o a); simpl; [|].
      * intros [= <- <- <-]. done.
      * intros [= <- <- <-]. split; [done|]. right. right. exists (S (S (hp_next h))). simpl.
        rewrite delete_insert_ne by lia. rewrite delete_insert; [done|]. rewrite lookup_insert_ne by lia. apply Hf. lia.
    + intros [= <- <- <-]. split; [done|]. right. left. simpl. rewrite delete_insert; [done|]. rewrite lookup_insert_ne by lia. apply Hf. lia.
Qed.
Print Assumptions ssl_init_no_leak_partial.
(** A successful initialisation leaves exactly its context, and Close removes it. *)
Theorem ssl_init_close o m a b c h x h' :
  fresh h →
  ctx_init_svr_file o m a b c None h = (kSuccess, x, h') ∨ ctx_init_svr o m a b c None h = (kSuccess, x, h') ∨ ctx_init_cli m None h = (kSuccess, x, h') →
  ∃ h2, ctx_close x h' = (kSuccess, None, h2) ∧ hp h2 = hp h.
Proof.
  intros Hf Hi. assert (∀ i, (hp_next h ≤ i)%nat → hp h !! i = None) as Hn by done.
  destruct Hi as [H|[H|H]].
  - unfold ctx_init_svr_file in H. simpl in H. repeat (case_match; try done).
    all: injection H as <- <-; eexists; split; [done|]; simpl; rewrite !insert_insert; apply delete_insert, Hn; lia.
  - unfold ctx_init_svr in H. simpl in H. destruct (decide (a = [] ∨ b = [])); [done|].
    destruct (me_ctx m); [|done]. simpl in H. destruct (me_bio m); [|done]. simpl in H. destruct (os_cert o a); [|done]. simpl in H.
    destruct (os_accept o a); [|done]. simpl in H. injection H as <- <-. eexists. split; [done|]. simpl.
    apply map_eq. intros k. destruct (decide (k = hp_next h)) as [->|Hk0]; [rewrite lookup_delete; symmetry; apply Hn; lia|].
    rewrite lookup_delete_ne by done. destruct (decide (k = S (S (hp_next h)))) as [->|Hk2]; [rewrite lookup_delete; symmetry; apply Hn; lia|].
    rewrite lookup_delete_ne by done.
    case_decide; simpl; rewrite ?lookup_insert_ne by done;
      (destruct (decide (k = S (hp_next h))) as [->|Hk1]; [rewrite lookup_delete; symmetry; apply Hn; lia|]);
      rewrite lookup_delete_ne, !lookup_insert_ne by done; done.
  - unfold ctx_init_cli in H. simpl in H. repeat (case_match; try done). injection H as <- <-. eexists. split; [done|]. simpl. apply delete_insert, Hn. lia.
Qed.
Print Assumptions ssl_init_close.

(** * C104: closing a TLS socket tells the peer first *)
(** The close_notify alert is written to a descriptor that is still ours. *)
Fixpoint notify_first (tr : list sact) : Prop :=
  match tr with
  | [] => True
  | YClose fd :: tr' => YNotify fd ∉ tr' ∧ notify_first tr'
  | _ :: tr' => notify_first tr'
  end.
Definition ssl_close_full : Prop := ∀ s h rc s' h' tr, ssock_close s h = (rc, s', h', tr) → notify_first tr.
Theorem ssl_close_refuted : ¬ ssl_close_full.
Proof.
  intros H. specialize (H (Ssock (Sock 7 kInit) (Some 0%nat)) heap0 _ _ _ _ eq_refl). simpl in H. destruct H as [H _]. apply H. by apply elem_of_list_singleton.
Qed.
Print Assumptions ssl_close_refuted.
(** On every open TLS socket Close writes the alert to the number of the
    descriptor that it has just closed. *)
Theorem ssl_close_always_late s h i : so_status (ss_base s) = kInit → ss_ssl s = Some i →
  ssock_close s h = (kSuccess, Ssock (Sock (so_fd (ss_base s)) kClosed) None, h_free i h, [YClose (so_fd (ss_base s)); YNotify (so_fd (ss_base s))]).
Proof. intros Hs Hi. unfold ssock_close, close_ssl. simpl. by rewrite decide_True, Hi by done. Qed.
Print Assumptions ssl_close_always_late.
(** CloseSSL before Close does it in the right order. *)
Theorem ssl_close_partial s h rc s1 h1 tr1 rc2 s2 h2 tr2 :
  close_ssl s h = (rc, s1, h1, tr1) → ssock_close s1 h1 = (rc2, s2, h2, tr2) → notify_first (tr1 ++ tr2).
Proof.
  unfold close_ssl, ssock_close. intros H1 H2. destruct s as [b [i|]]; simpl in *; injection H1 as <- <- <- <-; simpl in *; (case_decide; injection H2 as <- <- <- <-); simpl; try done.
  all: split; [apply not_elem_of_nil|done].
Qed.
Print Assumptions ssl_close_partial.
(** However often they are called, the descriptor is closed once, the TLS session
    is shut down and freed once. *)
Inductive cop : Type := CClose | CCloseSSL.
Definition cop_step (p : ssock * heap * list sact) (o : cop) : ssock * heap * list sact :=
  let '(s, h, tr) := p in
  let '(_, s', h', t) := match o with CClose => ssock_close s h | CCloseSSL => close_ssl s h end in (s', h', tr ++ t).
Definition times (a : sact) (tr : list sact) : nat := length (filter (eq a) tr).
Theorem ssl_close_once ops s h : let '(_, _, tr) := foldl cop_step (s, h, []) ops in
  (times (YClose (so_fd (ss_base s))) tr ≤ 1)%nat ∧ (times (YNotify (so_fd (ss_base s))) tr ≤ 1)%nat.
Proof.
  assert (Hg : ∀ ops s h tr0 fd, so_fd (ss_base s) = fd →
     (so_status (ss_base s) = kInit → times (YClose fd) tr0 = 0%nat) → (times (YClose fd) tr0 ≤ 1)%nat →
     (ss_ssl s ≠ None → times (YNotify fd) tr0 = 0%nat) → (times (YNotify fd) tr0 ≤ 1)%nat →
     let '(_, _, tr) := foldl cop_step (s, h, tr0) ops in (times (YClose fd) tr ≤ 1)%nat ∧ (times (YNotify fd) tr ≤ 1)%nat).
  { clear. induction ops as [|o ops IH]; intros s h tr0 fd Hfd H1 H1' H2 H2'; [done|]. cbn [foldl].
    assert (∀ a tr t, times a (tr ++ t) = (times a tr + times a t)%nat) as Ha by (intros; unfold times; by rewrite filter_app, app_length).
    assert (∀ a b, times a [b] = if decide (a = b) then 1%nat else 0%nat) as Hs.
    { intros a b. unfold times. rewrite filter_cons. by destruct (decide (a = b)). }
    unfold cop_step at 2. destruct o.
    - unfold ssock_close. destruct (decide (so_status (ss_base s) = kInit)) as [Hi|Hi].
      + unfold close_ssl. cbn [ss_ssl ss_base so_fd]. destruct (ss_ssl s) as [i|] eqn:Es; cbn [app].
        * apply IH; simpl; try done; rewrite Ha; change [YClose (so_fd (ss_base s)); YNotify (so_fd (ss_base s))] with ([YClose (so_fd (ss_base s))] ++ [YNotify (so_fd (ss_base s))]);
            rewrite Ha, !Hs, Hfd.
          -- rewrite decide_True, decide_False by done. rewrite H1 by done. lia.
          -- rewrite decide_False, decide_True by done. rewrite H2 by done. lia.
        * apply IH; simpl; try done; rewrite Ha, Hs, Hfd.
          -- rewrite decide_True by done. rewrite H1 by done. lia.
          -- rewrite decide_False by done. lia.
      + rewrite app_nil_r. by apply IH.
    - unfold close_ssl. destruct (ss_ssl s) as [i|] eqn:Es.
      + apply IH; simpl; try done; rewrite Ha, Hs, Hfd.
        * rewrite decide_False by done. intros. rewrite H1 by done. lia.
        * rewrite decide_False by done. lia.
        * rewrite decide_True by done. rewrite H2 by done. lia.
      + rewrite app_nil_r. apply IH; try done; by rewrite Es. }
  apply Hg; try done; unfold times; simpl; lia.
Qed.
Print Assumptions ssl_close_once.
Example ssl_close_once_ex : let '(s, h, tr) := foldl cop_step (Ssock (Sock 7 kInit) (Some 0%nat), (h_new HSsl heap0).2, []) [CCloseSSL; CClose; CCloseSSL; CClose] in
  s = Ssock (Sock 7 kClosed) None ∧ hp h !! 0%nat = None ∧ tr = [YNotify 7; YClose 7].
Proof. by vm_compute. Qed.

(** * C105: a socket comes out of AcceptSSL only when the handshake is complete *)
Definition ssl_accept_full : Prop := ∀ m rc soc x h s h', accept_ssl m rc soc x h = (Some s, h') → 0 < rc.
Theorem ssl_accept_refuted : ¬ ssl_accept_full.
Proof.
  intros H. specialize (H plenty 0 (Sock 7 kInit) (Some 0%nat) heap0 _ _ eq_refl). lia.
Qed.
Print Assumptions ssl_accept_refuted.
(** Proved: a handshake that fails (SSL_accept below 0), a context that is not
    initialised and a lack of memory give no socket and leave no session behind;
    otherwise the socket has the descriptor and its own session. *)
Theorem ssl_accept_partial m rc soc x h : fresh h →
  match accept_ssl m rc soc x h with
  | (None, h') => (x = None ∨ me_ssl m = false ∨ rc < 0) ∧ hp h' = hp h
  | (Some s, h') => 0 ≤ rc ∧ x ≠ None ∧
      (so_status soc = kInit → so_fd (ss_base s) = so_fd soc ∧ so_status (ss_base s) = kInit ∧
         ∃ i, ss_ssl s = Some i ∧ hp h !! i = None ∧ hp h' = <[i := HSsl]> (hp h))
  end.
Proof.
  intros Hf. unfold accept_ssl. destruct x as [i|]; [|simpl; by auto]. destruct (me_ssl m); [|simpl; split; [|done]; by right; left]. simpl.
  destruct (Z.ltb_spec rc 0); simpl.
  - split; [auto|]. apply delete_insert, Hf. lia.
  - split; [done|]. split; [done|]. intros Hs. rewrite decide_True by done. simpl. split; [done|]. split; [done|]. exists (hp_next h). split; [done|]. split; [apply Hf; lia|done].
Qed.
Print Assumptions ssl_accept_partial.
Example ssl_accept_ex : accept_ssl plenty 1 (Sock 7 kInit) (Some 0%nat) heap0 = (Some (Ssock (Sock 7 kInit) (Some 0%nat)), (h_new HSsl heap0).2).
Proof. done. Qed.
(** A socket that is not open: the session is made, but no object has it. *)
Theorem ssl_accept_leaks_session m rc soc i h : me_ssl m = true → 0 ≤ rc → so_status soc ≠ kInit →
  ∃ s, accept_ssl m rc soc (Some i) h = (Some s, (h_new HSsl h).2) ∧ ss_ssl s = None ∧ so_status (ss_base s) = kUninit.
Proof.
  intros Hm Hr Hs. unfold accept_ssl. rewrite Hm. simpl. rewrite (proj2 (Z.ltb_ge _ _)) by lia. rewrite decide_False by done. by eexists.
Qed.
Print Assumptions ssl_accept_leaks_session.

(** * C106: operations on a TLS socket without a session *)
Definition ssl_no_session_full : Prop := ∀ f len s t, ssock_read f len s t ≠ UB.
(** CloseSSL, then Read: SSL_read of a null pointer. *)
Theorem ssl_no_session_refuted : ¬ ssl_no_session_full.
Proof. intros H. by apply (H FlNone 1%N (Ssock (Sock 7 kInit) None) (of_records [] Eof)). Qed.
Print Assumptions ssl_no_session_refuted.
(** A socket that was made by the library and on which only Close was called
    behaves: it reads, or refuses. *)
Theorem ssl_no_session_partial f len ssl soc t n h :
  (len < 2 ^ 64)%N →
  let s := foldl cop_step (ssock_new ssl soc, h, []) (replicate n CClose) in ssock_read f len s.1.1 t ≠ UB ∧
  (so_status soc ≠ kInit ∨ ssl = None ∨ n ≠ 0%nat → ssock_read f len s.1.1 t = Ok (-1, [], t)).
Proof.
  intros Hl. assert (Hcl : ∀ n s h tr, so_status (ss_base s) ≠ kInit → (foldl cop_step (s, h, tr) (replicate n CClose)).1.1 = s).
  { clear. induction n as [|n IH]; intros s h tr Hs; [done|]. simpl. unfold ssock_close. rewrite decide_False by done. by apply IH. }
  assert (Hun : ∀ s, so_status (ss_base s) ≠ kInit → ssock_read f len s t = Ok (-1, [], t)).
  { intros s Hs. unfold ssock_read. by rewrite decide_False. }
  cbv zeta. unfold ssock_new. destruct ssl as [i|]; [|rewrite Hcl by done; rewrite Hun by done; done].
  destruct (decide (so_status soc = kInit)) as [Hi|Hi]; [|rewrite Hcl by done; rewrite Hun by done; done].
  destruct n as [|n].
  - simpl. split; [|naive_solver]. unfold ssock_read. simpl. destruct f.
    + unfold ssl_ioread, ssl_read. repeat case_match; try done. clear. induction (tl_items t) as [|[[]|] l IH]; simpl; [by destruct (tl_tail t)|done|done|done].
    + pose proof (ssl_wait_all_exact len t Hl) as H. intros E. by rewrite E in H.
    + unfold ssl_ioread, ssl_read. repeat case_match; try done. clear. induction (tl_items t) as [|[[]|] l IH]; simpl; [by destruct (tl_tail t)|done|done|done].
  - simpl. rewrite Hcl by done. rewrite Hun by done. done.
Qed.
Print Assumptions ssl_no_session_partial.

(** * C132: writing over TLS *)

(** A Write that reports success has sent the whole buffer and says so; one that
    fails has sent nothing.  ([fail]: how SSL_write fails, if it does.) *)
Definition ssl_write_exact_full : Prop := ∀ fail buf rc sent,
  (∀ r, fail = Some r → r ≤ 0) → ssl_iowrite fail buf = (rc, sent) →
  (0 < rc → rc = Z.of_nat (length buf) ∧ sent = buf) ∧ (rc ≤ 0 → sent = []).
(** Missing: buffers of 2 GiB and more. *)
Theorem ssl_write_exact_partial fail buf rc sent : Z.of_nat (length buf) < 2 ^ 31 →
  (∀ r, fail = Some r → r ≤ 0) → ssl_iowrite fail buf = (rc, sent) →
  (0 < rc → rc = Z.of_nat (length buf) ∧ sent = buf) ∧ (rc ≤ 0 → sent = []) ∧
  (fail = None → rc = Z.of_nat (length buf) ∧ sent = buf).
Proof.
  intros Hl Hf H. unfold ssl_iowrite in H.
  assert (E : to_int32 (Z.of_N (size buf)) = Z.of_nat (length buf)).
  { unfold size. rewrite nat_N_Z. apply to_int32_small. unfold int_min, int_max. lia. }
  rewrite E in H. destruct fail as [r|].
  - injection H as <- <-. pose proof (Hf r eq_refl). split; [lia|]. by split.
  - destruct (Z.ltb_spec (Z.of_nat (length buf)) 0); [lia|]. injection H as <- <-.
    rewrite Nat2Z.id, take_ge by lia. split; [done|]. split; [|done].
    intros Hz. apply nil_length_inv. lia.
Qed.
Print Assumptions ssl_write_exact_partial.
Lemma buf_of_size n : ∃ buf, size buf = n.
Proof. exists (replicate (N.to_nat n) NUL). unfold size. rewrite replicate_length. apply N2Nat.id. Qed.
(** 4 GiB and one byte: one byte is sent, and 1 returned. *)
Theorem ssl_write_exact_refuted : ¬ ssl_write_exact_full.
Proof.
  intros H. destruct (buf_of_size (2 ^ 32 + 1)) as [buf Hlen].
  destruct (H None buf 1 (take 1 buf)) as [H1 _]; [done| |].
  - unfold ssl_iowrite. rewrite Hlen. change (to_int32 (Z.of_N (2 ^ 32 + 1))) with 1. done.
  - destruct (H1 ltac:(lia)) as [H2 _]. unfold size in Hlen. lia.
Qed.
Print Assumptions ssl_write_exact_refuted.
Example ssl_write_ex : ssl_iowrite None (B "abc") = (3, B "abc") ∧ ssl_iowrite (Some (-1)) (B "abc") = (-1, []).
Proof. done. Qed.
