(** C241: err_msg() of SSLSocket (src/cppnet/ssl/ssl_socket.cpp). *)
From Verif.Model Require Import SslSocketMessages.
From Verif.Props Require Import SslMessageProps.

(** ** Specification *)
Definition closed (s : ssock) : Prop := so_status (ss_base s) ≠ kInit.
Definition no_session (s : ssock) : Prop := ss_ssl s = None.

(** Reading that fails says why. *)
Definition socket_says_full : Prop := ∀ err f len s t rc b t',
  ssock_read f len s t = Ok (rc, b, t') → (rc < 0)%Z → ssock_read_text err f len s t [] ≠ [].

(** ** Proofs *)
Lemma wait_all_rc fuel len total acc s rc b s' :
  (0 ≤ total)%Z → wait_all fuel len total acc s = Ok (rc, b, s') → rc = kSysErr ∨ (0 ≤ rc)%Z.
Proof.
  revert total acc s. induction fuel as [|fuel IH]; intros total acc s Ht H; cbn [wait_all] in H; [done|].
  destruct (int_to_size total <? len)%N.
  - destruct (ssl_read _ s) as [[[rc1 b1] s1]| | | | |]; cbn [mbind outcome_bind] in H; try done.
    destruct (Z.leb_spec rc1 0) as [Hr|Hr].
    + injection H as <- _ _. by left.
    + destruct (total + rc1 <=? int_max)%Z; [|done]. apply (IH (total + rc1)%Z (acc ++ b1) s1); [lia|done].
  - injection H as <- _ _. by right.
Qed.

(** The constructor: the object can be used exactly if there is nothing to say. *)
Theorem new_socket_says : ∀ ssl s,
  let why := [(ssl = None, B "[logicerr]:ssl is nullptr"); (so_status s ≠ kInit, B "[logicerr]:socket fd is invalid")] in
  let z := ssock_new ssl s in let t := ssock_new_text ssl s in
  (told why None ∧ t = [] ∧ ss_ssl z = ssl ∧ so_fd (ss_base z) = so_fd s ∧ ¬ closed z ∧ ¬ no_session z) ∨
  (told why (Some t) ∧ closed z ∧ no_session z).
Proof.
  intros [i|] s why z t; subst why z t; unfold ssock_new, ssock_new_text, closed, no_session.
  - destruct (decide (so_status s = kInit)) as [E|E].
    + left. split; [|do 3 (split; [done|]); split; [|done]; intros Hn; by apply Hn].
      apply told_later; [done|]. apply told_later; [by intros Hn|]. constructor.
    + right. split; [|done]. apply told_later; [done|]. by apply told_here.
  - right. split; [|done]. by apply told_here.
Qed.

Theorem close_connect_say : ∀ se err rc rc2 s h old,
  (let t := ssock_close_text s old in
   ((ssock_close s h).1.1.1 = kSuccess ∧ ¬ closed s ∧ t = old) ∨
   ((ssock_close s h).1.1.1 = kLogicErr ∧ closed s ∧ t = B "[logicerr]:socket status is invalid")) ∧
  (let why := [(no_session s ∨ closed s, B "[logicerr]:ssl is nullptr or socket fd is invalid");
               ((rc < 0)%Z, B "[syserr]:" ++ se); ((rc2 ≤ 0)%Z, B "[syserr]:ssl connect failed" ++ err)] in
   let t := ssock_connect_text se err rc rc2 s old in
   ((ssock_connect rc rc2 s).1 = kSuccess ∧ told why None ∧ t = old) ∨
   ((ssock_connect rc rc2 s).1 ≠ kSuccess ∧ told why (Some t))).
Proof.
  intros se err rc rc2 s h old. split.
  - unfold ssock_close, ssock_close_text, closed. destruct (decide (so_status (ss_base s) = kInit)) as [E|E].
    + left. destruct (close_ssl _ h) as [[[? ?] ?] ?]. split; [done|]. split; [by intros Hn|done].
    + by right.
  - cbv zeta. unfold ssock_connect, ssock_connect_text, closed, no_session.
    destruct (decide (ss_ssl s = None ∨ so_status (ss_base s) ≠ kInit)) as [E|E].
    { right. split; [done|]. by apply told_here. }
    destruct (Z.ltb_spec rc 0) as [Hr|Hr].
    { right. split; [done|]. apply told_later; [done|]. by apply told_here. }
    destruct (Z.leb_spec rc2 0) as [Hr2|Hr2].
    + right. split; [done|]. do 2 (apply told_later; [done || lia|]). by apply told_here.
    + left. split; [done|]. split; [|done]. do 3 (apply told_later; [done || lia|]). constructor.
Qed.

(** Reading with [complete] on an open socket. Missing: other reads, and closed sockets; they
    leave the text alone. *)
Theorem socket_says_partial : ∀ err f len s t rc b t' old,
  ssock_read f len s t = Ok (rc, b, t') →
  let x := ssock_read_text err f len s t old in
  (f = FlWaitAll → ¬ closed s → (rc = kSysErr ∧ x = B "[syserr]:ssl complete read failed" ++ err) ∨ ((0 ≤ rc)%Z ∧ x = old)) ∧
  (f ≠ FlWaitAll ∨ closed s → x = old).
Proof.
  intros err f len s t rc b t' old H x. subst x. unfold ssock_read_text, closed. split.
  - intros -> Hc. destruct (decide (so_status (ss_base s) = kInit)) as [E|E]; [|done].
    rewrite H. unfold ssock_read in H. rewrite decide_True in H by done.
    destruct (ss_ssl s) as [i|]; [|done]. unfold ssl_ioread in H.
    destruct (wait_all_rc _ _ _ _ _ _ _ _ (Z.le_refl 0) H) as [->|Hrc].
    + left. by rewrite decide_True.
    + right. rewrite decide_False; [done|]. intros ->. by destruct Hrc.
  - intros Hf. destruct (decide (so_status (ss_base s) = kInit)) as [E|E]; [|done].
    destruct Hf as [Hf|Hf]; [|done]. by destruct f.
Qed.

(** The peer is silent until the time-out: -1, and nothing is said. *)
Definition some_socket : ssock := Ssock (Sock 5 kInit) (Some 0).
Definition quiet_peer : tls := Tls [] [SGap] Wait.
Theorem socket_says_refuted : ¬ socket_says_full.
Proof.
  intros H. by apply (H (B "error") FlNone 10%N some_socket quiet_peer (-1)%Z [] (Tls [] [] Wait)).
Qed.

Example socket_says_ex :
  ssock_read FlWaitAll 10 some_socket (Tls [] [Rec (B "abc"); SGap] Wait) = Ok (kSysErr, B "abc", Tls [] [] Wait) ∧
  ssock_read_text (B "error") FlWaitAll 10 some_socket (Tls [] [Rec (B "abc"); SGap] Wait) [] = B "[syserr]:ssl complete read failederror".
Proof. split; vm_compute; reflexivity. Qed.

Print Assumptions new_socket_says.
Print Assumptions close_connect_say.
Print Assumptions socket_says_partial.
Print Assumptions socket_says_refuted.
