(** C239: err_msg() of SSLContext (src/cppnet/ssl/ssl_context.cpp). *)
From Verif.Model Require Import SslMessages.

(** ** Specification *)

(** Reasons for a failure, in the order in which they are found out. *)
Inductive told : list (Prop * bytes) → option bytes → Prop :=
| told_none : told [] None
| told_here (P : Prop) t l : P → told ((P, t) :: l) (Some t)
| told_later (P : Prop) t l r : ¬ P → told l r → told ((P, t) :: l) r.

(** A certificate and a key that the library takes. *)
Definition cert_file (o : ossl) (path : bytes) (c : bytes) : Prop := os_fs o (cstr path) = Some c ∧ os_cert o c = true ∧ os_accept o c = true.
Definition pass_of (pass : bytes) : option bytes := if decide (pass = []) then None else Some (cstr pass).
Definition key_file (o : ossl) (pass path c : bytes) : Prop := ∃ k, os_fs o (cstr path) = Some k ∧ os_key o (pass_of pass) k = true ∧ os_match o c k = true.

Definition reasons (c : xcall) (s : sctx) : list (Prop * bytes) :=
  match c with
  | XCli m => [(is_Some (sx_ctx s), B "[loginerr]:ssl context is not null");
               (me_method m = false, B "[syserr]:create ssl method failed");
               (me_ctx m = false, B "[syserr]:create ssl context failed")]
  | XSvr err o m cert key _ =>
      [(is_Some (sx_ctx s), B "[loginerr]:ssl context is not null");
       (cert = [] ∨ key = [], B "[loginerr]:cert or key data is empty");
       (me_ctx m = false, B "[syserr]:create ssl context failed " ++ err);
       (me_bio m = false, B "[syserr]:create bio failed" ++ err);
       (os_cert o cert = false, B "[syserr]:read certificate failed" ++ err);
       (os_accept o cert = false, B "[syserr]:use certificate failed" ++ err)]
  | XFile err o m cert key pass =>
      [(is_Some (sx_ctx s), B "[loginerr]:ssl context is not null");
       (cert = [] ∨ key = [], B "[loginerr]:cert or key path is empty");
       (me_ctx m = false, B "[syserr]:create ssl context failed");
       ((∀ c, ¬ cert_file o cert c), B "[syserr]:use certificate file failed " ++ err);
       ((∀ c, cert_file o cert c → ¬ key_file o pass key c), B "[syserr]:use private key file failed " ++ err)]
  | XClose => []
  end.

(** After any calls, err_msg() is empty exactly if the last call succeeded. *)
Definition ssl_says_full : Prop := ∀ l c h rc s h',
  xrun (l ++ [c]) kSuccess sctx_new h = (rc, s, h') → (rc = kSuccess ↔ sx_text s = []).

(** ** Proofs *)
Lemma told_det l r r' : told l r → told l r' → r = r'.
Proof. intros H. revert r'. induction H as [|P t l HP|P t l r HP H IH]; intros r' H'; inversion H'; subst; done || (by apply IH). Qed.

(** Whatever came before: a call fails exactly if there is a reason, and the text is then
    the first one; if it succeeds the text is the old one. *)
Theorem ssl_says_why : ∀ c s h,
  ∃ rc s' h', xdo c s h = (rc, s', h') ∧
    ((rc = kSuccess ∧ told (reasons c s) None ∧ sx_text s' = sx_text s) ∨
     (rc ≠ kSuccess ∧ told (reasons c s) (Some (sx_text s')) ∧ sx_ctx s' = sx_ctx s)).
Proof.
  intros c [x old] h.
  destruct c as [m|err o m cert key pass|err o m cert key pass|]; cbn [xdo sx_ctx sx_text reasons].
  - unfold ctx_init_cli, cli_text. destruct x as [i|]; cbn [negb].
    { rewrite !decide_True by done. do 3 eexists. split; [done|]. right. split; [done|]. split; [|done]. apply told_here. by eexists. }
    rewrite !decide_False by by intros []. destruct (me_method m) eqn:E1; cbn [negb].
    2:{ do 3 eexists. split; [done|]. right. split; [done|]. split; [|done]. apply told_later; [by intros [? ?]|]. by apply told_here. }
    destruct (me_ctx m) eqn:E2; cbn [negb].
    2:{ do 3 eexists. split; [done|]. right. split; [done|]. split; [|done]. apply told_later; [by intros [? ?]|]. apply told_later; [congruence|]. by apply told_here. }
    do 3 eexists. split; [done|]. left. split; [done|]. split; [|done]. repeat (apply told_later; [first [by intros [? ?]|congruence]|]). constructor.
  - unfold ctx_init_svr, svr_text. destruct x as [i|].
    { rewrite !decide_True by done. do 3 eexists. split; [done|]. right. split; [done|]. split; [|done]. apply told_here. by eexists. }
    rewrite !(decide_False (P := None ≠ None)) by by intros []. destruct (decide (cert = [] ∨ key = [])) as [He|He].
    { do 3 eexists. split; [done|]. right. split; [done|]. split; [|done]. apply told_later; [by intros [? ?]|]. by apply told_here. }
    destruct (me_ctx m) eqn:E1; cbn [negb].
    2:{ do 3 eexists. split; [done|]. right. split; [done|]. split; [|done]. do 2 (apply told_later; [first [by intros [? ?]|done]|]). by apply told_here. }
    unfold h_new at 1. destruct (me_bio m) eqn:E2; cbn [negb].
    2:{ do 3 eexists. split; [done|]. right. split; [done|]. split; [|done]. do 3 (apply told_later; [first [by intros [? ?]|done|congruence]|]). by apply told_here. }
    unfold h_new at 1. destruct (os_cert o cert) eqn:E3; cbn [negb].
    2:{ do 3 eexists. split; [done|]. right. split; [done|]. split; [|done]. do 4 (apply told_later; [first [by intros [? ?]|done|congruence]|]). by apply told_here. }
    unfold h_new at 1. destruct (os_accept o cert) eqn:E4; cbn [negb].
    2:{ do 3 eexists. split; [done|]. right. split; [done|]. split; [|done]. do 5 (apply told_later; [first [by intros [? ?]|done|congruence]|]). by apply told_here. }
    do 3 eexists. split; [done|]. left. split; [done|]. split; [|done]. do 6 (apply told_later; [first [by intros [? ?]|done|congruence]|]). constructor.
  - unfold ctx_init_svr_file, svr_file_text. destruct x as [i|].
    { rewrite !decide_True by done. do 3 eexists. split; [done|]. right. split; [done|]. split; [|done]. apply told_here. by eexists. }
    rewrite !(decide_False (P := None ≠ None)) by by intros []. destruct (decide (cert = [] ∨ key = [])) as [He|He].
    { do 3 eexists. split; [done|]. right. split; [done|]. split; [|done]. apply told_later; [by intros [? ?]|]. by apply told_here. }
    destruct (me_ctx m) eqn:E1; cbn [negb].
    2:{ do 3 eexists. split; [done|]. right. split; [done|]. split; [|done]. do 2 (apply told_later; [first [by intros [? ?]|done]|]). by apply told_here. }
    unfold h_new at 1. fold (pass_of pass).
    destruct (os_fs o (cstr cert)) as [ct|] eqn:E2.
    2:{ do 3 eexists. split; [done|]. right. split; [done|]. split; [|done]. do 3 (apply told_later; [first [by intros [? ?]|done|congruence]|]). apply told_here.
        intros ct [Hc _]. congruence. }
    destruct (os_cert o ct && os_accept o ct) eqn:E3; cbn [negb].
    2:{ do 3 eexists. split; [done|]. right. split; [done|]. split; [|done]. do 3 (apply told_later; [first [by intros [? ?]|done|congruence]|]). apply told_here.
        intros ct' (Hc & H1 & H2). rewrite E2 in Hc. injection Hc as <-. by rewrite H1, H2 in E3. }
    apply andb_true_iff in E3 as [E3 E3'].
    assert (Hcf : cert_file o cert ct) by done.
    destruct (os_fs o (cstr key)) as [k|] eqn:E4.
    2:{ do 3 eexists. split; [done|]. right. split; [done|]. split; [|done]. do 4 (apply told_later; [first [by intros [? ?]|done|congruence|intros Hx; by apply (Hx ct)]|]). apply told_here.
        intros ct' _ (k & Hk & _). congruence. }
    destruct (os_key o (pass_of pass) k && os_match o ct k) eqn:E5.
    2:{ do 3 eexists. split; [done|]. right. split; [done|]. split; [|done]. do 4 (apply told_later; [first [by intros [? ?]|done|congruence|intros Hx; by apply (Hx ct)]|]). apply told_here.
        intros ct' (Hc & _) (k' & Hk & H1 & H2). rewrite E2 in Hc. injection Hc as <-. rewrite E4 in Hk. injection Hk as <-. by rewrite H1, H2 in E5. }
    apply andb_true_iff in E5 as [E5 E5'].
    do 3 eexists. split; [done|]. left. split; [done|]. split; [|done].
    do 4 (apply told_later; [first [by intros [? ?]|done|congruence|intros Hx; by apply (Hx ct)]|]).
    apply told_later; [|constructor]. intros Hx. apply (Hx ct Hcf). by exists k.
  - unfold ctx_close. destruct x; (do 3 eexists; split; [done|]; left; split; [done|]; split; [constructor|done]).
Qed.

(** So on a new object the text tells whether the first call succeeded. Missing: later
    calls, because no call clears the text. *)
Theorem ssl_says_partial : ∀ c h rc s h', xdo c sctx_new h = (rc, s, h') → (rc = kSuccess ↔ sx_text s = []).
Proof.
  intros c h rc s h' E. destruct (ssl_says_why c sctx_new h) as (rc1 & s1 & h1 & E1 & H). rewrite E in E1. injection E1 as <- <- <-.
  destruct H as [(-> & _ & Ht)|(Hrc & Ht & _)]; [by rewrite Ht|]. split; [done|]. intros Et. rewrite Et in Ht. exfalso. clear -Ht.
  assert (HF : Forall (λ p : Prop * bytes, p.2 ≠ []) (reasons c sctx_new)).
  { destruct c; cbn [reasons]; repeat constructor; done. }
  remember (Some []) as r eqn:Er. induction Ht as [|P t l HP|P t l r HP H IH]; [done|..]; apply Forall_cons in HF as [Hp HF].
  - injection Er as ->. done.
  - by apply IH.
Qed.

(** A client whose second attempt succeeds still says that there is no memory. *)
Definition starved : memory := Memory true false true true.
Definition plenty : memory := Memory true true true true.
Theorem ssl_says_refuted : ¬ ssl_says_full.
Proof.
  intros H. destruct (H [XCli starved] (XCli plenty) heap0 _ _ _ eq_refl) as [H1 _]. by specialize (H1 eq_refl).
Qed.

Example ssl_says_ex :
  let r := xdo (XFile (B "error") (Ossl (λ _, true) (λ _, true) (λ _ _, true) (λ _ _, false) Some) plenty (B "c.pem") (B "k.pem") []) sctx_new heap0 in
  r.1.1 = kSysErr ∧ sx_text r.1.2 = B "[syserr]:use private key file failed error".
Proof. split; vm_compute; reflexivity. Qed.

(** The same for AcceptSSL, where [rc] is what SSL_accept(3) returns. *)
Theorem accept_says_why : ∀ err m rc soc x h old,
  let why := [(x = None ∨ me_ssl m = false, B "[syserr]:create ssl failed");
              ((rc < 0)%Z, B "[syserr]:ssl accept failed " ++ err)] in
  let t := accept_text err m rc x old in
  (is_Some (accept_ssl m rc soc x h).1 ∧ told why None ∧ t = old) ∨
  ((accept_ssl m rc soc x h).1 = None ∧ told why (Some t)).
Proof.
  intros err m rc soc x h old why t. subst why t. unfold accept_ssl, accept_text. destruct x as [i|].
  2:{ right. split; [done|]. apply told_here. by left. }
  destruct (me_ssl m) eqn:E; cbn [negb].
  2:{ right. split; [done|]. apply told_here. by right. }
  unfold h_new. destruct (Z.ltb_spec rc 0) as [Hr|Hr].
  - right. split; [done|]. apply told_later; [by intros [?|?]|]. by apply told_here.
  - left. split; [by eexists|]. split; [|done]. apply told_later; [by intros [?|?]|]. apply told_later; [lia|]. constructor.
Qed.
Example accept_says_ex : accept_text (B "error") plenty (-1) (Some 0) [] = B "[syserr]:ssl accept failed error".
Proof. vm_compute. reflexivity. Qed.

Print Assumptions ssl_says_why.
Print Assumptions ssl_says_partial.
Print Assumptions ssl_says_refuted.
Print Assumptions accept_says_why.
