(** C138, C139: command line options (demo/util/argc_deal.cpp). *)
From Verif.Model Require Import ArgcDeal.
From Verif.Proof Require Import TextProof.

(** ** C138 *)

(** An argument [arg] gives the option [k] the value [v]: any number of dashes, the
    name (which does not start with a dash), and the value after the first '='. *)
Inductive gives (k : bytes) : bytes → bytes → Prop :=
| gives_flag n : "="%char ∉ k → head k ≠ Some "-"%char → gives k (replicate n "-"%char ++ k) []
| gives_value n v : "="%char ∉ k → head (k ++ B "=") ≠ Some "-"%char → gives k (replicate n "-"%char ++ k ++ B "=" ++ v) v.
(** [v] is the value of the first argument for [k]. *)
Inductive first_value (k : bytes) : list bytes → bytes → Prop :=
| fv_here a l v : gives k a v → first_value k (a :: l) v
| fv_later a l v : (∀ v', ¬ gives k a v') → first_value k l v → first_value k (a :: l) v.

Lemma skip_dashes_spec s : ∃ n, s = replicate n "-"%char ++ skip_dashes s ∧ head (skip_dashes s) ≠ Some "-"%char.
Proof.
  induction s as [|c s IH]; [by exists 0|]. cbn. destruct (Ascii.eqb_spec c "-") as [->|Hc].
  - destruct IH as (n & E & H). exists (S n). cbn. by rewrite <- E.
  - exists 0. split; [done|]. cbn. congruence.
Qed.
Lemma skip_dashes_app n s : head s ≠ Some "-"%char → skip_dashes (replicate n "-"%char ++ s) = s.
Proof.
  intros H. induction n as [|n IH]; cbn; [|done]. destruct s as [|c s]; [done|]. cbn in *.
  destruct (Ascii.eqb_spec c "-") as [->|]; done.
Qed.
Lemma fits_skip s : fits s → fits (skip_dashes s).
Proof. intros H. destruct (skip_dashes_spec s) as (n & E & _). rewrite E in H. by eapply fits_app_r. Qed.

(** What one argument does. *)
Lemma add_arg_gives arg m : fits arg → ∃ k v, gives k arg v ∧ add_arg arg m = Ok (um_insert k v m).
Proof.
  intros Hf. destruct (skip_dashes_spec arg) as (n & E & H). pose proof (fits_skip _ Hf) as Hs.
  unfold add_arg. change (B "=") with ["="%char] in *. destruct (decide ("="%char ∈ skip_dashes arg)) as [Hin|Hin].
  - destruct (split_at_char _ _ Hin) as (a & b & Es & Ha). rewrite Es in H, E, Hs |- *.
    destruct (str_find_char "=" a b Hs Ha) as [-> Hne]. destruct (N.eqb_spec (N.of_nat (length a)) npos); [done|].
    rewrite (substr_before a ("="%char :: b)). cbn [mbind outcome_bind]. rewrite substr_after_char by done.
    exists a, b. split; [|done]. rewrite E. apply (gives_value a n b); [done|]. by destruct a.
  - rewrite str_find_char_none by done. cbn. exists (skip_dashes arg), []. split; [|done].
    rewrite E at 2. by apply gives_flag.
Qed.
Lemma gives_unique arg k v k' v' : gives k arg v → gives k' arg v' → k = k' ∧ v = v'.
Proof.
  assert (H : ∀ arg k v, gives k arg v → skip_dashes arg = k ++ (if decide ("="%char ∈ skip_dashes arg) then B "=" ++ v else []) ∧
     "="%char ∉ k ∧ ("="%char ∉ skip_dashes arg → v = [])).
  { clear. intros arg k v [n HN HH|n w HN HH]; rewrite skip_dashes_app; try (by destruct k).
    - rewrite decide_False by done. by rewrite app_nil_r.
    - assert (Hin : "="%char ∈ k ++ B "=" ++ w). { apply elem_of_app. right. by left. }
      rewrite decide_True by done. done. }
  intros H1 H2. destruct (H _ _ _ H1) as (E1 & N1 & V1), (H _ _ _ H2) as (E2 & N2 & V2). destruct (decide _) as [Hin|Hin].
  - rewrite E1 in E2. clear -E2 N1 N2. revert k' N2 E2. induction k as [|c k IH]; intros [|c' k'] N2 E2; cbn in E2.
    + split; [done|]. by injection E2.
    + injection E2 as <- E2. destruct N2. by left.
    + injection E2 as -> E2. destruct N1. by left.
    + injection E2 as <- E2. apply not_elem_of_cons in N1 as [? N1], N2 as [? N2]. destruct (IH N1 k' N2 E2) as [-> ->]. done.
  - rewrite !app_nil_r in *. rewrite V1, V2 by done. split; congruence.
Qed.

Lemma add_args_spec args : ∀ m, Forall fits args → ∃ m', add_args args m = Ok m' ∧
  (∀ k v, m !! k = Some v → m' !! k = Some v) ∧
  (∀ k v, m !! k = None → m' !! k = Some v ↔ first_value k args v).
Proof.
  induction args as [|a args IH]; intros m HF.
  - exists m. split; [done|]. split; [done|]. intros k v Hm. rewrite Hm. split; [done|]. inversion 1.
  - apply Forall_cons in HF as [Ha HF]. destruct (add_arg_gives a m Ha) as (k0 & v0 & Hg & E).
    destruct (IH (um_insert k0 v0 m) HF) as (m' & E' & H1 & H2). exists m'. cbn. rewrite E. cbn. split; [done|].
    unfold um_insert in *. split.
    + intros k v Hm. apply H1. destruct (m !! k0) eqn:E0; [done|]. rewrite lookup_insert_ne; [done|congruence].
    + intros k v Hm. destruct (decide (k = k0)) as [->|Hk].
      * assert (Hv : m' !! k0 = Some v0). { apply H1. rewrite Hm. apply lookup_insert. }
        rewrite Hv. split.
        -- intros [= <-]. by constructor.
        -- inversion 1 as [a' l' v' Hg'|a' l' v' Hn Hl]; subst; [|by destruct (Hn v0)]. by destruct (gives_unique _ _ _ _ _ Hg Hg') as [_ ->].
      * rewrite (H2 k v); [|destruct (m !! k0); [done|by rewrite lookup_insert_ne]]. split.
        -- intros Hl. apply fv_later; [|done]. intros v' Hg'. by destruct (gives_unique _ _ _ _ _ Hg Hg').
        -- inversion 1 as [a' l' v' Hg'|a' l' v' Hn Hl]; subst; [|done]. by destruct (gives_unique _ _ _ _ _ Hg Hg').
Qed.

(** Options are found exactly if given, with the value given first. *)
Theorem options_as_given : ∀ F (args : list bytes), Forall fits args → ∃ a : argc_deal F, argc_new args = Ok a ∧
  ∀ k, (∀ v, first_value k args v → get_option a k = true ∧ get_var a k = v) ∧
       ((∀ arg v, arg ∈ args → ¬ gives k arg v) → get_option a k = false ∧ get_var a k = []).
Proof.
  intros F args HF. destruct (add_args_spec args ∅ HF) as (m & E & _ & H). unfold argc_new. rewrite E. cbn.
  eexists. split; [done|]. intros k. unfold get_option, get_var. cbn. specialize (H k). split.
  - intros v Hv. rewrite (proj2 (H v (lookup_empty _)) Hv). done.
  - intros Hn. destruct (m !! k) as [v|] eqn:Ek; [|done]. exfalso.
    pose proof (proj1 (H v (lookup_empty _)) eq_refl) as Hf. clear -Hn Hf. induction Hf as [a l v Hg|a l v _ Hf IH].
    + apply (Hn a v); [by left|done].
    + apply IH. intros arg v' Hin. apply Hn. by right.
Qed.
(** Every argument gives some option its value, so nothing is lost. *)
Theorem every_argument_counts : ∀ arg, exists! kv : bytes * bytes, gives kv.1 arg kv.2.
Proof.
  intros arg. assert (H : ∃ k v, gives k arg v).
  { destruct (skip_dashes_spec arg) as (n & E & H). destruct (decide ("="%char ∈ skip_dashes arg)) as [Hin|Hin].
    - destruct (split_at_char _ _ Hin) as (a & b & Es & Ha). rewrite Es in H, E. exists a, b. rewrite E.
      apply (gives_value a n b); [done|]. by destruct a.
    - exists (skip_dashes arg), []. rewrite E at 2. by apply gives_flag. }
  destruct H as (k & v & H). exists (k, v). split; [done|]. intros [k' v'] H'. by destruct (gives_unique _ _ _ _ _ H H') as [-> ->].
Qed.

Example options_ex : ∃ a : argc_deal unit, argc_new [B "--config=a=b"; B "-stop"; B "config=c"; B "--"] = Ok a ∧
  get_option a (B "stop") = true ∧ get_var a (B "config") = B "a=b" ∧ get_option a (B "reload") = false.
Proof.
  set (args := [_; _; _; _]).
  assert (HF : Forall fits args). { repeat constructor; by vm_compute. }
  destruct (options_as_given unit args HF) as (a & E & H). exists a. split; [done|].
  assert (H1 : ∀ v', ¬ gives (B "stop") (B "--config=a=b") v').
  { intros v' Hg. assert (gives (B "config") (B "--config=a=b") (B "a=b")) as Hc.
    { apply (gives_value (B "config") 2 (B "a=b")); [|done]. by apply (bool_decide_unpack _); vm_compute. }
    by destruct (gives_unique _ _ _ _ _ Hg Hc). }
  split; [apply (proj1 (H (B "stop")) [])|split; [apply (proj1 (H (B "config")) (B "a=b"))|]].
  - apply fv_later; [done|]. apply fv_here. apply (gives_flag (B "stop") 1); [by apply (bool_decide_unpack _); vm_compute|done].
  - apply fv_here. apply (gives_value (B "config") 2 (B "a=b")); [by apply (bool_decide_unpack _); vm_compute|done].
  - apply (proj2 (H (B "reload"))). intros arg v Hin Hg. vm_compute in E. injection E as <-.
    assert (Hs : ∀ k arg v, gives k arg v → k `prefix_of` skip_dashes arg).
    { clear. intros k arg v []; rewrite skip_dashes_app; [exists []; by rewrite app_nil_r|done|by eexists|by destruct k]. }
    apply Hs in Hg. unfold args in Hin. repeat (apply elem_of_cons in Hin as [->|Hin]; [destruct Hg as [z Hz]; by vm_compute in Hz|]). by apply elem_of_nil in Hin.
Qed.

(** ** C139 *)

(** The declaration [x] makes [name] obligatory. *)
Definition obliges {F} (x : ad_call F) (name : bytes) : Prop :=
  match x with ADOption n _ m | ADVar n _ m => n = name ∧ m = true | ADPfunc _ => False end.

(** The program runs only if every obligatory option is given. *)
Definition must_is_must_full : Prop := ∀ F (args : list bytes) (l : list (ad_call F)) (a : argc_deal F) f x name,
  Forall fits args → argc_new args = Ok a → ad_Run (ad_doall l a) = RunProgram f →
  x ∈ l → obliges x name → ∃ arg v, arg ∈ args ∧ gives name arg v.

Lemma doall_app {F} l1 l2 (a : argc_deal F) : ad_doall (l1 ++ l2) a = ad_doall l2 (ad_doall l1 a).
Proof. revert a. induction l1 as [|x l1 IH]; intros a; [done|]. apply IH. Qed.
Lemma doall_all {F} l (a : argc_deal F) : ad_all (ad_doall l a) = ad_all a.
Proof. revert a. induction l as [|x l IH]; intros a; [done|]. cbn. rewrite IH. by destruct x. Qed.
Lemma doall_none {F} l (a : argc_deal F) : (∀ f, ADPfunc f ∉ l) → ad_pfunc a = None → ad_pfunc (ad_doall l a) = None.
Proof.
  revert a. induction l as [|x l IH]; intros a Hl Ha; [done|]. cbn. apply IH.
  - intros f Hf. apply (Hl f). by right.
  - destruct x as [f|n u m|n u m]; [destruct (Hl f); by left|..]; cbn; rewrite Ha; by destruct (_ && _).
Qed.

(** Missing: applications that set the program after declaring the options. *)
Theorem must_is_must_partial : ∀ F (args : list bytes) (l1 l2 : list (ad_call F)) (a : argc_deal F) f x name,
  Forall fits args → argc_new args = Ok a → ad_Run (ad_doall (l1 ++ l2) a) = RunProgram f →
  (∀ x name, x ∈ l1 → ¬ obliges x name) → (∀ f, ADPfunc f ∉ l2) →
  x ∈ l1 ++ l2 → obliges x name → ∃ arg v, arg ∈ args ∧ gives name arg v.
Proof.
  intros F args l1 l2 a f x name HF E HR Hl1 Hl2 Hx Ho.
  apply elem_of_app in Hx as [Hx|Hx]; [by destruct (Hl1 _ _ Hx Ho)|].
  destruct (get_option a name) eqn:Eg.
  - unfold argc_new in E. destruct (add_args_spec args ∅ HF) as (m & Em & _ & H). rewrite Em in E. cbn in E. injection E as <-.
    unfold get_option in Eg. apply bool_decide_eq_true in Eg as [v Hv]. cbn in Hv. apply (H name v (lookup_empty _)) in Hv.
    clear -Hv. induction Hv as [a l v Hg|a l v _ Hf (arg & v' & Hin & Hg)]; [exists a, v|exists arg, v']; (split; [by constructor|done]).
  - exfalso. apply elem_of_list_split in Hx as (l3 & l4 & ->). unfold ad_Run in HR.
    rewrite (app_assoc l1), doall_app in HR. cbn [ad_doall] in HR. rewrite doall_none in HR; [done| |].
    + intros g Hg. apply (Hl2 g). apply elem_of_app. right. by right.
    + destruct x as [g|n u m|n u m]; [done|..]; destruct Ho as [-> ->]; cbn; unfold get_option; rewrite doall_all;
        change (bool_decide (is_Some (ad_all a !! name))) with (get_option a name); by rewrite Eg.
Qed.
Theorem must_is_must_refuted : ¬ must_is_must_full.
Proof.
  intros H. destruct (H unit [] [ADOption (B "stop") [] true; ADPfunc tt] (ArgcDeal ∅ ∅ None) tt (ADOption (B "stop") [] true) (B "stop"))
    as (arg & v & Hin & _); try done.
  - by left.
  - by apply elem_of_nil in Hin.
Qed.
(** And nothing else keeps it from running, except for the help and version options. *)
Theorem complete_call_runs : ∀ F (args : list bytes) (l1 l2 : list (ad_call F)) (a : argc_deal F) f,
  argc_new args = Ok a → (∀ f, ADPfunc f ∉ l2) →
  (∀ x name, x ∈ l2 → obliges x name → get_option a name = true) →
  ad_Run (ad_doall (l1 ++ ADPfunc f :: l2) a) =
    (if get_option a (B "h") || get_option a (B "help") then RunMessage
     else if get_option a (B "v") || get_option a (B "version") then RunVersion else RunProgram f).
Proof.
  intros F args l1 l2 a f E Hl2 Hm. rewrite doall_app. cbn [ad_doall].
  assert (HA : ad_all (ad_do (ADPfunc f) (ad_doall l1 a)) = ad_all a) by apply doall_all.
  assert (HP : ad_pfunc (ad_do (ADPfunc f) (ad_doall l1 a)) = Some f) by done.
  revert HA HP. generalize (ad_do (ADPfunc f) (ad_doall l1 a)) as b. intros b HA HP.
  assert (HP' : ad_pfunc (ad_doall l2 b) = Some f).
  { revert b HA HP. induction l2 as [|x l2 IH]; intros b HA HP; [done|]. cbn. apply IH.
    - intros g Hg. apply (Hl2 g). by right.
    - intros y name Hy. apply Hm. by right.
    - by destruct x.
    - destruct x as [g|n u m|n u m]; [destruct (Hl2 g); by left|..]; cbn;
        destruct m; cbn; try done; unfold get_option; rewrite HA;
        change (bool_decide (is_Some (ad_all a !! n))) with (get_option a n);
        (erewrite (Hm _ n); [|by left|done]); done. }
  unfold ad_Run. rewrite HP'. unfold get_option. by rewrite !doall_all, HA.
Qed.

(** The web server: main.cpp:183-196. *)
Definition web_calls : list (ad_call unit) :=
  [ADPfunc tt; ADOption (B "reload") (B "restart the server") false;
   ADOption (B "stop") (B "stop the server") false; ADVar (B "config") (B "choose config file") false].
Example must_ex : ∃ arg v, arg ∈ [B "-config=x"] ∧ gives (B "config") arg v.
Proof.
  eapply (must_is_must_partial unit [B "-config=x"] [ADPfunc tt] [ADVar (B "config") (B "file") true] _ tt (ADVar (B "config") (B "file") true)).
  - by repeat constructor.
  - by vm_compute.
  - by vm_compute.
  - intros x name Hx. apply elem_of_list_singleton in Hx as ->. by intros [].
  - intros f Hf. by apply elem_of_list_singleton in Hf.
  - right. by left.
  - done.
Qed.
Example web_main_runs : ∃ a : argc_deal unit, argc_new [B "--config=x.json"] = Ok a ∧ ad_Run (ad_doall web_calls a) = RunProgram tt.
Proof.
  eexists. split; [by vm_compute|]. eapply (complete_call_runs unit [B "--config=x.json"] []).
  - by vm_compute.
  - intros f Hf. repeat (apply elem_of_cons in Hf as [?|Hf]; [done|]). by apply elem_of_nil in Hf.
  - intros x name Hx Ho. repeat (apply elem_of_cons in Hx as [->|Hx]; [by destruct Ho|]). by apply elem_of_nil in Hx.
Qed.

Print Assumptions options_as_given.
Print Assumptions every_argument_counts.
Print Assumptions must_is_must_partial.
Print Assumptions must_is_must_refuted.
Print Assumptions complete_call_runs.
