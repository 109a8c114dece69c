(** C236: what the message about an application's options (demo/util/argc_deal.cpp:48-62)
    lists. *)
From Verif.Model Require Import ArgcPrint Socket.
From Verif.Props Require Import ArgcProps.

(** ** Specification *)

(** Declarations of options: under which name they are listed, and with what text. *)
Definition label_of {F} (x : ad_call F) : option bytes :=
  match x with ADPfunc _ => None | ADOption n _ _ => Some n | ADVar n _ _ => Some (n ++ B "=(variable)") end.
Definition text_of {F} (x : ad_call F) : bytes :=
  match x with ADPfunc _ => [] | ADOption _ u m | ADVar _ u m => u ++ (if m then B ",must" else B ",no must") end.
Definition declares {F} (x : ad_call F) : Prop := is_Some (label_of x).
#[global] Instance declares_dec {F} (x : ad_call F) : Decision (declares x) := _.

(** [t] is [s] filled up with spaces to 32 characters. *)
Definition padded (s t : bytes) : Prop := ∃ sp, t = s ++ sp ∧ Forall (λ c, c = " "%char) sp ∧ length t = Nat.max 32 (length s).
(** The line for an option. *)
Definition is_line (label text ln : bytes) : Prop :=
  ∃ a b, padded label a ∧ padded text b ∧ ln = B "	--" ++ a ++ B " " ++ b ++ [LF].
Definition lists {F} (x : ad_call F) (ln : bytes) : Prop := ∃ n, label_of x = Some n ∧ is_line n (text_of x) ln.

Definition no_nul (s : bytes) : Prop := "000"%char ∉ s.
Definition clean {F} (x : ad_call F) : Prop := no_nul (text_of x) ∧ ∀ n, label_of x = Some n → no_nul n.

(** The message: a heading, a line for each of the declarations, two more lines. *)
Definition lists_all {F} (l : list (ad_call F)) (name version : bytes) (usage : list bytes) (out : bytes) : Prop :=
  ∃ ds lns h v, ds ≡ₚ filter declares l ∧ Forall2 lists ds lns ∧
    is_line (B "help,-h") (B "get help of app,no must") h ∧ is_line (B "version,-v") (B "get version of app,no must") v ∧
    out = B "app name:" ++ [LF] ++ B "	" ++ name ++ B "  " ++ version ++ [LF] ++ B "usage:" ++ [LF] ++
      concat (map (λ u, B "	" ++ u ++ [LF]) usage) ++ B "options:" ++ [LF] ++ concat lns ++ h ++ v.

(** Every declaration is listed, once. *)
Definition usage_full : Prop := ∀ F args (l : list (ad_call F)) a name version usage out,
  argc_new args = Ok a → Forall clean l → no_nul name → no_nul version → Forall no_nul usage →
  prints name version usage (ad_doall l a) out → lists_all l name version usage out.

(** ** Proofs *)
Lemma cstr_clean s : no_nul s → cstr s = s.
Proof.
  induction s as [|c s IH]; intros H; [done|]. apply not_elem_of_cons in H as [Hc Hs]. cbn [cstr].
  destruct (Ascii.eqb_spec c NUL) as [->|_]; [by destruct Hc|]. by rewrite IH.
Qed.
Lemma fmt_padded s : no_nul s → padded s (fmt_32 s).
Proof.
  intros H. unfold fmt_32. rewrite cstr_clean by done. exists (repeat SP (32 - length s)). split; [done|]. split.
  - apply Forall_forall. intros c Hc. apply elem_of_list_In, repeat_spec in Hc. done.
  - rewrite app_length, repeat_length. lia.
Qed.
Lemma line_is k v : no_nul k → no_nul v → is_line k v (option_line k v).
Proof. intros Hk Hv. exists (fmt_32 k), (fmt_32 v). split; [by apply fmt_padded|]. split; [by apply fmt_padded|]. done. Qed.

Definition entry {F} (x : ad_call F) : bytes * bytes := (default [] (label_of x), text_of x).
Lemma message_perm {F} (l : list (ad_call F)) a :
  NoDup (omap label_of l) → (∀ x n, x ∈ l → label_of x = Some n → ad_message a !! n = None) →
  map_to_list (ad_message (ad_doall l a)) ≡ₚ map entry (filter declares l) ++ map_to_list (ad_message a).
Proof.
  revert a. induction l as [|x l IH]; intros a Hnd Hf; [done|]. cbn [ad_doall].
  assert (Hx : (∃ f, x = ADPfunc f) ∨ ∃ n, label_of x = Some n ∧ ad_message (ad_do x a) = um_insert n (text_of x) (ad_message a)).
  { destruct x as [f|n u m|n u m]; [left; by exists f|right..]; by eexists. }
  destruct Hx as [[f ->]|(n & En & Em)].
  - rewrite filter_cons_False by by intros [? ?]. apply (IH (ad_do (ADPfunc f) a)); [done|]. intros y n Hy. apply Hf. by right.
  - rewrite filter_cons_True by by exists n. cbn [omap list_omap] in Hnd. rewrite En in Hnd. apply NoDup_cons in Hnd as [Hn Hnd].
    assert (Hfn : ad_message a !! n = None) by (apply (Hf x); [by left|done]).
    unfold um_insert in Em. rewrite Hfn in Em. rewrite IH; [|done|].
    + rewrite Em, map_to_list_insert by done. cbn [map app]. unfold entry at 2. rewrite En. cbn [default]. by rewrite Permutation_middle.
    + intros y k Hy Ek. rewrite Em. rewrite lookup_insert_ne; [apply (Hf y); [by right|done]|]. intros ->. apply Hn.
      apply elem_of_list_omap. by exists y.
Qed.

(** Missing: options declared more than once. *)
Theorem usage_partial : ∀ F args (l : list (ad_call F)) a name version usage out,
  NoDup (omap label_of l) →
  argc_new args = Ok a → Forall clean l → no_nul name → no_nul version → Forall no_nul usage →
  prints name version usage (ad_doall l a) out → lists_all l name version usage out.
Proof.
  intros F args l a name version usage out Hnd Ha HC Hn Hv Hu (es & He & ->).
  assert (E : ad_message a = ∅).
  { unfold argc_new in Ha. destruct (add_args args ∅); try done. cbn in Ha. by injection Ha as <-. }
  rewrite message_perm in He; [|done|by rewrite E]. rewrite E, map_to_list_empty, app_nil_r in He.
  apply Permutation_map_inv in He as (ds & -> & Hds). 
  exists ds, (map (λ e, option_line e.1 e.2) (map entry ds)), (option_line (B "help,-h") (B "get help of app,no must")),
    (option_line (B "version,-v") (B "get version of app,no must")).
  split; [by symmetry|]. split.
  { assert (HD : Forall (λ x, declares x ∧ clean x) ds).
    { apply Forall_forall. intros x Hx. rewrite <- Hds in Hx. apply elem_of_list_filter in Hx as [Hx1 Hx2]. split; [done|].
      by apply (proj1 (Forall_forall _ _) HC). }
    clear -HD. induction HD as [|x ds [[n En] [Ht Hl]] HD IH]; cbn [map]; constructor; [|done].
    exists n. split; [done|]. unfold entry. rewrite En. cbn [fst snd default]. apply line_is; [by apply Hl|done]. }
  split; [apply line_is; by_compute|]. split; [apply line_is; by_compute|].
  unfold msg_print. rewrite (cstr_clean name), (cstr_clean version) by done.
  assert (map usage_line usage = map (λ u, B "	" ++ u ++ [LF]) usage) as ->; [|done].
  induction Hu as [|u us Hu HF IH]; [done|]. cbn [map]. rewrite IH. unfold usage_line. by rewrite cstr_clean.
Qed.

(** The message lists for every name the declaration that was first. *)
Theorem usage_first : ∀ F args (l1 l2 : list (ad_call F)) x n a,
  argc_new args = Ok a → label_of x = Some n → (∀ y, y ∈ l1 → label_of y ≠ Some n) →
  ad_message (ad_doall (l1 ++ x :: l2) a) !! n = Some (text_of x).
Proof.
  intros F args l1 l2 x n a Ha Hx Hl.
  assert (E : ad_message a !! n = None).
  { unfold argc_new in Ha. destruct (add_args args ∅); try done. cbn in Ha. by injection Ha as <-. }
  clear Ha. assert (Hstep : ∀ y (b : argc_deal F), label_of y ≠ Some n → ad_message (ad_do y b) !! n = ad_message b !! n).
  { intros y b Hy. destruct y as [f|k u m|k u m]; cbn; [done|..]; unfold um_insert; (case_match; [done|]);
      apply lookup_insert_ne; cbn in Hy; congruence. }
  assert (Hkeep : ∀ y (b : argc_deal F) v, ad_message b !! n = Some v → ad_message (ad_do y b) !! n = Some v).
  { intros y b v Hb. destruct y as [f|k u m|k u m]; cbn; [done|..]; unfold um_insert;
      (case_match eqn:Ek; [done|]); (rewrite lookup_insert_ne; [done|congruence]). }
  revert a E. induction l1 as [|y l1 IH]; intros a E; cbn [app ad_doall].
  - assert (E1 : ad_message (ad_do x a) !! n = Some (text_of x)).
    { destruct x as [f|k u m|k u m]; [done|..]; injection Hx as <-; cbn; unfold um_insert; rewrite E; apply lookup_insert. }
    revert E1. generalize (ad_do x a). clear -Hkeep. induction l2 as [|y l2 IH]; intros b E1; [done|]. cbn [ad_doall]. apply IH. by apply Hkeep.
  - apply IH; [intros z Hz; apply Hl; by right|]. rewrite Hstep; [done|]. apply Hl. by left.
Qed.

(** An option that is declared twice is listed once, so the usage of the second is not shown. *)
Definition twice : list (ad_call unit) := [ADOption (B "a") (B "x") false; ADOption (B "a") (B "y") false].
Theorem usage_refuted : ¬ usage_full.
Proof.
  intros H.
  destruct (H unit [] twice (ArgcDeal ∅ ∅ None) [] [] []
    (msg_print [] [] [] [(B "a", B "x,no must")]) eq_refl) as (ds & lns & h & v & Hds & HF & (h1 & h2 & H1 & H2 & Eh) & (v1 & v2 & V1 & V2 & Ev) & E).
  - repeat (constructor; [split; [by_compute|intros n En; injection En as <-; by_compute]|]). constructor.
  - by_compute.
  - by_compute.
  - constructor.
  - exists [(B "a", B "x,no must")]. split; [|done]. vm_compute. done.
  - apply (f_equal length) in E.
    assert (Hlen : ∀ n t ln, is_line n t ln → length ln = (5 + Nat.max 32 (length n) + Nat.max 32 (length t))%nat).
    { intros n t ln (p & q & (_ & _ & _ & Hp) & (_ & _ & _ & Hq) & ->). rewrite !app_length, Hp, Hq. change (length (B "	--")) with 3%nat.
      change (length (B " ")) with 1%nat. change (length [LF]) with 1%nat. lia. }
    assert (Hl2 : length (concat lns) = (69 * length ds)%nat).
    { assert (HD : Forall (λ x, x ∈ twice) ds).
      { apply Forall_forall. intros x Hx. rewrite Hds in Hx. by apply elem_of_list_filter in Hx as [_ ?]. }
      clear -HF HD Hlen. induction HF as [|x ln ds lns (n & En & Hln) HF IH]; [done|]. apply Forall_cons in HD as [Hx HD].
      cbn [concat length]. rewrite app_length, (Hlen _ _ _ Hln), IH by done.
      assert (length n = 1%nat ∧ (length (text_of x) ≤ 32)%nat) as [-> Ht]; [|lia].
      repeat (apply elem_of_cons in Hx as [->|Hx]; [injection En as <-; split; [done|cbn; lia]|]). by apply elem_of_nil in Hx. }
    apply Permutation_length in Hds. change (length (filter declares twice)) with 2%nat in Hds. rewrite Hds in Hl2.
    assert (Hh : length h = 69%nat) by (rewrite (Hlen (B "help,-h") (B "get help of app,no must")); [done|by exists h1, h2]).
    assert (Hv : length v = 69%nat) by (rewrite (Hlen (B "version,-v") (B "get version of app,no must")); [done|by exists v1, v2]).
    rewrite !app_length, Hl2, Hh, Hv in E. vm_compute in E. clear -E. discriminate E.
Qed.

(** demo/main.cpp:183-196 *)
Example usage_ex : ∃ a, argc_new [] = Ok a ∧
  ad_message (ad_doall web_calls a) !! B "config=(variable)" = Some (B "choose config file,no must") ∧
  lists_all web_calls (B "web") (B "1") [] (msg_print (B "web") (B "1") [] (map_to_list (ad_message (ad_doall web_calls a)))).
Proof.
  eexists. split; [done|]. split.
  - apply (usage_first unit [] [ADPfunc tt; ADOption (B "reload") (B "restart the server") false; ADOption (B "stop") (B "stop the server") false] []
      (ADVar (B "config") (B "choose config file") false)); [done|done|].
    intros y Hy. repeat (apply elem_of_cons in Hy as [->|Hy]; [done|]). by apply elem_of_nil in Hy.
  - eapply (usage_partial unit []).
    + by_compute.
    + done.
    + repeat (constructor; [split; [by_compute|intros n En; first [done|injection En as <-; by_compute]]|]). constructor.
    + by_compute.
    + by_compute.
    + constructor.
    + by eexists.
Qed.

Print Assumptions usage_partial.
Print Assumptions usage_first.
Print Assumptions usage_refuted.
