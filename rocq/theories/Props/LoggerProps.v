(** C59-C63, C90, C91: the loggers. *)
From Verif.Proof Require Import LoggerProof.

(** For the examples: the run, if nothing else touches the files and the device
    has room. *)
Fixpoint calm_run (s : flog) (ls : list flabel) : option flog :=
  match ls with
  | [] => Some s
  | a :: ls' =>
      if (match a with
          | AEnv _ => false
          | AAppend room => forallb (λ b, length (b_data b) <=? room) (f_bufs s)
          | _ => true
          end)
      then match fstep s a with Some s' => calm_run s' ls' | None => None end
      else None
  end.
Lemma calm_run_calm s ls s' : calm_run s ls = Some s' → calm s ls s'.
Proof.
  revert s. induction ls as [|a ls IH]; intros s H; cbn [calm_run] in H; [injection H as <-; constructor|].
  destruct (match a with AAppend _ => _ | _ => _ end) eqn:E; [|done].
  destruct (fstep s a) as [s1|] eqn:E1; [|done]. econstructor; [done| |by apply IH].
  destruct a; try done. intros id b Hw Hb. apply forallb_forall with (x := b) in E; [by apply Nat.leb_le|].
  apply elem_of_list_In. by eapply elem_of_list_lookup_2.
Qed.

Definition LOG : bytes := B "x.log".
Definition a_fs (o : fobj) : fs := fs_set (λ _, Absent true) LOG o.
Definition booted (num size : Z) (o : fobj) : flog :=
  match flog_init Some 0 LOG (flog_new kInfo num size 3 (a_fs o)) with Ok r => r.2 | _ => flog_new kInfo 0 0 0 (λ _, StatFail) end.
Definition say (l : level) (m : bytes) : flabel := ALog l (B "T") m 0.
Definition flush : list flabel := [APop; AAppend 1000; AClear; AUnflag; ATouch 0].

(** * C59: no line is lost or doubled *)
Definition no_line_lost_full : Prop := ∀ mk now p s0 s1 ls s2 lines room now' w d0,
  fresh s0 → flog_init mk now p s0 = Ok (kSuccess, s1) → f_pool s1 = PRun → file_data (f_fs s1) p w d0 →
  calm s1 ls s2 → logs (f_level s0) ls lines →
  f_work s2 = FIdle → (∃ d, file_data (f_fs s2) p true d) → enough room s2 →
  ∃ out, file_data (f_fs (flog_stop room now' s2)) p true (d0 ++ concat out) ∧ out ≡ₚ lines.

(** set_buf_num(0): there is one buffer, but Stop goes over none. *)
Theorem no_line_lost_refuted : ¬ no_line_lost_full.
Proof.
  intros H.
  destruct (H Some 0%Z LOG (flog_new kInfo 0 100 3 (a_fs (Absent true))) (booted 0 100 (Absent true))
     [say kInfo (B "hi")] (flog_log kInfo (B "T") (B "hi") 0 (booted 0 100 (Absent true))) [log_line kInfo (B "T") (B "hi")]
     100 0%Z true [])
    as (out & (r & o & Ho) & Hp).
  - by repeat eexists.
  - done.
  - done.
  - by repeat eexists.
  - by apply calm_run_calm.
  - constructor; [done|apply line_text_log_line|constructor].
  - done.
  - by repeat eexists.
  - intros [|[|id]] b Hb; [|done..]. injection Hb as <-. vm_compute. lia.
  - apply Permutation_singleton_r in Hp as ->. vm_compute in Ho. done.
Qed.
Print Assumptions no_line_lost_refuted.

(** With at least one buffer: whatever the flush thread does and when, however
    often the file was not writable in between. *)
Theorem no_line_lost_partial mk now p s0 s1 ls s2 lines room now' w d0 :
  (1 ≤ f_num s0)%Z →
  fresh s0 → flog_init mk now p s0 = Ok (kSuccess, s1) → f_pool s1 = PRun → file_data (f_fs s1) p w d0 →
  calm s1 ls s2 → logs (f_level s0) ls lines →
  f_work s2 = FIdle → (∃ d, file_data (f_fs s2) p true d) → enough room s2 →
  ∃ out, file_data (f_fs (flog_stop room now' s2)) p true (d0 ++ concat out) ∧ out ≡ₚ lines.
Proof.
  intros Hn Hf Hi Hp Hd HC HL Hw Hdw Hroom.
  destruct (start True _ _ _ _ _ w d0 Hf (λ _, Hn) Hi Hp (λ _, Hd)) as (I & El & Ep).
  rewrite <- El in HL. pose proof (finv_calm _ _ _ _ _ _ _ HC I HL) as I2.
  destruct (calm_level _ _ _ HC) as [_ Ep2]. rewrite Ep in Ep2. rewrite <- Ep2 in *. by apply stop_all.
Qed.
Print Assumptions no_line_lost_partial.

(** Two buffers of 10 bytes on a file that already holds "old": the first is full and
    queued, the second too, the flush thread has written the first; two more buffers
    were created; a debug line is below the level. *)
Example no_line_lost_ex : ∃ s2,
  let s1 := booted 2 10 (Reg true true true (B "old;")) in
  let ls := [say kWarn (B "one hundred"); say kDebug (B "no"); say kError (B "two hundred"); APop; AAppend 1000;
             say kFatal (B "three hundred"); say kInfo (B "4"); AClear; AUnflag; ATouch 0] in
  calm s1 ls s2 ∧ f_num s2 = 4%Z ∧ f_work s2 = FIdle ∧ enough 1000 s2 ∧
  f_fs (flog_stop 1000 0 s2) LOG = Reg true true true (B "old;[WARN]T|one hundred
[ERROR]T|two hundred
[FATAL]T|three hundred
[INFO]T|4
").
Proof.
  destruct (calm_run (booted 2 10 (Reg true true true (B "old;"))) [say kWarn (B "one hundred"); say kDebug (B "no"); say kError (B "two hundred"); APop; AAppend 1000;
             say kFatal (B "three hundred"); say kInfo (B "4"); AClear; AUnflag; ATouch 0]) as [s2|] eqn:E; [|by vm_compute in E].
  exists s2. split; [by apply calm_run_calm|]. vm_compute in E. injection E as <-. split_and!; try done.
  intros [|[|[|[|id]]]] b Hb; try done; injection Hb as <-; vm_compute; lia.
Qed.

(** * C60: the lines are in order *)
Definition in_order_full : Prop := ∀ mk now p s0 s1 ls s2 lines room now' d0,
  fresh s0 → (1 ≤ f_num s0)%Z → flog_init mk now p s0 = Ok (kSuccess, s1) → f_pool s1 = PRun →
  file_data (f_fs s1) p true d0 → calm s1 ls s2 → no_env ls → logs (f_level s0) ls lines →
  f_work s2 = FIdle → enough room s2 →
  file_data (f_fs (flog_stop room now' s2)) p true (d0 ++ concat lines).

(** Two buffers: the first was flushed and is in use again when the second is still
    in the queue; Stop writes the buffers in the order of the list. *)
Definition overtaking : list flabel := say kWarn (B "one hundred") :: flush ++ [say kWarn (B "two hundred"); say kInfo (B "3")].
Theorem in_order_refuted : ¬ in_order_full.
Proof.
  intros H.
  destruct (calm_run (booted 2 10 (Absent true)) overtaking) as [s2|] eqn:E; [|by vm_compute in E].
  destruct (H Some 0%Z LOG (flog_new kInfo 2 10 3 (a_fs (Absent true))) (booted 2 10 (Absent true)) overtaking s2
     [log_line kWarn (B "T") (B "one hundred"); log_line kWarn (B "T") (B "two hundred"); log_line kInfo (B "T") (B "3")] 1000 0%Z [])
    as (r & o & Ho).
  - by repeat eexists.
  - done.
  - done.
  - done.
  - by repeat eexists.
  - by apply calm_run_calm.
  - repeat constructor.
  - constructor; [done|apply line_text_log_line|]. do 5 (apply logs_other; [done|]).
    constructor; [done|apply line_text_log_line|]. constructor; [done|apply line_text_log_line|constructor].
  - vm_compute in E. by injection E as <-.
  - vm_compute in E. injection E as <-. intros [|[|id]] b Hb; try done; injection Hb as <-; vm_compute; lia.
  - vm_compute in E. injection E as <-. by vm_compute in Ho.
Qed.
Print Assumptions in_order_refuted.

(** While the logger is running, the file is always a prefix of what was logged, in
    order; after Stop it is all of it in order if the queue was empty. *)
Theorem in_order_partial mk now p s0 s1 ls s2 lines d0 :
  fresh s0 → (1 ≤ f_num s0)%Z → flog_init mk now p s0 = Ok (kSuccess, s1) → f_pool s1 = PRun →
  file_data (f_fs s1) p true d0 → calm s1 ls s2 → no_env ls → logs (f_level s0) ls lines →
  (∃ d rest, file_data (f_fs s2) p true d ∧ d ++ rest = d0 ++ concat lines) ∧
  (∀ room now', f_work s2 = FIdle → f_queue s2 = [] → enough room s2 →
     file_data (f_fs (flog_stop room now' s2)) p true (d0 ++ concat lines)).
Proof.
  intros Hf Hn Hi Hp Hd HC HE HL.
  destruct (start True _ _ _ _ _ true d0 Hf (λ _, Hn) Hi Hp (λ _, Hd)) as (I & El & Ep).
  destruct (flog_init_shape _ _ _ _ _ Hf Hi Hp) as (Hq & Hw & Hz).
  rewrite <- El in HL. pose proof (finv_calm _ _ _ _ _ _ _ HC I HL) as I2.
  assert (oinv d0 [] s1) as O by (apply oinv_init; by rewrite ?Ep).
  pose proof (oinv_calm _ _ _ _ _ _ HC HE I O HL) as O2.
  destruct (calm_level _ _ _ HC) as [_ Ep2]. rewrite Ep in Ep2. rewrite <- Ep2 in *. split.
  - destruct (o_file _ _ _ O2) as (d & Hd2 & He). by eexists d, _.
  - intros room now' Hw2 Hq2 Hroom. by eapply stop_in_order.
Qed.
Print Assumptions in_order_partial.

(** Half-way: the first of two queued buffers is in the file; then the queue is run
    empty and the logger stopped. *)
Example in_order_ex :
  let ls := [say kWarn (B "one hundred"); say kWarn (B "two hundred"); APop; AAppend 1000] in
  (∃ s2, calm (booted 2 10 (Absent true)) ls s2 ∧ f_fs s2 LOG = Reg true true true (B "[WARN]T|one hundred
")) ∧
  (∃ s2, calm (booted 2 10 (Absent true)) (ls ++ [AClear; AUnflag; ATouch 0] ++ [say kInfo (B "3")] ++ flush) s2 ∧
     f_work s2 = FIdle ∧ f_queue s2 = [] ∧
     f_fs (flog_stop 1000 0 s2) LOG = Reg true true true (B "[WARN]T|one hundred
[WARN]T|two hundred
[INFO]T|3
")).
Proof.
  intros ls. split.
  - destruct (calm_run (booted 2 10 (Absent true)) ls) as [s2|] eqn:E; [|by vm_compute in E].
    exists s2. split; [by apply calm_run_calm|]. vm_compute in E. by injection E as <-.
  - destruct (calm_run (booted 2 10 (Absent true)) (ls ++ [AClear; AUnflag; ATouch 0] ++ [say kInfo (B "3")] ++ flush)) as [s2|] eqn:E; [|by vm_compute in E].
    exists s2. split; [by apply calm_run_calm|]. vm_compute in E. by injection E as <-.
Qed.

(** * C61: levels *)
Theorem std_levels lv l msg :
  (∃ k line, std_log lv l msg = Some (k, line)) ↔ wanted lv l = true.
Proof. destruct lv, l; simpl; naive_solver. Qed.
Print Assumptions std_levels.

(** The text, and errors go to std::cerr. *)
Theorem std_text lv l msg k line :
  std_log lv l msg = Some (k, line) →
  (∃ name, line = B "[" ++ name ++ B "]:" ++ msg ++ B "
" ∧ line_text l (B "t") msg (B "[" ++ name ++ B "]t|" ++ msg ++ B "
")) ∧ (k = Cerr ↔ 3 ≤ importance l).
Proof.
  intros H. unfold std_log in H. split.
  - exists (level_name l). split; [destruct l; repeat case_match; by simplify_eq|].
    exists (level_name l). split; [by destruct l|]. destruct l; simpl; rewrite !elem_of_cons; naive_solver.
  - destruct l; repeat case_match; simplify_eq; simpl; split; intros; try done; try lia.
Qed.
Print Assumptions std_text.
Example std_ex : std_log kWarn kError (B "boom") = Some (Cerr, B "[ERROR]:boom
") ∧ std_log kWarn kInfo (B "x") = None ∧ wanted kWarn kError = true ∧ wanted kWarn kInfo = false.
Proof. done. Qed.

(** FileLogger: a call below the level changes nothing; at or above, the line is
    added to exactly one buffer. *)
Theorem file_levels mk now p s0 s1 ls s2 l stamp msg t :
  fresh s0 → flog_init mk now p s0 = Ok (kSuccess, s1) → f_pool s1 = PRun → frun s1 ls = Some s2 →
  (wanted (f_level s2) l = false → flog_log l stamp msg t s2 = s2) ∧
  (wanted (f_level s2) l = true → ∃ id b b' line,
     line_text l stamp msg line ∧ f_bufs s2 !! id = Some b ∧
     f_bufs (flog_log l stamp msg t s2) !! id = Some b' ∧ b_data b' = b_data b ++ line ∧
     ∀ j bj, j ≠ id → f_bufs s2 !! j = Some bj →
       ∃ bj', f_bufs (flog_log l stamp msg t s2) !! j = Some bj' ∧ b_data bj' = b_data bj).
Proof.
  intros Hf Hi Hp Hr.
  destruct (start False _ _ _ _ _ true [] Hf ltac:(done) Hi Hp ltac:(done)) as (I & El & Ep).
  destruct (finv_frun _ _ _ _ _ I Hr) as [acc I2]. destruct (finv_cur _ _ _ _ I2) as (c & id & b & Hc & Hg & Hb & _).
  unfold flog_log. rewrite level_gt_wanted. split; [by intros ->|]. intros ->. cbn [negb]. rewrite Hc, Hg, Hb.
  assert (id < length (f_bufs s2)) as Hlt by by eapply lookup_lt_Some.
  set (s3 := set_bufs s2 _).
  destruct (check_flush_data s3 t id (Buffer (b_data b ++ log_line l stamp msg) (b_need b) (b_last b))) as (b' & Hb' & Hd');
    [by apply list_lookup_insert|].
  exists id, b, b', (log_line l stamp msg). split_and!; try done; [apply line_text_log_line|].
  intros j bj Hj Hbj. apply check_flush_data. unfold s3. cbn. by rewrite list_lookup_insert_ne.
Qed.
Print Assumptions file_levels.
Example file_levels_ex :
  let s1 := booted 2 10 (Absent true) in
  f_pool s1 = PRun ∧ f_level s1 = kInfo ∧ flog_log kDebug (B "T") (B "x") 0 s1 = s1 ∧
  map b_data (f_bufs (flog_log kInfo (B "T") (B "x") 0 s1)) = [B "[INFO]T|x
"; []].
Proof. done. Qed.

(** MultiLogger does not look at its own level. *)
Definition multi_levels_full : Prop := ∀ m l msg w i,
  i ∈ mu_loggers m → (multi_log m l msg w i = w i ↔ wanted (mu_level m) l = false).
Theorem multi_levels_refuted : ¬ multi_levels_full.
Proof.
  intros H. specialize (H (multi_set_level (multi_init multi_new [0]) kFatal) kDebug (B "x") (λ _, []) 0 ltac:(set_solver)).
  simpl in H. destruct H as [_ H]. by specialize (H eq_refl).
Qed.
Print Assumptions multi_levels_refuted.

(** * C62: what a successful Init promises *)
Definition init_promise_full : Prop := ∀ mk now p s0 s1 ls s2 lines room now',
  fresh s0 → (1 ≤ f_num s0)%Z → flog_init mk now p s0 = Ok (kSuccess, s1) →
  calm s1 ls s2 → no_env ls → logs (f_level s0) ls lines → f_work s2 = FIdle → enough room s2 →
  ∃ w d out, file_data (f_fs (flog_stop room now' s2)) p w (d ++ concat out) ∧ out ≡ₚ lines.

(** A file without the owner-write bit: CanWrite's false is returned as rc 0. *)
Theorem init_promise_refuted : ¬ init_promise_full.
Proof.
  intros H.
  destruct (H Some 0%Z LOG (flog_new kInfo 2 100 3 (a_fs (Reg true false false []))) (booted 2 100 (Reg true false false []))
     [say kInfo (B "hi")] (flog_log kInfo (B "T") (B "hi") 0 (booted 2 100 (Reg true false false []))) [log_line kInfo (B "T") (B "hi")]
     100 0%Z) as (w & d & out & (r & o & Ho) & Hp).
  - by repeat eexists.
  - done.
  - done.
  - by apply calm_run_calm.
  - repeat constructor.
  - constructor; [done|apply line_text_log_line|constructor].
  - done.
  - intros id b Hb. done.
  - apply Permutation_singleton_r in Hp as ->. vm_compute in Ho. injection Ho as _ _ _ Ho. by destruct d.
Qed.
Print Assumptions init_promise_refuted.

(** Even with the bit set: it is the owner's, who may be someone else. *)
Theorem init_promise_owner_refuted :
  ∃ s1 s2, flog_init Some 0 LOG (flog_new kInfo 2 100 3 (a_fs (Reg true false true []))) = Ok (kSuccess, s1) ∧
    calm s1 [say kInfo (B "hi")] s2 ∧ f_fs (flog_stop 100 0 s2) LOG = Reg true false true [].
Proof.
  exists (booted 2 100 (Reg true false true [])), (flog_log kInfo (B "T") (B "hi") 0 (booted 2 100 (Reg true false true []))).
  split_and!; [done|by apply calm_run_calm|done].
Qed.
Print Assumptions init_promise_owner_refuted.

(** It holds for a file that can really be written and has the owner-write bit, and
    every file that Init itself creates is one. *)
Theorem init_promise_partial mk now p s0 s1 ls s2 lines room now' :
  fresh s0 → (1 ≤ f_num s0)%Z → flog_init mk now p s0 = Ok (kSuccess, s1) →
  (file_exist (f_fs s0) p = Ok true → ∃ r d, f_fs s0 (cstr p) = Reg r true true d) →
  (file_exist (f_fs s0) p = Ok false → ∀ f1, mk (f_fs s0) = Some f1 → ∃ c, f1 (cstr p) = Absent c) →
  calm s1 ls s2 → no_env ls → logs (f_level s0) ls lines → f_work s2 = FIdle → enough room s2 →
  f_pool s1 = PRun ∧
  ∃ w d out, file_data (f_fs (flog_stop room now' s2)) p w (d ++ concat out) ∧ out ≡ₚ lines.
Proof.
  intros Hf Hn Hi Hex Hab HC HE HL Hw Hroom.
  assert (f_pool s1 = PRun ∧ ∃ d0, file_data (f_fs s1) p true d0) as [Hp [d0 Hd]].
  { destruct Hf as (lv & num & sz & iv & f & ->). cbn [f_fs flog_new] in *. unfold flog_init in Hi. cbn [f_fs flog_new] in Hi.
    unfold file_create in Hi. destruct (file_exist f p) as [ex| | | | |] eqn:Ee; try done. simpl in Hi. destruct ex.
    - destruct (Hex eq_refl) as (r & d & Hr). simpl in Hi. unfold file_can_write in Hi. rewrite Hr in Hi. simpl in Hi.
      injection Hi as <-. split; [done|]. by exists d, r, true.
    - destruct (mk f) as [f1|] eqn:Em; [|done]. destruct (Hab eq_refl f1 eq_refl) as [c Hc]. simpl in Hi.
      unfold open_out in Hi. rewrite Hc in Hi. destruct c; [|simpl in Hi; done].
      simpl in Hi. unfold file_can_write, fs_set in Hi. rewrite decide_True in Hi by done. simpl in Hi.
      injection Hi as <-. split; [done|]. exists [], true, true. cbn. by rewrite decide_True. }
  split; [done|]. destruct (start True _ _ _ _ _ true d0 Hf (λ _, Hn) Hi Hp (λ _, Hd)) as (I & El & Ep).
  destruct (flog_init_shape _ _ _ _ _ Hf Hi Hp) as (Hq & Hw0 & Hz).
  rewrite <- El in HL. pose proof (finv_calm _ _ _ _ _ _ _ HC I HL) as I2.
  assert (oinv d0 [] s1) as O by (apply oinv_init; by rewrite ?Ep).
  pose proof (oinv_calm _ _ _ _ _ _ HC HE I O HL) as O2.
  destruct (calm_level _ _ _ HC) as [_ Ep2]. rewrite Ep in Ep2. rewrite <- Ep2 in *.
  destruct (stop_all _ _ _ room now' I2 Hw) as (out & ? & ?); [|done|by eexists true, _, out].
  destruct (o_file _ _ _ O2) as (d & Hd2 & _). eauto.
Qed.
Print Assumptions init_promise_partial.
Example init_promise_ex : ∃ s2, calm (booted 2 10 (Absent true)) overtaking s2 ∧ f_work s2 = FIdle ∧
  f_fs (flog_stop 1000 0 s2) LOG = Reg true true true (B "[WARN]T|one hundred
[INFO]T|3
[WARN]T|two hundred
").
Proof.
  destruct (calm_run (booted 2 10 (Absent true)) overtaking) as [s2|] eqn:E; [|by vm_compute in E].
  exists s2. split; [by apply calm_run_calm|]. vm_compute in E. by injection E as <-.
Qed.

(** * C63: MultiLogger *)
Theorem multi_delivers ops w i : (foldl mstep (multi_new, w) ops).2 i = w i ++ received 0 i ops.
Proof. apply (multi_received ops multi_new). Qed.
Print Assumptions multi_delivers.
Example multi_ex :
  let ops := [MLog kInfo (B "lost"); MAdd [0; 1]; MLog kDebug (B "a"); MAdd [1]; MLevel kFatal; MLog kError (B "b")] in
  (foldl mstep (multi_new, λ _, []) ops).2 0 = [(kDebug, B "a"); (kError, B "b")] ∧
  received 0 1 ops = [(kDebug, B "a"); (kError, B "b"); (kError, B "b")].
Proof. done. Qed.

(** * C90: a FileLogger can be used again after Stop *)
Definition reuse_full : Prop := ∀ mk now p s0 s1 ls s2 room now' now2 s3 room' now3,
  fresh s0 → flog_init mk now p s0 = Ok (kSuccess, s1) → f_pool s1 = PRun → calm s1 ls s2 → f_work s2 = FIdle →
  flog_init mk now2 p (flog_stop room now' s2) = Ok (kSuccess, s3) →
  ∃ s4, flog_destroy room' now3 s3 = Ok s4.
Theorem reuse_refuted : ¬ reuse_full.
Proof.
  intros H.
  destruct (H Some 0%Z LOG (flog_new kInfo 2 10 3 (a_fs (Absent true))) (booted 2 10 (Absent true)) [] (booted 2 10 (Absent true))
    100 0%Z 0%Z (match flog_init Some 0 LOG (flog_stop 100 0 (booted 2 10 (Absent true))) with Ok r => r.2 | _ => booted 0 0 (Absent true) end) 100 0%Z) as [s4 Hs];
   [by repeat eexists|done|done|by constructor|done|done|]. by vm_compute in Hs.
Qed.
Print Assumptions reuse_refuted.

(** Used once, it can be destroyed, with or without a Stop of its own before. *)
Theorem destroy_once_partial mk now p s0 s1 ls s2 room now' :
  fresh s0 → flog_init mk now p s0 = Ok (kSuccess, s1) → frun s1 ls = Some s2 →
  (∃ s3, flog_destroy room now' s2 = Ok s3) ∧ (∃ s3, flog_destroy room now' (flog_stop room now' s2) = Ok s3).
Proof.
  intros Hf Hi Hr. assert (f_pool s2 = PNone ∨ f_pool s2 = PRun) as Hp.
  { assert (f_pool s1 = PNone ∨ f_pool s1 = PRun) as Hp1.
    { destruct Hf as (lv & num & sz & iv & f & ->). unfold flog_init in Hi.
      destruct (file_create mk _ p) as [[rc f1]| | | | |]; try done. simpl in Hi.
      destruct (rc =? kSuccess)%Z; cbn [negb] in Hi; [|injection Hi as ? <-; by left].
      destruct (file_can_write f1 p) as [wb| | | | |]; try done. destruct wb; cbn in Hi; injection Hi as <-; [by right|by left]. }
    clear Hf Hi. revert s1 Hr Hp1. induction ls as [|a ls IH]; intros s1 Hr Hp1; cbn in Hr; [by injection Hr as <-|].
    destruct (fstep s1 a) as [s1'|] eqn:E; [|done]. apply (IH s1' Hr). enough (f_pool s1' = f_pool s1) as -> by done. clear -E.
    destruct a; cbn in E; unfold flog_log, check_flush, upd_buf in E;
      repeat match type of E with context [match ?b with _ => _ end] => destruct b eqn:? end; simplify_eq; cbn; congruence. }
  assert (∀ s, f_pool (flog_stop room now' s) = match f_pool s with PRun => PStopped | st => st end) as Hst.
  { intros s. unfold flog_stop. by destruct (f_cur s). }
  unfold flog_destroy. rewrite !Hst. destruct Hp as [-> | ->]; split; by eexists.
Qed.
Print Assumptions destroy_once_partial.
Example destroy_once_ex : ∃ s3, frun (booted 2 10 (Absent true)) overtaking = Some s3 ∧ f_queue s3 = [1].
Proof. eexists. split; [by vm_compute|done]. Qed.

(** * C91: no data race between a log call and the flush thread *)
Definition no_race_full : Prop := ∀ mk now p s0 s1 ls s2 id m,
  fresh s0 → flog_init mk now p s0 = Ok (kSuccess, s1) → f_pool s1 = PRun → frun s1 ls = Some s2 →
  log_uses s2 id m → ¬ flush_uses s2 id m.
(** The flush thread has cleared [need_flush] of the first buffer and is about to
    store [last_flush_time]; the logging thread has moved on to that buffer. *)
Theorem no_race_refuted : ¬ no_race_full.
Proof.
  intros H.
  destruct (frun (booted 2 10 (Absent true)) [say kWarn (B "one hundred"); APop; AAppend 1000; AClear; AUnflag; say kWarn (B "two hundred")]) as [s2|] eqn:E; [|by vm_compute in E].
  apply (H Some 0%Z LOG (flog_new kInfo 2 10 3 (a_fs (Absent true))) (booted 2 10 (Absent true))
    [say kWarn (B "one hundred"); APop; AAppend 1000; AClear; AUnflag; say kWarn (B "two hundred")] s2 0 MLast).
  - by repeat eexists.
  - done.
  - done.
  - done.
  - vm_compute in E. injection E as <-. by exists 0.
  - vm_compute in E. by injection E as <-.
Qed.
Print Assumptions no_race_refuted.

(** The text of the buffers is never used by both. *)
Theorem no_race_partial mk now p s0 s1 ls s2 id :
  fresh s0 → flog_init mk now p s0 = Ok (kSuccess, s1) → f_pool s1 = PRun → frun s1 ls = Some s2 →
  log_uses s2 id MData → ¬ flush_uses s2 id MData.
Proof.
  intros Hf Hi Hp Hr (c & Hc & Hg) Hu.
  destruct (start False _ _ _ _ _ true [] Hf ltac:(done) Hi Hp ltac:(done)) as (I & El & Ep).
  destruct (finv_frun _ _ _ _ _ I Hr) as [acc I2]. destruct (finv_cur _ _ _ _ I2) as (c' & id' & b & Hc' & Hg' & Hb & Hn & Hq & _).
  simplify_eq. apply Hq. apply elem_of_app. right. unfold flush_uses in Hu.
  destruct (f_work s2); simpl in Hu; try done; subst; simpl; set_solver.
Qed.
Print Assumptions no_race_partial.
Example no_race_ex : ∃ s2,
  frun (booted 2 10 (Absent true)) [say kWarn (B "one hundred"); APop; AAppend 1000] = Some s2 ∧
  flush_uses s2 0 MData ∧ log_uses s2 1 MData.
Proof. eexists. split; [by vm_compute|]. split; [done|]. by exists 1. Qed.
