(** C64-C66: files (src/cppnet/utils/file.cpp). *)
From Verif.Proof Require Import FileProof.

(** Everything but the file [p] is as before. *)
Definition others_unchanged (f f' : fs) (p : bytes) : Prop :=
  forall q, cstr q <> cstr p -> f' (cstr q) = f (cstr q).
(** If there is a file [p], this process may read it. *)
Definition not_unreadable (f : fs) (p : bytes) : Prop :=
  forall w o d, f (cstr p) <> Reg false w o d.
(** What the file held before (nothing if it was absent). *)
Definition contents_before (f : fs) (p d : bytes) : Prop :=
  (exists r w o, f (cstr p) = Reg r w o d) \/ (exists b, f (cstr p) = Absent b /\ d = []).

(** ** C64 *)
Definition file_laws_full : Prop := forall room f p d f' old,
  file_write room f p d = (kSuccess, f') -> file_read f' p old = Ok (kSuccess, d).

(** Missing: a device that does not take all the bytes, files that may be
    written but not read. *)
Theorem write_read_partial : forall room f p d f' old,
  file_write room f p d = (kSuccess, f') -> length d <= room -> not_unreadable f p ->
  file_read f' p old = Ok (kSuccess, d) /\ others_unchanged f f' p.
Proof.
  intros room f p d f' old H Hr Hn. unfold file_write, open_out in H.
  unfold file_read, others_unchanged.
  destruct (f (cstr p)) as [[]| |r [] o d0|] eqn:E; try done; injection H as <-;
    rewrite fs_set_eq, take_ge by done.
  - split; [done|]. intros q Hq. by rewrite fs_set_ne.
  - destruct r; [|exfalso; by apply (Hn _ _ _ E)].
    split; [done|]. intros q Hq. by rewrite fs_set_ne.
Qed.

Theorem append_read_partial : forall room f p d f' old,
  file_append room f p d = (kSuccess, f') -> length d <= room -> not_unreadable f p ->
  exists before, contents_before f p before /\
    file_read f' p old = Ok (kSuccess, before ++ d) /\ others_unchanged f f' p.
Proof.
  intros room f p d f' old H Hr Hn. unfold file_append, open_out in H.
  unfold file_read, others_unchanged, contents_before.
  destruct (f (cstr p)) as [[]| |r [] o d0|] eqn:E; try done; injection H as <-;
    rewrite fs_set_eq, take_ge by done.
  - exists []. split; [right; by exists true|]. split; [done|]. intros q Hq. by rewrite fs_set_ne.
  - destruct r; [|exfalso; by apply (Hn _ _ _ E)].
    exists d0. split; [left; by do 3 eexists|]. split; [done|]. intros q Hq. by rewrite fs_set_ne.
Qed.

(** A failed Write or Append changes nothing. *)
Theorem failed_write_changes_nothing : forall room f p d rc f',
  file_write room f p d = (rc, f') \/ file_append room f p d = (rc, f') ->
  rc <> kSuccess -> f' = f.
Proof.
  intros room f p d rc f' H Hrc. unfold file_write, file_append in H.
  destruct (open_out f p) as [[[r o] d0]|]; destruct H as [H|H]; injection H as <- <-; done.
Qed.

(** Read fails exactly on what cannot be read, and then leaves the buffer as it was. *)
Theorem failed_read_keeps_buffer : forall f p old,
  (forall o, f (cstr p) <> Dir o) -> (forall w o d, f (cstr p) <> Reg true w o d) ->
  file_read f p old = Ok (kLogicErr, old).
Proof.
  intros f p old Hd Hr. unfold file_read. destruct (f (cstr p)) as [| |[] w o d|o] eqn:E; try done.
  - by destruct (Hr w o d).
  - by destruct (Hd o).
Qed.

(** Create leaves an existing file alone, and makes an empty one otherwise. *)
Theorem create_keeps_existing : forall mkdirs f p r w o d,
  f (cstr p) = Reg r w o d -> file_create mkdirs f p = Ok (kSuccess, f).
Proof. intros mkdirs f p r w o d H. unfold file_create, file_exist. by rewrite H. Qed.

Theorem create_makes_empty : forall mkdirs f f1 p f' old,
  mkdirs f = Some f1 -> f1 (cstr p) = f (cstr p) ->
  file_exist f p = Ok false -> file_create mkdirs f p = Ok (kSuccess, f') ->
  file_read f' p old = Ok (kSuccess, []) /\ file_exist f' p = Ok true /\ others_unchanged f1 f' p.
Proof.
  intros mkdirs f f1 p f' old Hm H1 He Hc. unfold file_create in Hc. rewrite He, Hm in Hc.
  cbn [mbind outcome_bind] in Hc. unfold open_out in Hc. rewrite H1 in Hc. unfold file_exist in He.
  destruct (f (cstr p)) as [[]| | |] eqn:E; try done; injection Hc as <-.
  unfold file_read, file_exist, others_unchanged. rewrite fs_set_eq.
  split; [done|]. split; [done|]. intros q Hq. by rewrite fs_set_ne.
Qed.

Definition remove_full : Prop := forall allowed f p,
  file_exist f p <> Throw FsError -> exists f', file_remove allowed f p = Ok (kSuccess, f') /\
    file_exist f' p = Ok false.

(** Missing: files that may not be removed (an exception escapes). *)
Theorem remove_partial : forall f p allowed,
  f (cstr p) <> StatFail -> file_exist f p = Ok false \/ allowed = true ->
  exists f', file_remove allowed f p = Ok (kSuccess, f') /\ file_exist f' p = Ok false /\
    others_unchanged f f' p.
Proof.
  intros f p allowed Hs Ha. unfold file_remove, file_exist in *.
  destruct (f (cstr p)) as [b| |r w o d|o] eqn:E; try done; cbn [mbind outcome_bind negb].
  - exists f. rewrite E. split; [done|]. split; [done|]. by intros q.
  - destruct Ha as [?| ->]; [done|]. eexists. split; [done|]. rewrite fs_set_eq. split; [done|].
    intros q Hq. by rewrite fs_set_ne.
  - exists f. rewrite E. split; [done|]. split; [done|]. by intros q.
Qed.

Definition ex_fs : fs := fun p =>
  if decide (p = B "/tmp/log") then Reg true true true (B "old")
  else if decide (p = B "/tmp/ro") then Reg true false true (B "ro")
  else if decide (p = B "/tmp") then Dir true else Absent true.

Theorem remove_refuted : ~ remove_full.
Proof.
  intros H. destruct (H false ex_fs (B "/tmp/log")) as (f' & Hr & _); by vm_compute in Hr || done.
Qed.

Theorem file_laws_refuted : ~ file_laws_full.
Proof.
  intros H. specialize (H 1 ex_fs (B "/tmp/log") (B "ab") _ [] eq_refl). by vm_compute in H.
Qed.

(** ** C65 *)
Definition success_means_written_full : Prop := forall room f p d f',
  file_write room f p d = (kSuccess, f') -> exists r w o, f' (cstr p) = Reg r w o d.

(** Missing: full devices and write errors; the stream state is not checked. *)
Theorem success_means_written_partial : forall room f p d f',
  file_write room f p d = (kSuccess, f') -> length d <= room ->
  exists r w o, f' (cstr p) = Reg r w o d.
Proof.
  intros room f p d f' H Hr. unfold file_write in H.
  destruct (open_out f p) as [[[r o] d0]|]; [|done]. injection H as <-.
  rewrite fs_set_eq, take_ge by done. by do 3 eexists.
Qed.

(** On a full device Write succeeds and the old contents are gone. *)
Theorem success_means_written_refuted : ~ success_means_written_full.
Proof.
  intros H. destruct (H 0 ex_fs (B "/tmp/log") (B "new") _ eq_refl) as (r & w & o & Hx).
  by vm_compute in Hx.
Qed.

(** ** C66 *)
Definition line_count_counts_lines_full : Prop := forall f p w o d ls,
  f (cstr p) = Reg true w o d -> text_lines d ls ->
  file_line_count f p = Ok (Z.of_nat (length ls)).

(** Missing: files of 2^31 lines or more. *)
Theorem line_count_counts_lines_partial : forall f p w o d ls,
  f (cstr p) = Reg true w o d -> text_lines d ls -> (Z.of_nat (length ls) < 2 ^ 31)%Z ->
  file_line_count f p = Ok (Z.of_nat (length ls)).
Proof.
  intros f p w o d ls Hf Hl Hn. unfold file_line_count. rewrite Hf.
  rewrite (count_lines_ok d ls Hl) by (unfold int_max; lia).
  rewrite (proj2 (Z.leb_le _ _)); [done|unfold int_max; lia].
Qed.

Lemma many_empty_lines n : text_lines (replicate n LF) (replicate n []).
Proof.
  induction n as [|n IH]; [constructor|]. apply (tl_cons [] (replicate n LF)); [|done].
  by apply not_elem_of_nil.
Qed.

(** 2^31 empty lines: the count overflows. *)
Theorem line_count_counts_lines_refuted : ~ line_count_counts_lines_full.
Proof.
  intros H. assert (Hex : exists n, Z.of_nat n = (2 ^ 31)%Z) by (exists (Z.to_nat (2 ^ 31)); by rewrite Z2Nat.id).
  destruct Hex as [n Hn].
  specialize (H (fun _ => Reg true true true (replicate n LF)) [] true true _ _ eq_refl (many_empty_lines n)).
  unfold file_line_count in H. rewrite (count_lines_ok _ _ (many_empty_lines n)) in H by (unfold int_max; lia).
  rewrite (proj2 (Z.leb_gt _ _)) in H; [done|]. rewrite replicate_length, Hn. unfold int_max. lia.
Qed.

(** A file that cannot be read has no lines. *)
Theorem line_count_unreadable : forall f p,
  (forall w o d, f (cstr p) <> Reg true w o d) -> file_line_count f p = Ok 0%Z.
Proof.
  intros f p H. unfold file_line_count. destruct (f (cstr p)) as [| |[] w o d|] eqn:E; try done. by destruct (H w o d).
Qed.

(** Every text has lines. *)
Theorem text_has_lines : forall d, exists ls, text_lines d ls.
Proof. exact text_lines_exists. Qed.

Theorem suffix_is_extension : forall p c x,
  fits p -> last_component p c -> (extension c x <-> file_suffix p = Ok x).
Proof.
  intros p c x Hf Hc. destruct (file_suffix_ok p Hf) as (c' & x' & Hc' & Hx' & Hr).
  rewrite (last_component_unique p c c' Hc Hc'). rewrite Hr. split.
  - intros Hx. by rewrite (extension_unique _ _ _ Hx Hx').
  - by intros [= <-].
Qed.

(** ** C153 *)
Definition can_write_tells_full : Prop := forall room f p d w,
  file_can_write f p = Ok w -> (w = true <-> (file_write room f p d).1 = kSuccess).

(** This process is the owner of the file and not restricted otherwise. *)
Definition own_file (f : fs) (p : bytes) : Prop :=
  (exists r w d, f (cstr p) = Reg r w w d) \/ f (cstr p) = Absent true.

(** Missing: directories, missing files in directories that may not be written, files
    of other users. *)
Theorem can_write_tells_partial : forall room f p d, own_file f p ->
  exists w, file_can_write f p = Ok w /\ (w = true <-> (file_write room f p d).1 = kSuccess).
Proof.
  intros room f p d [(r & w & d0 & H)|H]; unfold file_can_write, file_write, open_out; rewrite H; simpl.
  - exists w. split; [done|]. by destruct w.
  - by exists true.
Qed.

Theorem can_write_tells_refuted : ~ can_write_tells_full.
Proof.
  intros H. specialize (H 9 (fun _ => Reg true false true []) (B "/etc/passwd") (B "x") true eq_refl).
  destruct H as [H _]. by specialize (H eq_refl).
Qed.

Print Assumptions write_read_partial.
Print Assumptions append_read_partial.
Print Assumptions failed_write_changes_nothing.
Print Assumptions create_keeps_existing.
Print Assumptions create_makes_empty.
Print Assumptions remove_partial.
Print Assumptions remove_refuted.
Print Assumptions file_laws_refuted.
Print Assumptions success_means_written_partial.
Print Assumptions success_means_written_refuted.
Print Assumptions line_count_counts_lines_partial.
Print Assumptions line_count_counts_lines_refuted.
Print Assumptions line_count_unreadable.
Print Assumptions text_has_lines.
Print Assumptions suffix_is_extension.
Print Assumptions failed_read_keeps_buffer.
Print Assumptions can_write_tells_partial.
Print Assumptions can_write_tells_refuted.

(** Non-vacuity. *)
Example ex_write :
  (file_write 100 ex_fs (B "/tmp/log") (B "new")).1 = kSuccess /\ not_unreadable ex_fs (B "/tmp/log") /\
  file_read (file_write 100 ex_fs (B "/tmp/log") (B "new")).2 (B "/tmp/log") [] = Ok (kSuccess, B "new").
Proof. split; [done|]. split; [by intros w o d H|done]. Qed.
Example ex_append :
  file_read (file_append 100 ex_fs (B "/tmp/log") (B "new")).2 (B "/tmp/log") [] = Ok (kSuccess, B "oldnew").
Proof. done. Qed.
Example ex_failed_write : file_write 100 ex_fs (B "/tmp/ro") (B "new") = (kLogicErr, ex_fs).
Proof. done. Qed.
Example ex_create :
  exists f', file_create Some ex_fs (B "/tmp/x") = Ok (kSuccess, f') /\ file_exist ex_fs (B "/tmp/x") = Ok false.
Proof. eexists. split; done. Qed.
Example ex_remove : exists f', file_remove true ex_fs (B "/tmp/log") = Ok (kSuccess, f') /\ file_exist f' (B "/tmp/log") = Ok false.
Proof. eexists. split; done. Qed.
Example ex_lines : text_lines (B "a" ++ [LF; LF] ++ B "bc") [B "a"; []; B "bc"].
Proof.
  apply (tl_cons (B "a") (LF :: B "bc")); [by_compute|].
  apply (tl_cons [] (B "bc")); [by_compute|]. apply tl_last; [done|by_compute].
Qed.
Example ex_suffix :
  file_suffix (B "/www/v1.2/page.tar.gz") = Ok (B "gz") /\ file_suffix (B "/www/v1.2/page") = Ok [] /\
  file_suffix (B ".profile") = Ok (B "profile") /\ last_component (B "/www/v1.2/page") (B "page").
Proof.
  split; [done|]. split; [done|]. split; [done|]. split; [by_compute|]. right. by exists (B "/www/v1.2").
Qed.
Example ex_failed_read : file_read ex_fs (B "/tmp/none") (B "kept") = Ok (kLogicErr, B "kept").
Proof. done. Qed.
Example ex_can_write :
  file_can_write ex_fs (B "/tmp/new") = Ok true /\ own_file ex_fs (B "/tmp/new") /\
  (file_write 5 ex_fs (B "/tmp/new") (B "x")).1 = kSuccess /\
  own_file (fun _ => Reg true false false []) (B "/a") /\ file_can_write (fun _ => Reg true false false []) (B "/a") = Ok false.
Proof. split; [done|]. split; [by right|]. split; [done|]. split; [left; by do 3 eexists|done]. Qed.
