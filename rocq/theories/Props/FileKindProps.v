(** C240: IsFile, Exist and IsDir of src/cppnet/utils/file.cpp, and what the calls that
    change files do to their answers. *)
From Verif.Proof Require Import FileProof.
From Verif.Props Require Import FileProps.

(** ** Specification *)
Definition is_file (f : fs) (p : bytes) : Prop := ∃ r w o d, f (cstr p) = Reg r w o d.
Definition is_directory (f : fs) (p : bytes) : Prop := ∃ o, f (cstr p) = Dir o.
Definition is_missing (f : fs) (p : bytes) : Prop := ∃ b, f (cstr p) = Absent b.

(** Both always answer, and rightly. *)
Definition kinds_full : Prop := ∀ f p, ∃ x y,
  file_exist f p = Ok x ∧ file_is_dir f p = Ok y ∧
  (x = true ↔ is_file f p) ∧ (y = true ↔ is_directory f p).

(** If Remove says that it succeeded, nothing is left under the name. *)
Definition remove_leaves_nothing_full : Prop := ∀ allowed f p f',
  file_remove allowed f p = Ok (kSuccess, f') → is_missing f' p.

(** ** Proofs *)

(** Missing: names for which stat(2) fails otherwise than because there is no such file. Then
    both throw, for no other name. *)
Theorem kinds_partial : ∀ f p,
  (f (cstr p) = StatFail ↔ file_exist f p = Throw FsError) ∧
  (f (cstr p) = StatFail ↔ file_is_dir f p = Throw FsError) ∧
  (f (cstr p) ≠ StatFail → ∃ x y,
     file_exist f p = Ok x ∧ file_is_dir f p = Ok y ∧
     (x = true ↔ is_file f p) ∧ (y = true ↔ is_directory f p) ∧
     (x = false ∧ y = false ↔ is_missing f p)).
Proof.
  intros f p. unfold file_exist, file_is_dir, is_file, is_directory, is_missing.
  destruct (f (cstr p)) as [b| |r w o d|o]; (split; [done|]); (split; [done|]); intros H; try done;
    do 2 eexists; (split; [done|]); (split; [done|]); naive_solver.
Qed.

Theorem kinds_refuted : ¬ kinds_full.
Proof. intros H. destruct (H (λ _, StatFail) (B "x")) as (x & y & E & _). done. Qed.

(** What was written or appended to is a file afterwards and was no directory. *)
Theorem written_is_file : ∀ room f p d f',
  file_write room f p d = (kSuccess, f') ∨ file_append room f p d = (kSuccess, f') →
  file_exist f' p = Ok true ∧ file_is_dir f' p = Ok false ∧ ¬ is_directory f p ∧
  (∀ q, cstr q ≠ cstr p → file_is_dir f' q = file_is_dir f q ∧ file_exist f' q = file_exist f q).
Proof.
  intros room f p d f' H. unfold file_write, file_append, open_out in H.
  assert (∃ r o x, f' = fs_set f (cstr p) (Reg r true o x) ∧ ¬ is_directory f p) as (r & o & x & -> & Hd).
  { unfold is_directory. destruct (f (cstr p)) as [[]| |r [] o x|o] eqn:E, H as [H|H]; try done; injection H as <-; do 3 eexists; (split; [done|]); by intros [? ?]. }
  unfold file_exist, file_is_dir. rewrite fs_set_eq. do 2 (split; [done|]). split; [done|].
  intros q Hq. by rewrite fs_set_ne.
Qed.

(** Missing: directories, which Remove leaves alone without saying so. *)
Theorem remove_leaves_nothing_partial : ∀ allowed f p f',
  file_remove allowed f p = Ok (kSuccess, f') →
  (¬ is_directory f p → is_missing f' p) ∧
  (is_directory f p → f' = f ∧ file_is_dir f' p = Ok true).
Proof.
  intros allowed f p f' H. unfold file_remove, file_exist in H. unfold is_directory, is_missing, file_is_dir.
  destruct (f (cstr p)) as [b| |r w o d|o] eqn:E; cbn [mbind outcome_bind negb] in H; try done.
  - injection H as <-. split; [eauto|by intros [? ?]].
  - destruct allowed; [|done]. injection H as <-. split; [|by intros [? ?]]. intros _. exists true. apply fs_set_eq.
  - injection H as <-. rewrite E. split; [|done]. intros Hn. destruct Hn. by exists o.
Qed.

Theorem remove_leaves_nothing_refuted : ¬ remove_leaves_nothing_full.
Proof. intros H. destruct (H true ex_fs (B "/tmp") ex_fs) as [b Hb]; [reflexivity|]. by vm_compute in Hb. Qed.

Example kinds_ex : file_is_dir ex_fs (B "/tmp") = Ok true ∧ file_exist ex_fs (B "/tmp") = Ok false ∧
  file_is_dir ex_fs (B "/none") = Ok false.
Proof. repeat split. Qed.
Example written_ex : ∃ f', file_write 100 ex_fs (B "/tmp/new") (B "text") = (kSuccess, f') ∧ file_exist f' (B "/tmp/new") = Ok true.
Proof. eexists. split; [reflexivity|]. vm_compute. reflexivity. Qed.

Print Assumptions kinds_partial.
Print Assumptions kinds_refuted.
Print Assumptions written_is_file.
Print Assumptions remove_leaves_nothing_partial.
Print Assumptions remove_leaves_nothing_refuted.
