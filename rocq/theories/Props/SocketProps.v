(** C31-C35: sockets (src/cppnet/socket/socket.cpp). *)
From Verif.Proof Require Import SocketProof.
From Verif.Proof Require Import TextProof.

(** A non-empty delimiter that does not end in NUL. *)
Definition good_delim (d : bytes) : Prop := exists c, last d = Some c /\ c <> NUL /\ fits d.

(** ** C31 *)
Definition read_until_first_occurrence_full : Prop := forall d s pre rest l t,
  d <> [] -> fits d -> fits s -> shortest_until d s pre rest ->
  exists rc, read_until [] d (Stream (map Byte s ++ l) t)
    = Ok (rc, pre, Stream (map Byte rest ++ l) t) /\ (0 < rc)%Z.

(** Missing: streams in which the delimiter's last byte comes too early (C32),
    and a header block of 2 GB or more (the length is returned as an int). *)
Theorem read_until_first_occurrence_partial : forall d s pre rest l t,
  good_delim d -> fits s -> ~ early_end d s -> shortest_until d s pre rest ->
  read_until [] d (Stream (map Byte s ++ l) t)
    = Ok (to_int32 (Z.of_nat (length pre)), pre, Stream (map Byte rest ++ l) t) /\
  (Z.of_nat (length pre) < 2 ^ 31 ->
   to_int32 (Z.of_nat (length pre)) = Z.of_nat (length pre) /\
   0 < to_int32 (Z.of_nat (length pre)))%Z.
Proof.
  intros d s pre rest l t (c & Hl & Hn & Hd) Hf He Hs. split.
  - unfold read_until. cbn [sm_items sm_tail].
    rewrite (until_found d c Hl Hn Hd s pre rest) by done. destruct d; [done|done].
  - intros Hp.
    assert (0 < length pre).
    { destruct Hs as (_ & Hs & _). apply suffix_length in Hs. destruct d; [done|]. simpl in Hs. lia. }
    unfold to_int32. rewrite Z.mod_small by lia. lia.
Qed.

(** Such a cut exists as soon as the stream contains the delimiter. *)
Theorem read_until_succeeds_partial : forall d s l t,
  good_delim d -> fits s -> ~ early_end d s -> contains d s ->
  exists pre rest, shortest_until d s pre rest /\
    read_until [] d (Stream (map Byte s ++ l) t)
      = Ok (to_int32 (Z.of_nat (length pre)), pre, Stream (map Byte rest ++ l) t).
Proof.
  intros d s l t Hd Hf He Hc.
  destruct (shortest_until_exists d s) as (pre & rest & Hs); [|done|].
  - destruct Hd as (c & Hl & _). by destruct d.
  - exists pre, rest. split; [done|]. by apply read_until_first_occurrence_partial.
Qed.

(** The stream ends, fails or falls silent before the delimiter. *)
Theorem read_until_unfinished_partial : forall d s t,
  good_delim d -> fits s -> ~ early_end d s -> ~ contains d s ->
  (forall l, read_until [] d (Stream (map Byte s ++ Gap :: l) t) = Ok ((-1)%Z, s, Stream l t)) /\
  read_until [] d (of_bytes s Eof) = Ok (0%Z, s, Stream [] Eof) /\
  read_until [] d (of_bytes s Err) = Ok ((-1)%Z, s, Stream [] Err) /\
  read_until [] d (of_bytes s Wait) = Blocked.
Proof.
  intros d s t (c & Hl & Hn & Hd) Hf He Hnc.
  assert (H : forall l t, read_until [] d (Stream (map Byte s ++ l) t) = until_loop d l t (lastch s) s).
  { intros l t'. unfold read_until. cbn [sm_items sm_tail].
    rewrite (proj1 (until_not_found d c Hl Hn Hd s l t' Hf He Hnc)). by destruct d. }
  assert (Hg : until_goes_on d s (lastch s) = Ok true).
  { exact (proj2 (until_not_found d c Hl Hn Hd s [] t Hf He Hnc)). }
  split; [|unfold of_bytes; rewrite <- (app_nil_r (map Byte s))].
  - intros l. rewrite H. cbn [until_loop]. by rewrite Hg.
  - rewrite !H. cbn [until_loop]. by rewrite Hg.
Qed.

Theorem read_until_first_occurrence_refuted : ~ read_until_first_occurrence_full.
Proof.
  intros H.
  destruct (H CRLFCRLF (LF :: CRLFCRLF) (LF :: CRLFCRLF) [] [] Eof) as (rc & Hr & _).
  - done.
  - by vm_compute.
  - by vm_compute.
  - split; [done|]. split; [by exists [LF]|]. intros p [r Hr] [k Hk].
    destruct r as [|x r]; [by rewrite app_nil_r in Hr|]. exfalso.
    apply (f_equal length) in Hr as Hl. rewrite Hk, !app_length in Hl. simpl in Hl.
    assert (k = [] /\ r = []) as [-> ->].
    { split; apply nil_length_inv; lia. }
    by rewrite Hk in Hr.
  - by vm_compute in Hr.
Qed.

(** ** C32 *)
Definition read_until_never_throws_full : Prop := forall d s t e,
  d <> [] -> read_until [] d (of_bytes s t) <> Throw e.

(** Exactly the streams that make ReadUntil throw.  [s] is what arrives before
    the first gap or the end. *)
Theorem read_until_throws_iff : forall d s l t,
  good_delim d -> fits s -> l = [] \/ (exists l', l = Gap :: l') ->
  ((exists e, read_until [] d (Stream (map Byte s ++ l) t) = Throw e) <-> early_end d s).
Proof.
  intros d s l t (c & Hl & Hn & Hd) Hf Hl'. split.
  - intros [e He].
    assert (Hdec : early_end d s \/ ~ early_end d s).
    { destruct (decide (Exists (fun x => x = c) (take (length d - 1) s))) as [Hx|Hx].
      - left. apply Exists_exists in Hx as (x & Hx & ->). apply elem_of_list_lookup in Hx as [i Hi].
        assert (i < length d - 1) by (apply lookup_lt_Some in Hi; rewrite take_length in Hi; lia).
        rewrite lookup_take in Hi by done. exists i, c. repeat split; [done..|lia].
      - right. intros (i & c' & Hc' & Hi & Hlt). apply Hx. apply Exists_exists. exists c'.
        split; [|congruence]. apply elem_of_list_lookup. exists i. rewrite lookup_take by lia. done. }
    destruct Hdec as [?|Hne]; [done|]. exfalso.
    assert (Hcd : contains d s \/ ~ contains d s).
    { rewrite find_idx_contains. destruct (find_idx d s); [by left|right; by intros []]. }
    destruct Hcd as [Hc|Hc].
    + destruct (shortest_until_exists d s) as (pre & rest & Hs); [by destruct d|done|].
      assert (Hg : good_delim d) by by exists c.
      destruct (read_until_first_occurrence_partial d s pre rest l t Hg Hf Hne Hs) as [Hr _].
      by rewrite Hr in He.
    + destruct (read_until_unfinished_partial d s t) as (H1 & H2 & H3 & H4); [by exists c|done..|].
      destruct Hl' as [->|[l' ->]].
      * rewrite app_nil_r in He. unfold of_bytes in *. destruct t; congruence.
      * by rewrite H1 in He.
  - intros He. exists OutOfRange. unfold read_until. cbn [sm_items sm_tail].
    rewrite (until_throw d c Hl Hn Hd) by done. by destruct d.
Qed.

(** For the delimiter of the HTTP code: LF among the first three bytes. *)
Theorem read_until_blank_line_throws_iff : forall s t,
  fits s ->
  ((exists e, read_until [] CRLFCRLF (of_bytes s t) = Throw e) <-> LF ∈ take 3 s).
Proof.
  intros s t Hf. unfold of_bytes. rewrite <- (app_nil_r (map Byte s)).
  rewrite read_until_throws_iff.
  - split.
    + intros (i & c & [= <-] & Hi & Hlt). simpl in Hlt. apply elem_of_list_lookup. exists i.
      rewrite lookup_take by lia. done.
    + intros H. apply elem_of_list_lookup in H as [i Hi].
      assert (i < 3) by (apply lookup_lt_Some in Hi; rewrite take_length in Hi; lia).
      rewrite lookup_take in Hi by done. exists i, LF. repeat split; [done|]. simpl. lia.
  - exists LF. repeat split; by vm_compute.
  - done.
  - by left.
Qed.

(** A delimiter that ends in NUL throws before anything is read. *)
Theorem read_until_nul_delim_throws : forall d s,
  last d = Some NUL -> fits d -> read_until [] d s = Throw OutOfRange.
Proof.
  intros d s Hl Hd. unfold read_until. destruct d as [|x d'] eqn:E; [done|]. rewrite <- E in *.
  assert (Hg : until_goes_on d [] NUL = Throw OutOfRange).
  { unfold until_goes_on. rewrite (delim_last_at d NUL Hl Hd). cbn [mbind outcome_bind].
    rewrite (proj2 (ascii_eqb_true NUL NUL) eq_refl). cbn [negb].
    unfold substr_from. rewrite substr_throw; [done|].
    assert (0 < length d) by (rewrite E; simpl; lia).
    unfold fits in Hd. unfold szsub, size, size_mod. change (length []) with 0.
    rewrite N.mod_small by lia. lia. }
  destruct (sm_items s) as [|[c|] l]; cbn [until_loop]; by rewrite Hg.
Qed.

Theorem read_until_never_throws_refuted : ~ read_until_never_throws_full.
Proof.
  intros H. apply (H CRLFCRLF CRLF Wait OutOfRange); [done|]. by vm_compute.
Qed.

(** ** C33 *)

(** The [rc] next bytes of the stream are [b]. *)
Definition next_bytes (s s' : stream) (rc : Z) (b : bytes) : Prop :=
  rc = Z.of_nat (length b) /\ sm_tail s' = sm_tail s /\
  exists skipped, sm_items s = map Byte b ++ skipped ++ sm_items s' /\ (skipped = [] \/ skipped = [Gap]).

Definition read_delivers_full : Prop := forall complete k n s rc buf s',
  read_string complete k n s = Ok (rc, buf, s') -> (0 < rc)%Z -> next_bytes s s' rc buf.

(** What Read really puts in the string: the text before the first NUL byte of
    what it received.  Missing from C33: data with NUL bytes. *)
Theorem read_delivers_partial : forall complete k n s rc buf s',
  read_string complete k n s = Ok (rc, buf, s') -> (0 < rc)%Z ->
  exists b c, next_bytes s s' rc b /\ length b <= n /\
    b = buf ++ c /\ NUL ∉ buf /\ (c = [] \/ head c = Some NUL).
Proof.
  intros complete k n s rc buf s' H Hrc. unfold read_string in H.
  assert (HP : forall r, (if complete then recv_all n s else recv_some k n s) = Ok r ->
    exists b, r = (r.1.1, b, r.2) /\ ((0 < r.1.1)%Z -> next_bytes s r.2 r.1.1 b /\ length b <= n)).
  { intros [[z b] s1] Hr. exists b. split; [done|]. cbn [fst snd]. intros Hz. destruct complete.
    - destruct (recv_all_spec _ _ _ _ _ Hr Hz) as (-> & Hle & Ht & mid & Hi & Hm).
      split; [|done]. repeat split; [done|]. exists mid. split; [done|]. naive_solver.
    - destruct (recv_some_spec _ _ _ _ _ _ Hr Hz) as (-> & Hle & Ht & Hi).
      split; [|done]. repeat split; [done|]. exists []. auto. }
  destruct (if complete then recv_all n s else recv_some k n s) as [r| | | | |]; try done.
  destruct (HP r eq_refl) as (b & Hr & Hn). rewrite Hr in H. cbn [mbind outcome_bind] in H.
  injection H as <- <- <-. destruct (Hn Hrc) as [H1 H2].
  destruct (cstr_split b) as (c & Hc & Hnul & Hh). exists b, c. auto.
Qed.

Theorem read_delivers_text_partial : forall complete k n s rc buf s',
  read_string complete k n s = Ok (rc, buf, s') -> (0 < rc)%Z ->
  Byte NUL ∉ sm_items s -> next_bytes s s' rc buf.
Proof.
  intros complete k n s rc buf s' H Hrc Hnul.
  destruct (read_delivers_partial _ _ _ _ _ _ _ H Hrc) as (b & c & Hn & _ & Hb & _ & [->|Hc]).
  - by rewrite app_nil_r in Hb; subst.
  - exfalso. apply Hnul. destruct Hn as (_ & _ & sk & Hi & _). rewrite Hi.
    apply elem_of_app. left. apply elem_of_list_fmap. exists NUL. split; [done|].
    rewrite Hb. apply elem_of_app. right. destruct c as [|x c]; [done|].
    injection Hc as ->. left.
Qed.

(** Waiting for all: [n] bytes unless the stream is interrupted. *)
Theorem read_complete_is_exact : forall n b l t,
  length b = n -> NUL ∉ b ->
  read_string true 0 n (Stream (map Byte b ++ l) t) = Ok (Z.of_nat n, b, Stream l t).
Proof.
  intros n b l t Hl Hb. unfold read_string. rewrite recv_all_enough by done.
  cbn [mbind outcome_bind]. by rewrite cstr_no_nul.
Qed.

(** Peeking leaves the stream alone. *)
Theorem peek_keeps_the_stream : forall k n s rc buf s',
  read_peek k n s = Ok (rc, buf, s') -> (0 < rc)%Z ->
  s' = s /\ exists b, rc = Z.of_nat (length b) /\ map Byte b `prefix_of` sm_items s /\
    (NUL ∉ b -> buf = b).
Proof.
  intros k n s rc buf s' H Hrc. unfold read_peek, recv_peek in H.
  destruct (recv_some k n s) as [[[z b] s1]| | | | |] eqn:E; try done.
  cbn [mbind outcome_bind] in H. injection H as <- <- <-.
  destruct (Z.ltb_spec 0 z); [|lia].
  destruct (recv_some_spec _ _ _ _ _ _ E Hrc) as (Hz & _ & _ & Hi).
  split; [done|]. exists b. repeat split; [done|by exists (sm_items s1)|]. apply cstr_no_nul.
Qed.

Theorem read_delivers_refuted : ~ read_delivers_full.
Proof.
  intros H.
  destruct (H true 0 3 (of_bytes ["a"%char; NUL; "b"%char] Wait) 3%Z ["a"%char] (of_bytes [] Wait)) as [Hl _];
    [by vm_compute|lia|]. by vm_compute in Hl.
Qed.

(** ** C34 *)
Definition opens (o : sop) : Prop := o = OInit \/ o = OInitUdp.
Definition sets_option (o : sop) : Prop :=
  o ∈ [OSetNoBlock; OSetBlock; OSetReuseAddr; OSetReadTimeout; OSetWriteTimeout; OSetSockOpt].

Definition closed_is_inert_full : Prop := forall o r s,
  so_status s = kClosed -> ~ opens o -> sock_call o r s = ((-1)%Z, s, []).

(** Missing: the option setters, which do not look at the status. *)
Theorem closed_is_inert_partial : forall o r s,
  so_status s <> kInit -> ~ opens o -> ~ sets_option o -> sock_call o r s = ((-1)%Z, s, []).
Proof.
  intros o r s Hs Ho Hn. unfold opens, sets_option in *.
  destruct o; cbn [sock_call]; try (by rewrite decide_False by done);
    try (exfalso; apply Ho; auto; fail); try (exfalso; apply Hn; set_solver).
  destruct delim; [done|]. by rewrite decide_False.
Qed.

(** The setters act on the old descriptor number, whatever the status. *)
Theorem setters_touch_closed_descriptor : forall o r s,
  sets_option o -> exists c rest, (sock_call o r s).2 = c :: rest /\
    (c = SysFcntl (so_fd s) \/ c = SysSetsockopt (so_fd s)).
Proof.
  intros o r s Ho. unfold sets_option in Ho.
  destruct o; try (exfalso; set_solver); cbn [sock_call];
    try (destruct (r =? -1)%Z); cbn [snd]; do 2 eexists; (split; [done|]); auto.
Qed.

Theorem closed_is_inert_refuted : ~ closed_is_inert_full.
Proof.
  intros H. specialize (H OSetNoBlock 0%Z (Sock 5 kClosed) eq_refl).
  assert (Hx : ~ opens OSetNoBlock) by (unfold opens; naive_solver).
  specialize (H Hx). by vm_compute in H.
Qed.

(** After a successful Init and any calls without a second Init, Close works and
    the object is closed. *)
Theorem close_closes : forall r s,
  so_status s = kInit ->
  sock_call OClose r s = (r, Sock (so_fd s) kClosed, [SysClose (so_fd s)]).
Proof. intros r s H. cbn [sock_call]. by rewrite decide_True. Qed.

(** ** C35 *)
Definition no_open (p : pop) : Prop :=
  match p with PCall _ o _ => ~ opens o | PCopy _ => True end.

Definition closed_at_most_once_full : Prop := forall fd ps,
  Forall no_open ps ->
  closes fd (prog_run ([sock_of_fd fd], []) ps).2 <= 1.

Definition not_copy (p : pop) : Prop := match p with PCall _ _ _ => True | PCopy _ => False end.

Lemma sock_call_effect o r s z s' c :
  ~ opens o -> sock_call o r s = (z, s', c) ->
  so_fd s' = so_fd s /\
  ((so_status s = kInit /\ so_status s' = kClosed /\ c = [SysClose (so_fd s)]) \/
   (s' = s /\ forall fd, SysClose fd ∉ c)).
Proof.
  intros Ho E. unfold sock_call in E.
  destruct o; try (exfalso; apply Ho; unfold opens; auto; fail);
    try (destruct delim); try (destruct (r =? -1)%Z);
    try (destruct (decide (so_status s = kInit)));
    injection E as <- <- <-; (split; [done|]);
    first [right; split; [done|]; intros fd H;
           repeat (apply elem_of_cons in H as [H|H]; [done|]); by apply elem_of_nil in H
          |left; done].
Qed.

(** One object, never copied: closed at most once. *)
Lemma single_object_inv fd ps :
  forall s tr, so_fd s = fd -> Forall no_open ps -> Forall not_copy ps ->
  closes fd tr + (if decide (so_status s = kInit) then 1 else 0) <= 1 ->
  closes fd (prog_run ([s], tr) ps).2 <= 1.
Proof.
  induction ps as [|p ps IH]; intros s tr Hfd Hno Hnc Hi; simpl.
  - lia.
  - apply Forall_cons in Hno as [Hp Hno]. apply Forall_cons in Hnc as [Hq Hnc].
    destruct p as [i|i o r]; [done|].
    destruct i as [|i]; simpl; [|by apply IH].
    destruct (sock_call o r s) as [[z s'] c] eqn:E. simpl.
    destruct (sock_call_effect _ _ _ _ _ _ Hp E) as [Hf [(Hs & Hs' & ->)|[-> Hno']]].
    + apply IH; [congruence|done|done|]. rewrite Hs' , closes_app.
      rewrite Hs, decide_True in Hi by done.
      unfold closes at 2. rewrite filter_cons. subst fd. rewrite decide_True by done. simpl. lia.
    + apply IH; [done..|]. rewrite closes_app.
      assert (closes fd c = 0) as ->; [|lia].
      unfold closes. clear -Hno'. induction c as [|x c IHc]; [done|]. rewrite filter_cons.
      rewrite decide_False by (intros ->; apply (Hno' fd); left). apply IHc.
      intros fd' H. apply (Hno' fd'). by right.
Qed.

Theorem closed_at_most_once_partial : forall fd ps,
  Forall no_open ps -> Forall not_copy ps ->
  closes fd (prog_run ([sock_of_fd fd], []) ps).2 <= 1.
Proof.
  intros fd ps Hno Hnc. apply single_object_inv; [|done|done|].
  - unfold sock_of_fd. by destruct (fd <? 0)%Z.
  - unfold closes. simpl. destruct (decide _); lia.
Qed.

(** The pattern of HttpServer::HandleRead (a copy is closed) followed by a close
    of the original. *)
Theorem closed_at_most_once_refuted : ~ closed_at_most_once_full.
Proof.
  intros H. specialize (H 7%Z [PCopy 0; PCall 1 OClose 0%Z; PCall 0 OClose 0%Z]).
  assert (Hx : Forall no_open [PCopy 0; PCall 1 OClose 0%Z; PCall 0 OClose 0%Z]).
  { repeat constructor; unfold no_open, opens; naive_solver. }
  specialize (H Hx). vm_compute in H. lia.
Qed.

(** ** C152 *)
(** What a program does with one Socket object: calls, with what the kernel answers. *)
Definition one_object (calls : list (sop * Z)) : list sock * list syscall :=
  prog_run ([sock_new], []) (map (fun c => PCall 0 c.1 c.2) calls).
(** How often socket(2) has returned the number [fd]. *)
Definition times_made (fd : Z) (calls : list (sop * Z)) : nat :=
  length (filter (fun c => opens c.1 /\ c.2 = fd) calls).
(** No Init while the object is open. *)
Definition opened_when_closed (calls : list (sop * Z)) : Prop :=
  forall pre o r mid o' r' post, calls = pre ++ (o, r) :: mid ++ (o', r') :: post ->
    opens o -> (0 <= r)%Z -> opens o' -> OClose ∈ mid.*1.

Definition descriptors_given_back_full : Prop := forall calls r fd,
  (0 <= fd)%Z -> closes fd (one_object (calls ++ [(OClose, r)])).2 = times_made fd calls.

Lemma closes_call fd o r s : ~ opens o -> o <> OClose ->
  closes fd (sock_call o r s).2 = 0 /\ (sock_call o r s).1.2 = s.
Proof.
  intros Ho Hc. destruct (sock_call o r s) as [[z s'] c] eqn:E. cbn [fst snd].
  destruct (sock_call_effect _ _ _ _ _ _ Ho E) as [_ [(Hs & Hs' & ->)|[-> Hno]]].
  - exfalso. unfold sock_call in E. destruct o; try (apply Ho; unfold opens; auto; fail); try done;
      try (destruct delim); try (destruct (r =? -1)%Z); try (destruct (decide (so_status s = kInit)));
      by injection E.
  - split; [|done]. unfold closes. clear -Hno. induction c as [|x c IHc]; [done|]. rewrite filter_cons.
    rewrite decide_False by (intros ->; apply (Hno fd); left). apply IHc.
    intros fd' H. apply (Hno fd'). by right.
Qed.

Definition held (fd : Z) (s : sock) : nat := if decide (so_status s = kInit /\ so_fd s = fd) then 1 else 0.

Lemma one_object_inv fd calls : (0 <= fd)%Z -> forall s tr,
  opened_when_closed calls ->
  (so_status s = kInit -> forall mid o r post, calls = mid ++ (o, r) :: post -> opens o -> OClose ∈ mid.*1) ->
  exists s', (prog_run ([s], tr) (map (fun c => PCall 0 c.1 c.2) calls)).1 = [s'] /\
    closes fd (prog_run ([s], tr) (map (fun c => PCall 0 c.1 c.2) calls)).2 + held fd s'
      = closes fd tr + times_made fd calls + held fd s.
Proof.
  intros Hfd. induction calls as [|[o r] calls IH]; intros s tr Hw Hg.
  - exists s. split; [done|]. unfold times_made. simpl. lia.
  - assert (Hw' : opened_when_closed calls).
    { intros pre o1 r1 mid o2 r2 post E. apply (Hw ((o, r) :: pre) o1 r1 mid o2 r2 post). by rewrite E. }
    cbn [map fst snd]. unfold prog_run. cbn [foldl].
    assert (Hstep : prog_step ([s], tr) (PCall 0 o r) = ([(sock_call o r s).1.2], tr ++ (sock_call o r s).2)).
    { simpl. by destruct (sock_call o r s) as [[z s1] c]. }
    rewrite Hstep. fold (prog_run ([(sock_call o r s).1.2], tr ++ (sock_call o r s).2)
      (map (fun c => PCall 0 c.1 c.2) calls)).
    destruct (decide (opens o)) as [Ho|Ho].
    + assert (Hs : so_status s <> kInit).
      { intros Hs. specialize (Hg Hs [] o r calls eq_refl Ho). by apply elem_of_nil in Hg. }
      assert (Hc : sock_call o r s = if (r <? 0)%Z then ((-1)%Z, Sock r (so_status s), [SysSocket])
        else (0%Z, Sock r kInit, [SysSocket])) by (destruct Ho as [-> | ->]; done).
      destruct (IH (sock_call o r s).1.2 (tr ++ (sock_call o r s).2) Hw') as (s' & Hrun & Hcnt).
      { intros Hi mid o' r' post E Ho'. destruct (r <? 0)%Z eqn:Hr; [by rewrite Hc in Hi|].
        apply (Hw [] o r mid o' r' post); [by rewrite E|done|lia|done]. }
      exists s'. split; [done|]. rewrite Hcnt, closes_app.
      replace (closes fd (sock_call o r s).2) with 0 by (rewrite Hc; by destruct (r <? 0)%Z).
      unfold times_made. rewrite filter_cons. unfold held.
      rewrite (decide_False (P := so_status s = kInit /\ _)) by naive_solver.
      rewrite Hc. destruct (r <? 0)%Z eqn:Hr; cbn [fst snd so_status so_fd].
      * rewrite decide_False by naive_solver. rewrite decide_False by (simpl; intros [_ ->]; lia). lia.
      * destruct (decide (r = fd)) as [->|Hne].
        -- rewrite decide_True by done. rewrite decide_True by done. simpl. lia.
        -- rewrite decide_False by naive_solver. rewrite decide_False by (simpl; naive_solver). lia.
    + assert (Htm : times_made fd ((o, r) :: calls) = times_made fd calls).
      { unfold times_made. rewrite filter_cons. rewrite decide_False by (simpl; naive_solver). done. }
      rewrite Htm. destruct (decide (o = OClose)) as [->|Hc].
      * destruct (IH (sock_call OClose r s).1.2 (tr ++ (sock_call OClose r s).2) Hw') as (s' & Hrun & Hcnt).
        { intros Hi. exfalso. cbn [sock_call] in Hi. by destruct (decide (so_status s = kInit)). }
        exists s'. split; [done|]. rewrite Hcnt, closes_app. cbn [sock_call]. unfold held, closes.
        destruct (decide (so_status s = kInit)) as [Hi|Hi]; cbn [fst snd so_status so_fd].
        -- rewrite filter_cons, filter_nil.
           rewrite (decide_False (P := kClosed = kInit /\ _)) by naive_solver.
           destruct (decide (so_fd s = fd)) as [<-|Hne].
           ++ rewrite decide_True by done. rewrite decide_True by done. simpl. lia.
           ++ rewrite decide_False by naive_solver. rewrite decide_False by naive_solver. simpl. lia.
        -- rewrite filter_nil. simpl. lia.
      * destruct (closes_call fd o r s Ho Hc) as [Hz Hs]. rewrite Hs in *.
        destruct (IH s (tr ++ (sock_call o r s).2) Hw') as (s' & Hrun & Hcnt).
        { intros Hi mid o' r' post E Ho'. specialize (Hg Hi ((o, r) :: mid) o' r' post).
          rewrite E in Hg. specialize (Hg eq_refl Ho'). simpl in Hg.
          apply elem_of_cons in Hg as [Hg|Hg]; [by symmetry in Hg|done]. }
        exists s'. split; [done|]. rewrite Hcnt, closes_app, Hz. lia.
Qed.

(** Missing: a second Init of an open socket. *)
Theorem descriptors_given_back_partial : forall calls r fd,
  (0 <= fd)%Z -> opened_when_closed calls ->
  closes fd (one_object (calls ++ [(OClose, r)])).2 = times_made fd calls.
Proof.
  intros calls r fd Hfd Hw. unfold one_object.
  destruct (one_object_inv fd calls Hfd sock_new [] Hw) as (s' & Hrun & Hcnt); [done|].
  rewrite map_app. unfold prog_run in *. rewrite foldl_app.
  destruct (foldl prog_step ([sock_new], []) (map (fun c => PCall 0 c.1 c.2) calls)) as [objs tr].
  cbn [fst snd] in *. subst objs. cbn [map foldl fst snd].
  unfold closes at 2 in Hcnt. rewrite filter_nil in Hcnt. cbn [length] in Hcnt.
  unfold prog_step. cbn [lookup list_lookup sock_call].
  unfold held in Hcnt.
  rewrite (decide_False (P := so_status sock_new = kInit /\ _)) in Hcnt by (by intros [? _]).
  destruct (decide (so_status s' = kInit)) as [Hi|Hi]; cbn [fst snd].
  - rewrite closes_app. unfold closes at 2. rewrite filter_cons, filter_nil.
    destruct (decide (so_fd s' = fd)) as [<-|Hne].
    + rewrite decide_True in Hcnt by done. rewrite decide_True by done. simpl. lia.
    + rewrite decide_False in Hcnt by naive_solver. rewrite decide_False by naive_solver. simpl. lia.
  - rewrite decide_False in Hcnt by naive_solver. rewrite app_nil_r. lia.
Qed.

(** A second Init forgets the first descriptor. *)
Theorem descriptors_given_back_refuted : ~ descriptors_given_back_full.
Proof. intros H. specialize (H [(OInit, 3%Z); (OInit, 4%Z)] 0%Z 3%Z ltac:(lia)). by vm_compute in H. Qed.

(** After a successful Init every call reaches the kernel with the new descriptor. *)
Theorem opened_is_usable : forall o fd s o' r, opens o -> (0 <= fd)%Z -> ~ opens o' -> o' <> OReadUntil [] ->
  exists c rest, (sock_call o' r (sock_call o fd s).1.2).2 = c :: rest /\
    c ∈ [SysAccept fd; SysListen fd; SysBind fd; SysConnect fd; SysClose fd; SysFcntl fd; SysRecv fd;
         SysSend fd; SysSetsockopt fd; SysGetpeername fd].
Proof.
  intros o fd s o' r Ho Hfd Ho' Hn.
  assert (Hs : (sock_call o fd s).1.2 = Sock fd kInit).
  { destruct Ho as [-> | ->]; cbn [sock_call]; rewrite (proj2 (Z.ltb_ge _ _) Hfd); done. }
  rewrite Hs. destruct o'; try (exfalso; apply Ho'; unfold opens; auto; fail); cbn [sock_call so_fd so_status];
    try (destruct delim; [done|]); try (destruct (r =? -1)%Z); cbn [snd]; do 2 eexists; (split; [done|]); set_solver.
Qed.

Print Assumptions read_until_first_occurrence_partial.
Print Assumptions read_until_succeeds_partial.
Print Assumptions read_until_unfinished_partial.
Print Assumptions read_until_first_occurrence_refuted.
Print Assumptions read_until_throws_iff.
Print Assumptions read_until_blank_line_throws_iff.
Print Assumptions read_until_nul_delim_throws.
Print Assumptions read_until_never_throws_refuted.
Print Assumptions read_delivers_partial.
Print Assumptions read_delivers_text_partial.
Print Assumptions read_complete_is_exact.
Print Assumptions peek_keeps_the_stream.
Print Assumptions read_delivers_refuted.
Print Assumptions closed_is_inert_partial.
Print Assumptions setters_touch_closed_descriptor.
Print Assumptions closed_is_inert_refuted.
Print Assumptions close_closes.
Print Assumptions closed_at_most_once_partial.
Print Assumptions closed_at_most_once_refuted.
Print Assumptions descriptors_given_back_partial.
Print Assumptions descriptors_given_back_refuted.
Print Assumptions opened_is_usable.

(** Non-vacuity. *)
Example ex_good_delim : good_delim CRLFCRLF.
Proof. exists LF. repeat split; by vm_compute. Qed.

Example ex_read_until :
  read_until [] CRLFCRLF (of_bytes (B "GET / HTTP/1.1" ++ CRLFCRLF ++ B "rest") Wait)
    = Ok (18%Z, B "GET / HTTP/1.1" ++ CRLFCRLF, of_bytes (B "rest") Wait).
Proof. by vm_compute. Qed.

Example ex_read_until_hyps :
  ~ early_end CRLFCRLF (B "GET / HTTP/1.1" ++ CRLFCRLF ++ B "rest") /\
  shortest_until CRLFCRLF (B "GET / HTTP/1.1" ++ CRLFCRLF ++ B "rest")
    (B "GET / HTTP/1.1" ++ CRLFCRLF) (B "rest").
Proof.
  split.
  - intros (i & c & [= <-] & Hi & Hlt). simpl in Hlt. do 3 (destruct i as [|i]; [by vm_compute in Hi|]). lia.
  - split; [done|]. split; [by exists (B "GET / HTTP/1.1")|]. intros p Hp [k ->].
    destruct Hp as [q Hq]. assert (Hc : find_idx CRLFCRLF (k ++ CRLFCRLF ++ q) = Some 14).
    { rewrite app_assoc, <- Hq. by vm_compute. }
    apply (f_equal length) in Hq as Hl. rewrite !app_length in Hl. simpl in Hl.
    destruct (find_idx_Some _ _ _ Hc) as (_ & _ & Hm).
    assert (length k = 14) as Hk.
    { destruct (decide (length k < 14)) as [Hx|]; [|lia]. exfalso. apply (Hm (length k) Hx).
      rewrite drop_app. by exists q. }
    assert (q = []) as -> by (apply nil_length_inv; lia). by rewrite app_nil_r in Hq.
Qed.

(** A body cut short by a receive timeout. *)
Example ex_read_gap :
  read_string true 0 5 (Stream (map Byte (B "ab") ++ Gap :: map Byte (B "cde")) Wait)
    = Ok (2%Z, B "ab", of_bytes (B "cde") Wait).
Proof. by vm_compute. Qed.

Example ex_read_some : read_string false 2 5 (of_bytes (B "abcde") Eof) = Ok (2%Z, B "ab", of_bytes (B "cde") Eof).
Proof. by vm_compute. Qed.

Example ex_peek : read_peek 2 5 (of_bytes (B "abcde") Eof) = Ok (2%Z, B "ab", of_bytes (B "abcde") Eof).
Proof. by vm_compute. Qed.

Example ex_single_object :
  (prog_run ([sock_of_fd 4], []) [PCall 0 OWrite 3%Z; PCall 0 OClose 0%Z; PCall 0 OClose 0%Z; PCall 0 ORead 1%Z]).2
    = [SysSend 4; SysClose 4].
Proof. by vm_compute. Qed.

Example ex_given_back :
  let calls := [(OInit, 3%Z); (OConnect, 0%Z); (OClose, 0%Z); (OInit, 3%Z); (OWrite, 7%Z)] in
  opened_when_closed calls /\ times_made 3 calls = 2 /\
  closes 3 (one_object (calls ++ [(OClose, 0%Z)])).2 = 2.
Proof.
  split; [|split; by vm_compute]. intros pre o r mid o' r' post E Ho Hr Ho'.
  assert (Hi : forall x : sop * Z, opens x.1 -> x = (OInit, 3%Z) \/ x ∉ [(OInit, 3%Z); (OConnect, 0%Z); (OClose, 0%Z); (OInit, 3%Z); (OWrite, 7%Z)]).
  { intros [x z] [Hx|Hx]; simpl in Hx; subst x; (destruct (decide (z = 3%Z)) as [->|]; [auto|]); right; set_solver. }
  destruct (Hi (o, r) Ho) as [[= -> ->]|Hno]; [|exfalso; apply Hno; rewrite E; set_solver].
  destruct (Hi (o', r') Ho') as [[= -> ->]|Hno]; [|exfalso; apply Hno; rewrite E; set_solver].
  destruct pre as [|a [|b [|c [|d [|e pre]]]]]; simplify_eq/=;
    destruct mid as [|a' [|b' [|c' [|d' mid]]]]; try (simplify_eq/=; set_solver);
    by destruct pre.
Qed.
Example ex_usable : (sock_call OWrite 5 (sock_call OInit 4 (Sock 3 kClosed)).1.2) = (5%Z, Sock 4 kInit, [SysSend 4]).
Proof. done. Qed.
