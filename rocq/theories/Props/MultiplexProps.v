(** C125-C128, C167: the multiplexers of the other platforms
    (src/cppnet/server/io_multiplexing/select.cpp, kqueue.cpp). *)
From Coq Require Import ZifyBool.
From Verif.Model Require Import Multiplex.

Local Open Scope Z_scope.

Local Ltac by_dec := match goal with |- ?P => apply (bool_decide_unpack P); by vm_compute end.

(** ** The set of a Select object *)

Lemma fd_clr_not_in fd l : fd ∉ l -> fd_clr fd l = l.
Proof.
  induction l as [|x l IH]; intros H; [done|]. apply not_elem_of_cons in H as [H1 H2]. cbn [fd_clr].
  rewrite decide_False by done. by rewrite IH.
Qed.
Lemma fd_clr_length fd l : (length (fd_clr fd l) <= length l)%nat.
Proof. induction l as [|x l IH]; [done|]. cbn [fd_clr]. destruct (decide (x = fd)); simpl; lia. Qed.
Lemma fd_clr_elem fd l x : x ∈ fd_clr fd l -> x ∈ l.
Proof.
  induction l as [|y l IH]; [done|]. cbn [fd_clr]. destruct (decide (y = fd)); [intros; by right|].
  intros H. apply elem_of_cons in H as [->|H]; [by left|right; by apply IH].
Qed.
Lemma fd_clr_nodup fd l : NoDup l -> NoDup (fd_clr fd l) /\ fd ∉ fd_clr fd l.
Proof.
  induction 1 as [|x l Hx HN [IH1 IH2]]; [split; [constructor|apply not_elem_of_nil]|]. cbn [fd_clr].
  destruct (decide (x = fd)) as [->|Hne]; [done|]. split.
  - constructor; [|done]. intros H. by apply fd_clr_elem in H.
  - apply not_elem_of_cons. split; [congruence|done].
Qed.
(** Removing another socket leaves [x] where it is, or moves it one place down. *)
Lemma fd_clr_pos fd l p x : l !! p = Some x -> x <> fd ->
  exists q, fd_clr fd l !! q = Some x /\ (q <= p <= S q)%nat.
Proof.
  revert p. induction l as [|y l IH]; intros p Hp Hx; [done|]. cbn [fd_clr].
  destruct (decide (y = fd)) as [->|Hy].
  - destruct p as [|p]; [by injection Hp as ->|]. exists p. split; [done|lia].
  - destruct p as [|p]; [exists O; split; [done|lia]|]. destruct (IH p Hp Hx) as (q & Hq & Hl).
    exists (S q). split; [done|lia].
Qed.

(** ** C127 *)

(** A socket for which MonitorSoc reports success is monitored. *)
Definition monitor_means_monitored_full : Prop := forall fd s s',
  sel_monitor fd s = (0, s') -> fd ∈ sl_set s'.

(** Missing: the 65th socket. *)
Theorem monitor_means_monitored_partial : forall fd s s',
  sel_monitor fd s = (0, s') -> (length (sl_set s) < 64)%nat \/ fd ∈ sl_set s ->
  fd ∈ sl_set s' /\ (forall x, x ∈ sl_set s' <-> x ∈ sl_set s \/ x = fd) /\
  (NoDup (sl_set s) -> NoDup (sl_set s')).
Proof.
  intros fd s s' [= <-] H. cbn [sl_set]. unfold fd_add. destruct (decide (fd ∈ sl_set s)) as [Hi|Hi].
  - split; [done|]. split; [|done]. intros x. split; [by left|]. intros [?| ->]; done.
  - destruct H as [H|H]; [|done]. change FD_SETSIZE with 64%nat. rewrite (proj2 (Nat.ltb_lt _ _) H). split; [apply elem_of_app; right; by left|]. split.
    + intros x. rewrite elem_of_app, elem_of_list_singleton. done.
    + intros HN. apply NoDup_app. split; [done|]. split; [|apply NoDup_singleton].
      intros x Hx Hx'. apply elem_of_list_singleton in Hx'. by subst.
Qed.

(** The number of sockets is never more than 64. *)
Definition sixty_four : list Z := map Z.of_nat (seq 3 64).
Theorem monitor_means_monitored_refuted : ~ monitor_means_monitored_full.
Proof.
  intros H. specialize (H 67 (Sel sixty_four true) _ eq_refl). apply (bool_decide_pack (67 ∈ fd_add 67 sixty_four)) in H. by vm_compute in H.
Qed.

Example monitor_ex : exists s', sel_monitor 9 (Sel [3; 7] true) = (0, s') /\ sl_set s' = [3; 7; 9].
Proof. eexists. split; [reflexivity|]. by vm_compute. Qed.

(** ** C125 *)
Section select.
Context {U : Type}.
Implicit Types (cb : U -> Z -> ioev -> U * list cbop) (u : U).

(** Callbacks for other sockets do not remove [fd]. *)
Definition left_alone (cb : U -> Z -> ioev -> U * list cbop) (fd : Z) : Prop :=
  forall u x e, x <> fd -> ORemove fd ∉ (cb u x e).2.
(** Callbacks remove nothing. *)
Definition removes_nothing (cb : U -> Z -> ioev -> U * list cbop) : Prop :=
  forall u x e fd, ORemove fd ∉ (cb u x e).2.

Lemma ops_extend ops s : (forall fd, ORemove fd ∉ ops) -> exists l,
  sl_set (foldl sel_op s ops) = sl_set s ++ l /\ (forall x, x ∈ l -> x ∉ sl_set s).
Proof.
  revert s. induction ops as [|o ops IH]; intros s H.
  { exists []. rewrite app_nil_r. split; [done|]. intros x Hx. by apply elem_of_nil in Hx. }
  cbn [foldl].
  assert (H1 : forall fd, ORemove fd ∉ ops).
  { intros fd Hf. apply (H fd). by right. }
  destruct (IH (sel_op s o) H1) as (l & -> & Hl). destruct o as [fd|fd|].
  - cbn in *. unfold fd_add in *. destruct (decide (fd ∈ sl_set s)); [by exists l|]. destruct (_ <? _)%nat; [|by exists l].
    exists ([fd] ++ l). split; [by rewrite app_assoc|]. intros x Hx. apply elem_of_cons in Hx as [->|Hx]; [done|].
    specialize (Hl x Hx). rewrite elem_of_app in Hl. tauto.
  - exfalso. apply (H fd). by left.
  - by exists l.
Qed.

(** Position of [fd] after some operations that do not remove it. *)
Lemma ops_pos ops s fd p : ORemove fd ∉ ops -> sl_set s !! p = Some fd ->
  exists q, sl_set (foldl sel_op s ops) !! q = Some fd /\ (q <= p)%nat.
Proof.
  revert s p. induction ops as [|o ops IH]; intros s p H Hp; [by exists p|]. cbn [foldl].
  apply not_elem_of_cons in H as [Ho H].
  assert (H1 : exists q, sl_set (sel_op s o) !! q = Some fd /\ (q <= p)%nat).
  { destruct o as [x|x|]; cbn.
    - exists p. split; [|done]. unfold fd_add. destruct (decide (x ∈ sl_set s)); [done|]. destruct (_ <? _)%nat; [|done].
      by apply lookup_app_l_Some.
    - destruct (fd_clr_pos x (sl_set s) p fd Hp) as (q & Hq & Hl); [congruence|]. exists q. split; [done|lia].
    - by exists p. }
  destruct H1 as (q & Hq & Hl). destruct (IH _ _ H Hq) as (q' & Hq' & Hl'). exists q'. split; [done|lia].
Qed.
End select.

(** Every monitored socket that is ready is reported. *)
Definition all_ready_reported_full : Prop := forall U (cb : U -> Z -> ioev -> U * list cbop) s u ev peek notes s' u' fd,
  (length (sl_set s) <= 64)%nat -> NoDup (sl_set s) -> fd ∈ sl_set s -> fd ∈ ev -> left_alone cb fd ->
  sel_pass ev peek cb s u = (notes, s', u') -> fd ∈ map fst notes.

Lemma pass_scan {U} n : n = FD_SETSIZE -> forall (cb : U -> Z -> ioev -> U * list cbop) ev peek s u,
  sel_pass ev peek cb s u = sel_scan n ev peek cb s u.
Proof. by intros ->. Qed.
Lemma scan_adds {U} (cb : U -> Z -> ioev -> U * list cbop) ev peek l0 n : removes_nothing cb ->
  (length l0 <= 64)%nat -> (forall x, x ∈ ev -> x ∈ l0) -> forall s u notes s' u' l,
  (n <= 64)%nat -> sl_set s = l0 ++ l -> (forall x, x ∈ l -> x ∉ ev) ->
  sel_scan n ev peek cb s u = (notes, s', u') ->
  map fst notes = filter (fun x => x ∈ ev) (drop (64 - n) l0).
Proof.
  intros Hcb H0 Hev. induction n as [|n IH]; intros s u notes s' u' l Hn Hs Hl H; cbn [sel_scan] in H.
  { injection H as <- <- <-. rewrite drop_ge by lia. done. }
  set (i := (FD_SETSIZE - S n)%nat) in *. assert (Hi : (64 - S n = i)%nat) by done. rewrite Hi in *.
  assert (Hi' : (64 - n = S i)%nat) by (unfold i, FD_SETSIZE in *; lia). rewrite Hi' in IH.
  destruct (sl_set s !! i) as [fd|] eqn:E; rewrite Hs in E.
  2:{ injection H as <- <- <-. apply lookup_ge_None in E. rewrite app_length in E. rewrite drop_ge by lia. done. }
  destruct (decide (fd ∈ ev)) as [Hf|Hf].
  - destruct (cb u fd _) as [u1 ops] eqn:Ec.
    destruct (sel_scan n ev peek cb (foldl sel_op s ops) u1) as [[notes' s1] u2] eqn:Es. injection H as <- <- <-.
    assert (E0 : l0 !! i = Some fd).
    { apply lookup_app_Some in E as [E|[_ E]]; [done|]. apply elem_of_list_lookup_2 in E. by apply Hl in E. }
    rewrite (drop_S _ _ _ E0), filter_cons, decide_True by done. cbn [map fst]. f_equal.
    destruct (ops_extend ops s) as (l1 & Hl1 & Hn1).
    { intros x. pose proof (Hcb u fd (peek_event (peek i)) x) as Hx. by rewrite Ec in Hx. }
    eapply (IH _ _ _ _ _ (l ++ l1)); [lia|by rewrite Hl1, Hs, app_assoc| |done].
    intros x Hx Hxe. apply elem_of_app in Hx as [Hx|Hx]; [by apply (Hl x)|].
    apply (Hn1 x Hx). rewrite Hs. apply elem_of_app. left. by apply Hev.
  - rewrite (IH _ _ _ _ _ l ltac:(lia) Hs Hl H).
    destruct (l0 !! i) as [y|] eqn:E0.
    + rewrite (drop_S _ _ _ E0), filter_cons. rewrite lookup_app_l in E by (by apply lookup_lt_Some in E0).
      assert (y = fd) as -> by congruence. by rewrite decide_False.
    + apply lookup_ge_None in E0. rewrite !drop_ge by lia. done.
Qed.

(** Missing: callbacks that remove a socket, as for a peer that leaves: the next one
    is passed over.  (It is reported later, C126.) *)
Theorem all_ready_reported_partial : forall U (cb : U -> Z -> ioev -> U * list cbop) s u ev peek notes s' u',
  (length (sl_set s) <= 64)%nat -> (forall x, x ∈ ev -> x ∈ sl_set s) -> removes_nothing cb ->
  sel_pass ev peek cb s u = (notes, s', u') -> map fst notes = filter (fun x => x ∈ ev) (sl_set s).
Proof.
  intros U cb s u ev peek notes s' u' H0 Hev Hcb H.
  rewrite (pass_scan FD_SETSIZE eq_refl) in H.
  assert (E : (64 - FD_SETSIZE = 0)%nat) by (unfold FD_SETSIZE; lia).
  pose proof (scan_adds cb ev peek (sl_set s) FD_SETSIZE Hcb H0 Hev s u notes s' u' []) as HS.
  rewrite E, drop_0 in HS. apply HS; [| | |exact H].
  - unfold FD_SETSIZE. lia.
  - by rewrite app_nil_r.
  - intros x Hx. by apply elem_of_nil in Hx.
Qed.

(** What is reported is monitored and ready, and the event is what ReadPeek says. *)
Theorem reported_is_ready : forall U (cb : U -> Z -> ioev -> U * list cbop) s u ev peek notes s' u' fd e,
  sel_pass ev peek cb s u = (notes, s', u') -> (fd, e) ∈ notes ->
  fd ∈ ev /\ exists i, e = peek_event (peek i).
Proof.
  intros U cb s u ev peek notes s' u' fd e. rewrite (pass_scan FD_SETSIZE eq_refl). generalize FD_SETSIZE at 1 as n. intros n.
  revert s u notes s' u'. induction n as [|n IH]; intros s u notes s' u' H Hin; cbn [sel_scan] in H.
  { injection H as <- <- <-. by apply elem_of_nil in Hin. }
  destruct (sl_set s !! _) as [x|]; [|injection H as <- <- <-; by apply elem_of_nil in Hin].
  destruct (decide (x ∈ ev)) as [Hx|Hx]; [|by eapply IH].
  destruct (cb u x _) as [u1 ops]. destruct (sel_scan n ev peek cb _ u1) as [[notes' s1] u2] eqn:Es.
  injection H as <- <- <-. apply elem_of_cons in Hin as [[= -> ->]|Hin]; [|by eapply IH].
  split; [done|]. by eexists.
Qed.

Example reported_ex : 7 ∈ [7; 4] /\ exists i : nat, ioRead = peek_event ((fun _ => 1) i).
Proof.
  apply (reported_is_ready nat (fun n fd _ => (S n, [OMonitor (fd + 10)])) (Sel [4; 5; 7] true) 0%nat [7; 4] (fun _ => 1)
    [(4, ioRead); (7, ioRead)] (Sel [4; 5; 7; 14; 17] true) 2%nat); [by vm_compute|right; by left].
Qed.

(** A callback like that of TcpServer: a socket whose peer has left is removed. *)
Definition drop_left : unit -> Z -> ioev -> unit * list cbop := fun _ fd e =>
  (tt, match e with ioRead => [] | _ => [ORemove fd] end).
Theorem all_ready_reported_refuted : ~ all_ready_reported_full.
Proof.
  intros H.
  specialize (H unit drop_left (Sel [4; 5; 6] true) tt [4; 5] (fun i => if (i =? 0)%nat then 0 else 1)
    [(4, ioLeave)] (Sel [5; 6] true) tt 5).
  assert (E : 5 ∈ map fst [(4, ioLeave)]); [|apply elem_of_list_singleton in E; done].
  apply H.
  - cbn. lia.
  - by_dec.
  - by_dec.
  - by_dec.
  - intros u x e Hx. cbn. destruct e; apply not_elem_of_cons || apply not_elem_of_nil; (split; [congruence|apply not_elem_of_nil]).
  - by vm_compute.
Qed.

Example all_ready_ex : exists s' u', sel_pass [7; 4] (fun _ => 1) drop_left (Sel [4; 5; 7] true) tt
  = ([(4, ioRead); (7, ioRead)], s', u').
Proof. do 2 eexists. by vm_compute. Qed.
Definition only_monitors : nat -> Z -> ioev -> nat * list cbop := fun n fd _ => (S n, [OMonitor (fd + 10)]).
Example all_ready_partial_ex : exists notes s' u',
  sel_pass [7; 4] (fun _ => 1) only_monitors (Sel [4; 5; 7] true) 0%nat = (notes, s', u') /\ map fst notes = [4; 7].
Proof.
  do 3 eexists. split; [by vm_compute|].
  change [4; 7] with (filter (fun x => x ∈ [7; 4]) (sl_set (Sel [4; 5; 7] true))).
  eapply (all_ready_reported_partial nat only_monitors (Sel [4; 5; 7] true) 0%nat [7; 4] (fun _ => 1)).
  - cbn. lia.
  - intros x Hx. rewrite !elem_of_cons in Hx. cbn. rewrite !elem_of_cons. tauto.
  - intros u x e fd Hx. cbn in Hx. by apply elem_of_list_singleton in Hx.
  - by vm_compute.
Qed.

(** ** C126 *)

(** In a pass a ready socket is reported, or comes nearer to the front. *)
Lemma scan_advances {U} (cb : U -> Z -> ioev -> U * list cbop) ev peek fd p n : left_alone cb fd -> fd ∈ ev ->
  forall s u notes s' u' q, (n <= 64)%nat -> (length (sl_set s) <= 64)%nat ->
  sl_set s !! q = Some fd -> (q <= p)%nat -> (64 - n <= q \/ q < p)%nat ->
  sel_scan n ev peek cb s u = (notes, s', u') ->
  fd ∈ map fst notes \/ exists q', sl_set s' !! q' = Some fd /\ (q' < p)%nat.
Proof.
  intros Hcb Hev. induction n as [|n IH]; intros s u notes s' u' q Hn Hlen Hq Hp Hor H; cbn [sel_scan] in H.
  { injection H as <- <- <-. right. exists q. split; [done|]. destruct Hor as [Hor|]; [|done].
    apply lookup_lt_Some in Hq. lia. }
  set (i := (FD_SETSIZE - S n)%nat) in *. assert (Hi : (64 - S n = i)%nat) by done. rewrite Hi in *.
  assert (Hi' : (64 - n = S i)%nat) by (unfold i, FD_SETSIZE in *; lia). rewrite Hi' in IH.
  destruct (sl_set s !! i) as [x|] eqn:E.
  2:{ injection H as <- <- <-. right. exists q. split; [done|]. apply lookup_ge_None in E. apply lookup_lt_Some in Hq. lia. }
  destruct (decide (x ∈ ev)) as [Hx|Hx].
  2:{ assert (q <> i) by congruence. eapply (IH _ _ _ _ _ q); [lia|done|done|done|lia|done]. }
  destruct (cb u x _) as [u1 ops] eqn:Ec.
  destruct (sel_scan n ev peek cb (foldl sel_op s ops) u1) as [[notes' s1] u2] eqn:Es. injection H as <- <- <-.
  cbn [map fst]. destruct (decide (x = fd)) as [->|Hne]; [left; by left|].
  assert (Hops : ORemove fd ∉ ops).
  { pose proof (Hcb u x (peek_event (peek i)) Hne) as Hx'. by rewrite Ec in Hx'. }
  destruct (ops_pos ops s fd q Hops Hq) as (q' & Hq' & Hl').
  assert (Hqi : q <> i) by congruence.
  destruct (IH (foldl sel_op s ops) u1 notes' s1 u2 q') as [Hin|Hin]; [lia| |done|lia|lia|done|left; by right|by right].
  clear -Hlen. revert s Hlen. induction ops as [|o ops IH]; intros s Hlen; [done|]. cbn [foldl]. apply IH.
  destruct o as [x|x|]; cbn; [|pose proof (fd_clr_length x (sl_set s)); lia|done].
  unfold fd_add. destruct (decide _); [done|]. destruct (Nat.ltb_spec (length (sl_set s)) FD_SETSIZE) as [Hlt|]; [|done].
  rewrite app_length. unfold FD_SETSIZE in Hlt. cbn. lia.
Qed.

Lemma scan_length {U} (cb : U -> Z -> ioev -> U * list cbop) ev peek n : forall s u notes s' u',
  (length (sl_set s) <= 64)%nat -> sel_scan n ev peek cb s u = (notes, s', u') -> (length (sl_set s') <= 64)%nat.
Proof.
  induction n as [|n IH]; intros s u notes s' u' Hlen H; cbn [sel_scan] in H; [by injection H as <- <- <-|].
  destruct (sl_set s !! _) as [x|]; [|by injection H as <- <- <-].
  destruct (decide (x ∈ ev)); [|by eapply IH]. destruct (cb u x _) as [u1 ops].
  destruct (sel_scan n ev peek cb (foldl sel_op s ops) u1) as [[notes' s1] u2] eqn:Es. injection H as <- <- <-.
  eapply IH; [|done]. clear -Hlen. revert s Hlen. induction ops as [|o ops IH]; intros s Hlen; [done|]. cbn [foldl]. apply IH.
  destruct o as [x|x|]; cbn; [|pose proof (fd_clr_length x (sl_set s)); lia|done].
  unfold fd_add. destruct (decide _); [done|]. destruct (Nat.ltb_spec (length (sl_set s)) FD_SETSIZE) as [Hlt|]; [|done].
  rewrite app_length. unfold FD_SETSIZE in Hlt. cbn. lia.
Qed.

(** select(2) reports [fd]. *)
Definition ready_round (fd : Z) (r : sround) : Prop := match r with SReady ev _ => fd ∈ ev | SFail => False end.

(** A socket that stays ready is reported within as many rounds as it has sockets
    before it, and one more, unless the loop is stopped. *)
Theorem ready_is_reported_soon : forall U (cb : U -> Z -> ioev -> U * list cbop) rs s u notes s' u' rc fd p,
  sel_loop rs cb s u = (notes, s', u', rc) -> rc <> Some 0 ->
  left_alone cb fd -> (length (sl_set s) <= 64)%nat -> sl_set s !! p = Some fd ->
  Forall (ready_round fd) rs -> (p < length rs)%nat -> fd ∈ map fst (concat notes).
Proof.
  intros U cb rs. induction rs as [|r rs IH]; intros s u notes s' u' rc fd p H Hrc Hcb Hlen Hp HF Hl; [cbn in Hl; lia|].
  cbn [sel_loop] in H. apply Forall_cons in HF as [Hr HF]. destruct r as [|ev peek]; [done|]. cbn in Hr.
  destruct (sl_flag s); [|injection H as <- <- <- <-; done].
  destruct (sel_pass ev peek cb s u) as [[notes1 s1] u1] eqn:E1.
  destruct (sel_loop rs cb s1 u1) as [[[more s2] u2] rc'] eqn:E2. injection H as <- <- <- <-.
  cbn [concat]. rewrite map_app, elem_of_app.
  rewrite (pass_scan FD_SETSIZE eq_refl) in E1.
  assert (H0 : (FD_SETSIZE <= 64)%nat) by (unfold FD_SETSIZE; lia).
  assert (H1 : (64 - FD_SETSIZE <= p \/ p < p)%nat) by (unfold FD_SETSIZE; lia).
  destruct (scan_advances cb ev peek fd p FD_SETSIZE Hcb Hr s u notes1 s1 u1 p H0 Hlen Hp (Nat.le_refl p) H1 E1)
    as [Hin|(q & Hq & Hlt)]; [by left|right].
  eapply (IH s1 u1 more s2 u2 rc' fd q); [exact E2|exact Hrc|exact Hcb| |exact Hq|exact HF|].
  - exact (scan_length cb ev peek FD_SETSIZE s u notes1 s1 u1 Hlen E1).
  - cbn in Hl. lia.
Qed.

Example soon_ex : 5 ∈ map fst (concat [[(4, ioLeave)]; [(5, ioRead); (6, ioRead)]]).
Proof.
  eapply (ready_is_reported_soon unit drop_left [SReady [4; 5] (fun i => if (i =? 0)%nat then 0 else 1); SReady [5; 6] (fun _ => 1)]
    (Sel [4; 5; 6] true) tt _ (Sel [5; 6] true) tt None 5 1).
  - by vm_compute.
  - done.
  - intros u x e Hx. cbn. destruct e; apply not_elem_of_cons || apply not_elem_of_nil; (split; [congruence|apply not_elem_of_nil]).
  - cbn. lia.
  - done.
  - repeat constructor; cbn; by_dec.
  - cbn. lia.
Qed.

(** ** C128 *)

(** An answer of kevent and an answer of epoll_wait that say the same. *)
Inductive same_event : Z * kev -> Z * mask -> Prop :=
| same_ev fd eof err rd : same_event (fd, KEv eof err rd) (fd, Mask rd eof err).
Inductive same_round : kround -> eround -> Prop :=
| same_fail intr : same_round (KFail intr) (EFail intr)
| same_events l l' : Forall2 same_event l l' -> same_round (KEvents l) (EEvents l').

(** The same program sees the same on macOS as on Linux. *)
Definition portable_full : Prop := forall U (cb : U -> Z -> ioev -> U * list cbop) rs rs' flag u,
  Forall2 same_round rs rs' -> kq_loop rs cb flag u = ep_loop rs' cb flag u.

Lemma batch_same {U} (cb : U -> Z -> ioev -> U * list cbop) l l' : Forall2 same_event l l' ->
  forall flag u, kq_batch l cb flag u = ep_batch l' cb flag u.
Proof.
  induction 1 as [|x y l l' Hxy HF IH]; intros flag u; [done|]. destruct Hxy as [fd eof err rd]. cbn [kq_batch ep_batch].
  unfold kq_decode, decode. cbn. destruct eof, err, rd; try apply IH; destruct (cb u fd _); by rewrite IH.
Qed.

(** Missing: signals.  They end the loop on macOS. *)
Theorem portable_partial : forall U (cb : U -> Z -> ioev -> U * list cbop) rs rs' flag u,
  Forall2 same_round rs rs' -> KFail true ∉ rs -> kq_loop rs cb flag u = ep_loop rs' cb flag u.
Proof.
  intros U cb rs rs' flag u H. revert flag u. induction H as [|r r' rs rs' Hr HF IH]; intros flag u Hn; [done|].
  apply not_elem_of_cons in Hn as [Hn1 Hn2].
  destruct Hr as [[]|l l' Hl]; [done|done|]. cbn [kq_loop ep_loop]. destruct flag; [|done].
  rewrite (batch_same cb l l' Hl). destruct (ep_batch l' cb true u) as [[notes f1] u1]. by rewrite IH.
Qed.
Theorem portable_refuted : ~ portable_full.
Proof.
  intros H. specialize (H unit drop_left [KFail true] [EFail true] true tt ltac:(repeat constructor)). by vm_compute in H.
Qed.
Example portable_ex : ep_loop [EEvents [(5, Mask true false false); (6, Mask true true false)]; EFail false] drop_left true tt
  = ([[(5, ioRead); (6, ioLeave)]], true, tt, Some (-1)).
Proof.
  rewrite <- (portable_partial unit drop_left [KEvents [(5, KEv false false true); (6, KEv true false true)]; KFail false]).
  - by vm_compute.
  - repeat constructor.
  - intros H. rewrite !elem_of_cons in H. destruct H as [|[|H]]; [done|done|by apply elem_of_nil in H].
Qed.

(** The time-out of the loop: how long a call of epoll_wait with this argument waits
    at most (in milliseconds; [None]: for ever), and a call of kevent. *)
Definition epoll_waits (t : Z) : option Z := if t <? 0 then None else Some t.
Definition kevent_waits (ts : option (Z * Z)) : option Z :=
  match ts with None => None | Some (s, ns) => Some (s * 1000 + ns / 1000000) end.

Definition same_timeout_full : Prop := forall t, - 2 ^ 31 <= t < 2 ^ 31 ->
  kevent_waits (kq_timeout t) = epoll_waits t.

(** Missing: 0, which means not to wait on Linux and to wait for ever on macOS. *)
Theorem same_timeout_partial : forall t, - 2 ^ 31 <= t < 2 ^ 31 -> t <> 0 ->
  kevent_waits (kq_timeout t) = epoll_waits t /\
  (forall s ns, kq_timeout t = Some (s, ns) -> 0 <= s /\ 0 <= ns < 1000000000).
Proof.
  intros t Ht Hz. unfold kq_timeout, epoll_waits. destruct (Z.ltb_spec 0 t), (Z.ltb_spec t 0); try lia.
  - rewrite Z.quot_div_nonneg, Z.rem_mod_nonneg by lia. pose proof (Z.mod_pos_bound t 1000 ltac:(lia)).
    split.
    + cbn. rewrite Z.div_mul by lia. f_equal. pose proof (Z.div_mod t 1000 ltac:(lia)). lia.
    + intros s ns [= <- <-]. pose proof (Z.div_pos t 1000 ltac:(lia) ltac:(lia)). lia.
  - split; [done|]. intros s ns Hx. done.
Qed.
Theorem same_timeout_refuted : ~ same_timeout_full.
Proof. intros H. specialize (H 0 ltac:(lia)). by vm_compute in H. Qed.
Example same_timeout_ex : kevent_waits (kq_timeout 2500) = Some 2500 /\ kevent_waits (kq_timeout (-1)) = None.
Proof.
  rewrite (proj1 (same_timeout_partial 2500 ltac:(lia) ltac:(lia))), (proj1 (same_timeout_partial (-1) ltac:(lia) ltac:(lia))).
  by vm_compute.
Qed.

(** ** C167 *)

Local Instance cbop_eq_dec : EqDecision cbop.
Proof. solve_decision. Defined.

(** The calls of the callback one after the other: the state in the end, and whether
    one of them called Stop. *)
Fixpoint replay {U} (cb : U -> Z -> ioev -> U * list cbop) (u : U) (notes : list (Z * ioev)) : U * bool :=
  match notes with
  | [] => (u, false)
  | (fd, e) :: l => let r := replay cb (cb u fd e).1 l in (r.1, bool_decide (OStop ∈ (cb u fd e).2) || r.2)
  end.

(** A loop that reported [rounds] and then returned [rc] (or still runs): it returns 0
    if Stop was called, but in the last round only, which is finished; -1 if the call
    of the operating system [failed]; otherwise it has used up all [answers]. *)
Definition ends_well {U} (cb : U -> Z -> ioev -> U * list cbop) (u : U) (rounds : list (list (Z * ioev))) (u' : U)
    (rc : option Z) (failed used_up : Prop) : Prop :=
  (replay cb u (concat rounds)).1 = u' /\
  ((rc = Some 0 /\ exists before last, rounds = before ++ [last] /\
      (replay cb u (concat before)).2 = false /\ (replay cb u (concat rounds)).2 = true) \/
   (rc = Some (-1) /\ (replay cb u (concat rounds)).2 = false /\ failed) \/
   (rc = None /\ (replay cb u (concat rounds)).2 = false /\ used_up)).

Lemma replay_app {U} (cb : U -> Z -> ioev -> U * list cbop) l l' u :
  replay cb u (l ++ l') = ((replay cb (replay cb u l).1 l').1, (replay cb u l).2 || (replay cb (replay cb u l).1 l').2).
Proof.
  revert u. induction l as [|[fd e] l IH]; intros u; cbn [app replay fst snd].
  - by destruct (replay cb u l').
  - rewrite IH. cbn [fst snd]. by rewrite orb_assoc.
Qed.

Lemma ends_more {U} (cb : U -> Z -> ioev -> U * list cbop) u u1 notes rounds u' rc (failed used_up failed' used_up' : Prop) :
  replay cb u notes = (u1, false) -> (failed -> failed') -> (used_up -> used_up') ->
  ends_well cb u1 rounds u' rc failed used_up -> ends_well cb u (notes :: rounds) u' rc failed' used_up'.
Proof.
  intros Hr Hf Hu (H1 & H2). unfold ends_well. cbn [concat]. rewrite replay_app, Hr. cbn [fst snd orb].
  split; [done|]. destruct H2 as [(-> & before & last & -> & H3 & H4)|[(-> & ? & ?)|(-> & ? & ?)]].
  - left. split; [done|]. exists (notes :: before), last. split; [done|]. cbn [concat]. rewrite replay_app, Hr. by cbn [fst snd orb].
  - right; left. auto.
  - right; right. auto.
Qed.
Lemma ends_now {U} (cb : U -> Z -> ioev -> U * list cbop) u u1 notes (failed used_up : Prop) :
  replay cb u notes = (u1, true) -> ends_well cb u [notes] u1 (Some 0) failed used_up.
Proof.
  intros Hr. unfold ends_well. cbn [concat]. rewrite app_nil_r, Hr. split; [done|]. left. split; [done|].
  exists [], notes. done.
Qed.

Lemma ops_flag ops s : sl_flag (foldl sel_op s ops) = sl_flag s && negb (bool_decide (OStop ∈ ops)).
Proof.
  revert s. induction ops as [|o ops IH]; intros s; cbn [foldl]; [by destruct (sl_flag s)|].
  rewrite IH. destruct o as [fd|fd|]; cbn [sel_op sel_monitor sel_remove snd sl_flag].
  1,2: f_equal; f_equal; apply bool_decide_ext; rewrite elem_of_cons; naive_solver.
  rewrite (bool_decide_eq_true_2 (OStop ∈ OStop :: ops)) by (apply elem_of_cons; by left). by destruct (sl_flag s).
Qed.
Lemma scan_replay {U} (cb : U -> Z -> ioev -> U * list cbop) ev peek n : forall s u notes s' u',
  sel_scan n ev peek cb s u = (notes, s', u') ->
  (replay cb u notes).1 = u' /\ sl_flag s' = sl_flag s && negb (replay cb u notes).2.
Proof.
  induction n as [|n IH]; intros s u notes s' u'; cbn [sel_scan].
  { intros [= <- <- <-]. cbn. by destruct (sl_flag s). }
  destruct (sl_set s !! _) as [fd|]; [|intros [= <- <- <-]; cbn; by destruct (sl_flag s)].
  destruct (decide (fd ∈ ev)); [|apply IH].
  generalize (peek_event (peek (FD_SETSIZE - S n)%nat)). intros ev1.
  destruct (cb u fd ev1) as [u1 ops] eqn:Ec. destruct (sel_scan n ev peek cb (foldl sel_op s ops) u1) as [[l s2] u2] eqn:E.
  intros [= <- <- <-]. destruct (IH _ _ _ _ _ E) as [H1 H2]. cbn [replay]. rewrite Ec. cbn [fst snd]. split; [done|].
  rewrite H2, ops_flag, negb_orb. by rewrite andb_assoc.
Qed.

(** Windows. *)
Theorem select_loop_ends : forall U (cb : U -> Z -> ioev -> U * list cbop) rs s u rounds s' u' rc,
  sl_flag s = true -> sel_loop rs cb s u = (rounds, s', u', rc) ->
  ends_well cb u rounds u' rc (rs !! length rounds = Some SFail) (length rounds = length rs).
Proof.
  intros U cb rs. induction rs as [|r rs IH]; intros s u rounds s' u' rc Hf; cbn [sel_loop]; rewrite Hf.
  { intros [= <- <- <- <-]. split; [done|]. by right; right. }
  destruct r as [|ev peek]. { intros [= <- <- <- <-]. split; [done|]. by right; left. }
  destruct (sel_pass ev peek cb s u) as [[notes s1] u1] eqn:E.
  remember FD_SETSIZE as n eqn:Hn. rewrite (pass_scan n Hn) in E.
  destruct (scan_replay _ _ _ n _ _ _ _ _ E) as [H1 H2]. clear E. rewrite Hf in H2. cbn [andb] in H2.
  destruct (sel_loop rs cb s1 u1) as [[[more s2] u2] rc2] eqn:El. intros [= <- <- <- <-].
  destruct (replay cb u notes) as [u1' st] eqn:Er. cbn [fst snd] in H1, H2. subst u1'.
  destruct st; cbn [negb] in H2.
  - assert (Hx : ([], s1, u1, Some 0) = (more, s2, u2, rc2)) by (destruct rs; cbn [sel_loop] in El; by rewrite H2 in El).
    injection Hx as <- <- <- <-. by apply ends_now.
  - eapply ends_more; [exact Er| | |by eapply IH]; cbn [length]; [done|]. intros ->. done.
Qed.

Lemma existsb_stop ops : existsb (λ o, match o with OStop => true | _ => false end) ops = bool_decide (OStop ∈ ops).
Proof.
  induction ops as [|o ops IH]; [done|]. cbn [existsb]. rewrite IH. destruct o; cbn [orb].
  1,2: apply bool_decide_ext; rewrite elem_of_cons; naive_solver.
  rewrite (bool_decide_eq_true_2 (OStop ∈ OStop :: ops)) by (apply elem_of_cons; by left). done.
Qed.
Lemma ep_replay {U} (cb : U -> Z -> ioev -> U * list cbop) evs : forall flag u notes f' u',
  ep_batch evs cb flag u = (notes, f', u') -> (replay cb u notes).1 = u' /\ f' = flag && negb (replay cb u notes).2.
Proof.
  induction evs as [|[fd k] evs IH]; intros flag u notes f' u'; cbn [ep_batch].
  { intros [= <- <- <-]. cbn. by destruct flag. }
  destruct (decode k) as [e|]; [|apply IH]. destruct (cb u fd e) as [u1 ops] eqn:Ec. rewrite existsb_stop.
  destruct (ep_batch evs cb _ u1) as [[l f2] u2] eqn:E. intros [= <- <- <-]. destruct (IH _ _ _ _ _ E) as [H1 H2].
  cbn [replay]. rewrite Ec. cbn [fst snd]. split; [done|]. by rewrite H2, negb_orb, andb_assoc.
Qed.
Lemma kq_replay {U} (cb : U -> Z -> ioev -> U * list cbop) evs : forall flag u notes f' u',
  kq_batch evs cb flag u = (notes, f', u') -> (replay cb u notes).1 = u' /\ f' = flag && negb (replay cb u notes).2.
Proof.
  induction evs as [|[fd k] evs IH]; intros flag u notes f' u'; cbn [kq_batch].
  { intros [= <- <- <-]. cbn. by destruct flag. }
  destruct (kq_decode k) as [e|]; [|apply IH]. destruct (cb u fd e) as [u1 ops] eqn:Ec. rewrite existsb_stop.
  destruct (kq_batch evs cb _ u1) as [[l f2] u2] eqn:E. intros [= <- <- <-]. destruct (IH _ _ _ _ _ E) as [H1 H2].
  cbn [replay]. rewrite Ec. cbn [fst snd]. split; [done|]. by rewrite H2, negb_orb, andb_assoc.
Qed.

(** The answers that are not interruptions by a signal. *)
Fixpoint not_signals (rs : list eround) : list eround :=
  match rs with
  | [] => []
  | EFail true :: l => not_signals l
  | r :: l => r :: not_signals l
  end.

(** Linux. *)
Theorem epoll_loop_ends : forall U (cb : U -> Z -> ioev -> U * list cbop) rs u rounds f' u' rc,
  ep_loop rs cb true u = (rounds, f', u', rc) ->
  ends_well cb u rounds u' rc (not_signals rs !! length rounds = Some (EFail false)) (length rounds = length (not_signals rs)).
Proof.
  intros U cb rs. induction rs as [|r rs IH]; intros u rounds f' u' rc; cbn [ep_loop].
  { intros [= <- <- <- <-]. split; [done|]. by right; right. }
  destruct r as [[]|evs].
  { apply IH. }
  { intros [= <- <- <- <-]. split; [done|]. by right; left. }
  cbn [not_signals].
  destruct (ep_batch evs cb true u) as [[notes f1] u1] eqn:E.
  destruct (ep_replay _ _ _ _ _ _ _ E) as [H1 H2]. cbn [andb] in H2.
  destruct (ep_loop rs cb f1 u1) as [[[more f2] u2] rc2] eqn:El. intros [= <- <- <- <-].
  destruct (replay cb u notes) as [u1' st] eqn:Er. cbn [fst snd] in H1, H2. subst u1' f1.
  destruct st; cbn [negb] in El.
  - assert (Hx : ([], false, u1, Some 0) = (more, f2, u2, rc2)) by (destruct rs; exact El).
    injection Hx as <- <- <- <-. by apply ends_now.
  - eapply ends_more; [exact Er| | |by eapply IH]; cbn [length]; [done|]. intros ->. done.
Qed.

(** macOS: the same, were it not for signals. *)
Definition kqueue_loop_ends_full : Prop := forall U (cb : U -> Z -> ioev -> U * list cbop) rs u rounds f' u' rc,
  kq_loop rs cb true u = (rounds, f', u', rc) ->
  ends_well cb u rounds u' rc (rs !! length rounds = Some (KFail false)) (length rounds = length rs).

(** Missing: signals, which end the loop. *)
Theorem kqueue_loop_ends_partial : forall U (cb : U -> Z -> ioev -> U * list cbop) rs u rounds f' u' rc,
  kq_loop rs cb true u = (rounds, f', u', rc) ->
  ends_well cb u rounds u' rc (exists intr, rs !! length rounds = Some (KFail intr)) (length rounds = length rs).
Proof.
  intros U cb rs. induction rs as [|r rs IH]; intros u rounds f' u' rc; cbn [kq_loop].
  { intros [= <- <- <- <-]. split; [done|]. by right; right. }
  destruct r as [intr|evs].
  { intros [= <- <- <- <-]. split; [done|]. right; left. split; [done|]. split; [done|]. by exists intr. }
  destruct (kq_batch evs cb true u) as [[notes f1] u1] eqn:E.
  destruct (kq_replay _ _ _ _ _ _ _ E) as [H1 H2]. cbn [andb] in H2.
  destruct (kq_loop rs cb f1 u1) as [[[more f2] u2] rc2] eqn:El. intros [= <- <- <- <-].
  destruct (replay cb u notes) as [u1' st] eqn:Er. cbn [fst snd] in H1, H2. subst u1' f1.
  destruct st; cbn [negb] in El.
  - assert (Hx : ([], false, u1, Some 0) = (more, f2, u2, rc2)) by (destruct rs; exact El).
    injection Hx as <- <- <- <-. by apply ends_now.
  - eapply ends_more; [exact Er| | |by eapply IH]; cbn [length]; [done|]. intros ->. done.
Qed.
Theorem kqueue_loop_ends_refuted : ~ kqueue_loop_ends_full.
Proof.
  intros H. destruct (H unit drop_left [KFail true] tt [] true tt (Some (-1)) eq_refl) as (_ & [(? & _)|[(_ & _ & Hx)|(? & _)]]);
    done.
Qed.

(** A callback that calls Stop when a peer leaves. *)
Definition stop_on_leave : nat -> Z -> ioev -> nat * list cbop := fun n _ e => (S n, match e with ioLeave => [OStop] | _ => [] end).
Example loop_ends_ex :
  ep_loop [EFail true; EEvents [(5, Mask true false false)]; EEvents [(6, Mask true true false); (5, Mask true false false)];
           EEvents [(7, Mask true false false)]] stop_on_leave true 0%nat
    = ([[(5, ioRead)]; [(6, ioLeave); (5, ioRead)]], false, 3%nat, Some 0) /\
  sel_loop [SReady [5] (fun _ => 1); SReady [5; 6] (fun _ => 0); SFail] stop_on_leave (Sel [5; 6] true) 0%nat
    = ([[(5, ioRead)]; [(5, ioLeave); (6, ioLeave)]], Sel [5; 6] false, 3%nat, Some 0) /\
  kq_loop [KEvents [(5, KEv false false true)]; KFail false] stop_on_leave true 0%nat = ([[(5, ioRead)]], true, 1%nat, Some (-1)).
Proof. split; [by vm_compute|]. split; by vm_compute. Qed.

Print Assumptions monitor_means_monitored_partial.
Print Assumptions monitor_means_monitored_refuted.
Print Assumptions all_ready_reported_partial.
Print Assumptions all_ready_reported_refuted.
Print Assumptions reported_is_ready.
Print Assumptions ready_is_reported_soon.
Print Assumptions portable_partial.
Print Assumptions portable_refuted.
Print Assumptions same_timeout_partial.
Print Assumptions same_timeout_refuted.
Print Assumptions select_loop_ends.
Print Assumptions epoll_loop_ends.
Print Assumptions kqueue_loop_ends_partial.
Print Assumptions kqueue_loop_ends_refuted.

(** ** C127, from Init on *)

(** The last call about [fd] was MonitorSoc. *)
Definition asked_for (ops : list cbop) (fd : Z) : Prop := exists l1 l2, ops = l1 ++ OMonitor fd :: l2 /\ ORemove fd ∉ l2.
Definition is_monitor (o : cbop) : Prop := match o with OMonitor _ => True | _ => False end.
#[global] Instance is_monitor_dec o : Decision (is_monitor o).
Proof. destruct o; apply _. Defined.

Lemma fd_clr_other fd x l : x <> fd -> x ∈ fd_clr fd l <-> x ∈ l.
Proof.
  intros Hx. induction l as [|y l IH]; [done|]. cbn [fd_clr]. destruct (decide (y = fd)) as [->|Hy]; rewrite !elem_of_cons; [|by rewrite IH].
  split; [by right|]. by intros [?|?].
Qed.

(** After Init and at most 64 calls of MonitorSoc, select is asked about exactly the
    sockets that were handed over and not removed since, each once, and Loop waits for them. *)
Theorem monitored_from_new : forall ops, (length (filter is_monitor ops) <= 64)%nat -> OStop ∉ ops ->
  let s := foldl sel_op sel_new ops in
  NoDup (sl_set s) /\ (forall fd, fd ∈ sl_set s <-> asked_for ops fd) /\
  forall U (cb : U -> Z -> ioev -> U * list cbop) u, sel_loop [] cb s u = ([], s, u, None).
Proof.
  intros ops Hlen Hs. cbv zeta.
  assert (H : NoDup (sl_set (foldl sel_op sel_new ops)) /\ (length (sl_set (foldl sel_op sel_new ops)) <= length (filter is_monitor ops))%nat /\
    (forall fd, fd ∈ sl_set (foldl sel_op sel_new ops) <-> asked_for ops fd) /\ sl_flag (foldl sel_op sel_new ops) = true).
  { induction ops as [|o ops IH] using rev_ind.
    - split; [constructor|]. split; [done|]. split; [|done]. intros fd. split; [by intros ?%elem_of_nil|]. by intros ([] & l2 & E & _).
    - rewrite foldl_app. cbn [foldl]. rewrite filter_app, app_length in Hlen |- *.
      apply not_elem_of_app in Hs as [Hs Ho]. destruct IH as (Hnd & Hl & Hin & Hfl); [lia|done|].
      assert (Hsn : forall fd, asked_for (ops ++ [o]) fd <-> o = OMonitor fd \/ (asked_for ops fd /\ o <> ORemove fd)).
      { intros fd. split.
        - intros (l1 & l2 & E & Hr). destruct l2 as [|o' l2 _] using rev_ind.
          + apply app_inj_tail in E as [_ ->]. by left.
          + rewrite app_comm_cons, app_assoc in E. apply app_inj_tail in E as [-> ->]. apply not_elem_of_app in Hr as [Hr Hr'].
            right. split; [by exists l1, l2|]. intros ->. apply Hr'. by left.
        - intros [-> | [(l1 & l2 & -> & Hr) Hne]]; [exists ops, []; split; [done|apply not_elem_of_nil]|].
          exists l1, (l2 ++ [o]). split; [by rewrite <- app_assoc|]. apply not_elem_of_app. split; [done|].
          intros E%elem_of_list_singleton. congruence. }
      set (s := foldl sel_op sel_new ops) in *. destruct o as [x|x|]; [| |destruct Ho; by left]; cbn [sel_op sel_monitor sel_remove snd sl_set sl_flag].
      + rewrite filter_cons_True in Hlen |- * by done. cbn [length] in Hlen |- *.
        unfold fd_add. destruct (decide (x ∈ sl_set s)) as [Hx|Hx].
        * split; [done|]. split; [lia|]. split; [|done]. intros fd. rewrite Hsn, Hin. split; [by right|].
          intros [E|[? _]]; [injection E as ->; by apply Hin|done].
        * destruct (Nat.ltb_spec (length (sl_set s)) FD_SETSIZE) as [Hlt|Hge]; [|unfold FD_SETSIZE in Hge; rewrite filter_nil in Hlen; cbn in Hlen; lia].
          split; [apply NoDup_app; split; [done|]; split; [|apply NoDup_singleton]; intros y Hy ->%elem_of_list_singleton; done|].
          split; [rewrite app_length; cbn [length]; lia|]. split; [|done]. intros fd. rewrite elem_of_app, elem_of_list_singleton, Hsn, Hin.
          split; [intros [? | ->]; [by right|by left]|]. intros [E|[? _]]; [injection E as ->; by right|by left].
      + destruct (fd_clr_nodup x _ Hnd) as [H1 H2]. split; [done|]. split; [pose proof (fd_clr_length x (sl_set s)); lia|]. split; [|done].
        intros fd. rewrite Hsn. destruct (decide (fd = x)) as [->|Hne].
        * split; [done|]. by intros [?|[_ ?]].
        * rewrite fd_clr_other, Hin by done. split; [intros ?; right; split; [done|congruence]|]. by intros [?|[? _]]. }
  destruct H as (H1 & _ & H2 & H3). split; [done|]. split; [done|]. intros U cb u. cbn [sel_loop]. by rewrite H3.
Qed.
Example monitored_from_new_ex : sl_set (foldl sel_op sel_new [OMonitor 4; OMonitor 5; ORemove 4; OMonitor 6]) = [5; 6] /\
  asked_for [OMonitor 4; OMonitor 5; ORemove 4; OMonitor 6] 5.
Proof.
  split; [done|]. apply (proj1 (proj2 (monitored_from_new [OMonitor 4; OMonitor 5; ORemove 4; OMonitor 6] ltac:(by_dec) ltac:(by_dec)))).
  by left.
Qed.
Print Assumptions monitored_from_new.
