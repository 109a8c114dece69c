(** C223-C225: a server whose peers do nothing comes to rest
    (tcp_server.cpp in the modes kIOMultiplexing, kMultiThread, kMixed; http_server.cpp:
    HandleRead; with and without TLS). *)
From Verif.Lib Require Import CxxStringFacts.
From Verif.Spec Require Import SocketSpec SslSpec.
From Verif.Model Require Import HttpSystem HttpsSystem HttpThreads HttpsThreads.
From Verif.Proof Require Import HttpSystemProof HttpThreadsProof HttpsSystemProof HttpsThreadsProof.
From Verif.Props Require HttpThreadsProps ClientServerProps ClientThreadsProps.
From Verif.Props Require Import SocketProps RouterProps ServerProps HttpsProps HttpSystemProps HttpsSystemProps HttpsThreadsProps SslProps.
From Verif.Model Require Import HttpsThreads.
From Verif.Model Require HttpsSystem.

Local Notation wn := HttpSystemProps.wn.

(** * Sums over the connections *)
Definition total {A} (f : A -> nat) (m : gmap nat A) : nat := sum_list_with f (snd <$> map_to_list m).

Lemma sum_list_perm {A} (f : A -> nat) l k : Permutation l k -> sum_list_with f l = sum_list_with f k.
Proof. induction 1; cbn [sum_list_with]; lia. Qed.
Lemma total_insert {A} (f : A -> nat) m i c : m !! i = None -> total f (<[i := c]> m) = f c + total f m.
Proof.
  intros E. unfold total. rewrite (sum_list_perm f _ (snd <$> ((i, c) :: map_to_list m))); [done|].
  apply fmap_Permutation. by apply map_to_list_insert.
Qed.
Lemma total_upd {A} (f : A -> nat) m i c c' : m !! i = Some c -> total f (<[i := c']> m) + f c = total f m + f c'.
Proof.
  intros E. rewrite <- (insert_delete m i c E) at 2. rewrite <- insert_delete_insert.
  rewrite !total_insert by apply lookup_delete. lia.
Qed.

(** * What a call of HandleRead takes *)
Definition held (s : stream) : nat := length (bytes_of (sm_items s)).

Lemma until_loop_held d l : forall t ch buf len buf' s',
  until_loop d l t ch buf = Ok (len, buf', s') ->
  held s' <= length (bytes_of l) /\ ((0 < len)%Z -> buf = [] -> until_goes_on d buf ch = Ok true -> held s' < length (bytes_of l)).
Proof.
  assert (Hle : forall l t ch buf len buf' s', until_loop d l t ch buf = Ok (len, buf', s') -> held s' <= length (bytes_of l)).
  { clear. induction l as [|[c|] l IH]; intros t ch buf len buf' s' E; cbn [until_loop] in E;
      destruct (until_goes_on d buf ch) as [[]| | | | |]; cbn [mbind outcome_bind] in E; try done.
    - destruct t; try done; injection E as _ _ <-; cbn; lia.
    - injection E as _ _ <-; cbn; lia.
    - apply IH in E. cbn [bytes_of length]. lia.
    - injection E as _ _ <-; cbn; lia.
    - injection E as _ _ <-; cbn; lia.
    - injection E as _ _ <-; cbn; lia. }
  intros t ch buf len buf' s' E. split; [by eapply Hle|].
  intros Hl -> Hg. destruct l as [|[c|] l]; cbn [until_loop] in E; rewrite Hg in E; cbn [mbind outcome_bind] in E.
  - destruct t; try done; injection E as <- _ _; lia.
  - apply Hle in E. cbn [bytes_of length]. lia.
  - injection E as <- _ _; lia.
Qed.
Lemma until_held s len buf s' : read_until [] CRLFCRLF s = Ok (len, buf, s') ->
  held s' <= held s /\ ((0 < len)%Z -> held s' < held s).
Proof.
  unfold read_until. change CRLFCRLF with (CR :: drop 1 CRLFCRLF). cbv iota beta. intros E.
  apply until_loop_held in E as [H1 H2]. split; [exact H1|]. intros Hl. apply H2; [done..|reflexivity].
Qed.
Lemma grab_held n l : length (bytes_of (grab n l).1.2) <= length (bytes_of l).
Proof.
  revert l. induction n as [|n IH]; intros l; [done|]. destruct l as [|[c|] l]; [done| |done].
  cbn [grab]. specialize (IH l). destruct (grab n l) as [[b r] g]. cbn [fst snd bytes_of length] in *. lia.
Qed.
Lemma recv_all_held n s rc b s' : recv_all n s = Ok (rc, b, s') -> held s' <= held s.
Proof.
  unfold recv_all, held. pose proof (grab_held n (sm_items s)) as H. destruct (grab n (sm_items s)) as [[b' r] g].
  cbn [fst snd] in H. repeat case_match; intros; simplify_eq; exact H.
Qed.

Section calls.
Context {U : Type}.
Implicit Types ro : router U.

Lemma answer_rest hit wr ro r e w s v : answer hit wr ro r e w s = Ok v -> sv_rest v = s.
Proof.
  unfold answer. destruct (dispatch _ _ _ _) as [cw| | | | |]; cbn [mbind outcome_bind]; try done.
  unfold respond. destruct (resp_build hit _ []) as [[rc p2] buf].
  destruct (negb (rc =? kSuccess)%Z); [destruct (resp_build hit _ buf) as [[? ?] ?]|];
    (destruct wr as [k| |]; intros [= <-]; done).
Qed.
(** It closes the connection, or has taken a byte. *)
Lemma read_takes hit wr ro e w s v : handle_read hit wr ro e w s = Ok v ->
  held (sv_rest v) <= held s /\ (sv_closed v = false -> held (sv_rest v) < held s).
Proof.
  unfold handle_read. destruct (read_until [] CRLFCRLF s) as [[[len buf] s1]| | | | |] eqn:E1; cbn [mbind outcome_bind]; try done.
  apply until_held in E1 as [H1 H2].
  destruct (len <=? 0)%Z eqn:Hl; [intros [= <-]; cbn; done|]. apply Z.leb_gt in Hl. specialize (H2 Hl).
  destruct (req_parse req_new buf) as [[rc r]| | | | |]; cbn [mbind outcome_bind]; try done.
  destruct (negb (rc =? kSuccess)%Z).
  { destruct (resp_build hit _ []) as [[? ?] out]. destruct wr as [k| |]; intros [= <-]; cbn; done. }
  destruct (0 <? _)%Z; [|intros H; apply answer_rest in H as ->; lia].
  unfold read_string. destruct (recv_all _ _) as [[[rc' b] s2]| | | | |] eqn:E2; cbn [mbind outcome_bind]; try done.
  apply recv_all_held in E2.
  destruct (rc' <=? 0)%Z; [intros [= <-]; cbn; split; [lia|done]|]. intros H; apply answer_rest in H as ->. lia.
Qed.

(** The same over TLS. *)
Definition tls_held (s : tls) : nat := length (tl_buf s) + length (concat (records_of (tl_items s))).
Lemma bytes_of_app l k : bytes_of (l ++ k) = bytes_of l ++ bytes_of k.
Proof. induction l as [|[c|] l IH]; cbn [app bytes_of]; [done|by rewrite IH|done]. Qed.
Lemma tls_held_stream s : held (tls_stream s) = tls_held s.
Proof.
  unfold held, tls_held, tls_stream. cbn [sm_items]. rewrite bytes_of_app, app_length.
  assert (Hb : forall b, bytes_of (map Byte b) = b) by (induction b as [|c b IH]; cbn [map bytes_of]; [done|by rewrite IH]).
  rewrite Hb. f_equal. destruct s as [b l t]. cbn [tl_items]. clear b t.
  induction l as [|[r|] l IH]; [done| |].
  - change (flat (Rec r :: l)) with (map Byte r ++ flat l). change (records_of (Rec r :: l)) with (r :: records_of l).
    rewrite bytes_of_app, app_length, Hb, IH. cbn [concat]. by rewrite app_length.
  - exact IH.
Qed.
Lemma ssl_read_held num s rc b s' : ssl_read num s = Ok (rc, b, s') -> tls_held s' <= tls_held s.
Proof.
  unfold ssl_read. destruct (num <? 0)%Z; [by intros [= _ _ <-]|]. destruct (num =? 0)%Z; [by intros [= _ _ <-]|].
  unfold tls_held. destruct s as [bf l t]. cbn [tl_buf tl_items tl_tail]. destruct bf as [|c bf].
  - generalize (Z.to_nat num). intros n. cbn [length]. induction l as [|[[|c r]|] l IH]; cbn [next_record].
    + destruct t; try done; intros [= _ _ <-]; cbn; lia.
    + intros H. exact (IH H).
    + intros [= _ _ <-]. cbn [tl_buf tl_items]. change (records_of (Rec (c :: r) :: l)) with ((c :: r) :: records_of l).
      cbn [concat]. rewrite app_length, drop_length. lia.
    + intros [= _ _ <-]. cbn [tl_buf tl_items length]. change (records_of (SGap :: l)) with (records_of l). lia.
  - intros [= _ _ <-]. cbn [tl_buf tl_items]. rewrite drop_length. lia.
Qed.
Lemma wait_all_held fuel : forall len tot acc s rc b s', wait_all fuel len tot acc s = Ok (rc, b, s') -> tls_held s' <= tls_held s.
Proof.
  induction fuel as [|fuel IH]; intros len tot acc s rc b s' E; [done|]. cbn [wait_all] in E.
  destruct (int_to_size tot <? len)%N; [|by injection E as _ _ <-].
  destruct (ssl_read _ s) as [[[rc1 b1] s1]| | | | |] eqn:E1; cbn [mbind outcome_bind] in E; try done.
  apply ssl_read_held in E1. destruct (rc1 <=? 0)%Z; [injection E as _ _ <-; lia|].
  destruct (_ <=? int_max)%Z; [|done]. apply IH in E. lia.
Qed.
Lemma tls_takes hit wr ro e w s v t : handle_read_tls hit wr ro e w s = Ok (v, t) ->
  tls_held t <= tls_held s /\ (sv_closed v = false -> tls_held t < tls_held s).
Proof.
  unfold handle_read_tls.
  destruct (ssl_read_until [] CRLFCRLF s) as [[[len buf] s1]| | | | |] eqn:E1; cbn [mbind outcome_bind]; try done.
  pose proof (ssl_read_until_same [] CRLFCRLF s) as Hs. rewrite E1 in Hs. cbn [seen mbind outcome_bind] in Hs. symmetry in Hs.
  apply until_held in Hs as [H1 H2]. rewrite !tls_held_stream in H1, H2.
  destruct (len <=? 0)%Z eqn:Hl; [intros [= <- <-]; cbn; done|]. apply Z.leb_gt in Hl. specialize (H2 Hl).
  destruct (req_parse req_new buf) as [[rc r]| | | | |]; cbn [mbind outcome_bind]; try done.
  destruct (negb (rc =? kSuccess)%Z).
  { destruct (resp_build hit _ []) as [[? ?] out]. destruct wr as [k| |]; intros [= <- <-]; cbn; done. }
  assert (Ha : forall r' s2, tls_held s2 <= tls_held s1 -> (v0 ← answer hit wr ro r' e w (tls_stream s2); Ok (v0, s2)) = Ok (v, t) ->
    tls_held t <= tls_held s /\ (sv_closed v = false -> tls_held t < tls_held s)).
  { intros r' s2 Hle. destruct (answer hit wr ro r' e w _) as [v0| | | | |] eqn:Ev; cbn [mbind outcome_bind]; try done.
    intros [= <- <-]. lia. }
  destruct (0 <? _)%Z; [|apply Ha; lia].
  unfold ssl_read_string, ssl_ioread. destruct (wait_all _ _ _ _ s1) as [[[rc' b] s2]| | | | |] eqn:E2; cbn [mbind outcome_bind]; try done.
  apply wait_all_held in E2. destruct (rc' <=? 0)%Z; [intros [= <- <-]; cbn; split; [lia|done]|]. by apply Ha.
Qed.
End calls.

(** * C223: a server with one thread *)

(** What the thread of the server does by itself. *)
Definition thread_step (l : hlab) : Prop := match l with LServe _ _ _ | LResume _ _ => True | _ => False end.
Definition tls_thread_step (l : HttpsSystem.xlab) : Prop :=
  match l with HttpsSystem.XShake _ | HttpsSystem.XServe _ _ _ | HttpsSystem.XResume _ _ => True | _ => False end.
(** Bytes that nobody has read yet; connections that are open. *)
Definition waiting {U} (s : hsys U) : nat := total (fun c => length (hn_in c)) (sy_conns s).
Definition opened {U} (s : hsys U) : nat := total (fun c => if hn_open c then 1 else 0) (sy_conns s).
Definition tls_waiting {U} (s : HttpsSystem.xsys U) : nat :=
  total (fun c => length (HttpsSystem.tn_buf c) + length (concat (HttpsSystem.tn_wire c))) (HttpsSystem.xs_conns s).
Definition tls_opened {U} (s : HttpsSystem.xsys U) : nat := total (fun c => if HttpsSystem.tn_open c then 1 else 0) (HttpsSystem.xs_conns s).

Section one.
Context {U : Type} (hit : iter_order) (ro : router U) (e : bytes).

Definition in_open (s : hsys U) : Prop := forall i, sy_thr s = TIn i -> exists c, sy_conns s !! i = Some c /\ hn_open c = true.
Lemma in_open_event wr more i c s : sy_conns s !! i = Some c -> hn_open c = true -> in_open (read_event hit ro e wr more i c s).
Proof.
  intros Hc Ho. unfold read_event. destruct (handle_read _ _ _ _ _ _); intros j Hj; cbn [sy_thr sy_conns] in *; try done.
  injection Hj as <-. by exists c.
Qed.
Lemma in_open_step s l s' : in_open s -> sys_step hit ro e s l = Some s' -> in_open s'.
Proof.
  intros Hi E. destruct l as [i|i bs|i|i leave wr|i wr|i wr]; cbn [sys_step] in E.
  - case_decide as H; [|done]. destruct H as [H _]. injection E as <-. intros j Hj. cbn in Hj. congruence.
  - destruct (sy_conns s !! i) as [c|] eqn:Hc; [|done]. cbn [mbind option_bind] in E.
    destruct (hn_open c && negb (hn_fin c)) eqn:Ho; [|done]. apply andb_prop in Ho as [Ho _]. injection E as <-.
    intros j Hj. cbn [with_conn sy_thr sy_conns] in *. destruct (Hi j Hj) as (d & Hd & Hd'). destruct (decide (i = j)) as [<-|Hne].
    + rewrite lookup_insert. by eexists.
    + rewrite lookup_insert_ne by done. by exists d.
  - destruct (sy_conns s !! i) as [c|] eqn:Hc; [|done]. cbn [mbind option_bind] in E.
    destruct (hn_open c) eqn:Ho; [|done]. injection E as <-.
    intros j Hj. cbn [with_conn sy_thr sy_conns] in *. destruct (Hi j Hj) as (d & Hd & Hd'). destruct (decide (i = j)) as [<-|Hne].
    + rewrite lookup_insert. by eexists.
    + rewrite lookup_insert_ne by done. by exists d.
  - destruct (sy_conns s !! i) as [c|] eqn:Hc; [|done]. cbn [mbind option_bind] in E. case_decide as H; [|done].
    destruct H as (Ht & Ho & _). destruct leave.
    + destruct (hn_fin c); [|done]. injection E as <-. intros j Hj. cbn in Hj. congruence.
    + injection E as <-. by apply in_open_event.
  - destruct (sy_conns s !! i) as [c|] eqn:Hc; [|done]. cbn [mbind option_bind] in E. case_decide as H; [|done].
    destruct (Hi i H) as (d & Hd & Ho). rewrite Hc in Hd. injection Hd as <-.
    case_decide; [done|]. injection E as <-. by apply in_open_event.
  - destruct (sy_conns s !! i) as [c|] eqn:Hc; [|done]. cbn [mbind option_bind] in E. case_decide as H; [|done].
    destruct (Hi i H) as (d & Hd & Ho). rewrite Hc in Hd. injection Hd as <-. injection E as <-. by apply in_open_event.
Qed.
Lemma in_open_run ls : forall s s', in_open s -> sys_run hit ro e s ls = Some s' -> in_open s'.
Proof.
  induction ls as [|l ls IH]; intros s s' Hi H; cbn [sys_run] in H; [by injection H as <-|].
  destruct (sys_step hit ro e s l) as [s1|] eqn:E; [|done]. cbn [mbind option_bind] in H.
  exact (IH _ _ (in_open_step _ _ _ Hi E) H).
Qed.

Definition thr_left (t : thr) : nat := match t with TFree => 2 | TIn _ => 1 | TDown => 0 end.
Definition left_over (s : hsys U) : nat := 2 * waiting s + 2 * opened s + thr_left (sy_thr s).

Lemma bytes_of_bytes b more : length (bytes_of (map Byte b ++ more)) = length b + length (bytes_of more).
Proof. induction b as [|c b IH]; cbn [map app bytes_of length]; [done|]. by rewrite IH. Qed.
Lemma event_less wr more i c s : bytes_of more = [] -> sy_conns s !! i = Some c -> hn_open c = true ->
  let s' := read_event hit ro e wr more i c s in
  (sy_thr s' = TIn i /\ sy_conns s' = sy_conns s) \/ (sy_thr s' = TDown /\ sy_conns s' = sy_conns s) \/
  2 * waiting s' + 2 * opened s' + 2 <= 2 * waiting s + 2 * opened s /\ sy_thr s' = TFree.
Proof.
  intros Hm Hc Ho. unfold read_event.
  destruct (handle_read _ _ _ _ _ _) as [v| | | | |] eqn:E; cbn [sy_thr sy_conns]; try (by right; left); [|by left].
  right. right. split; [|done]. apply read_takes in E as [H1 H2]. unfold held in H1, H2. cbn [sm_items] in H1, H2.
  rewrite bytes_of_bytes, Hm in H1, H2. cbn [length] in H1, H2. unfold waiting, opened. cbn [sy_conns].
  match goal with |- context [<[i := ?c']> _] =>
    pose proof (total_upd (fun c => length (hn_in c)) _ i c c' Hc) as T1;
    pose proof (total_upd (fun c => if hn_open c then 1 else 0) _ i c c' Hc) as T2 end.
  cbn [hn_in hn_open] in T1, T2. rewrite Ho in T2. destruct (sv_closed v); cbn [negb] in *; [lia|]. specialize (H2 eq_refl). lia.
Qed.
Lemma step_less s l s' : in_open s -> thread_step l -> sys_step hit ro e s l = Some s' -> left_over s' < left_over s.
Proof.
  intros Hi Hl E. destruct l as [i|i bs|i|i leave wr|i wr|i wr]; try done; cbn [sys_step] in E;
    (destruct (sy_conns s !! i) as [c|] eqn:Hc; [|done]); cbn [mbind option_bind] in E; (case_decide as H; [|done]).
  - destruct H as (Ht & Ho & _). unfold left_over. rewrite Ht. cbn [thr_left]. destruct leave.
    + destruct (hn_fin c); [|done]. injection E as <-. unfold waiting, opened. cbn [with_conn sy_conns sy_thr]. rewrite Ht.
      match goal with |- context [<[i := ?c']> _] =>
        pose proof (total_upd (fun c => length (hn_in c)) _ i c c' Hc) as T1;
        pose proof (total_upd (fun c => if hn_open c then 1 else 0) _ i c c' Hc) as T2 end.
      cbn [hn_in hn_open] in T1, T2. rewrite Ho in T2. cbn [thr_left]. lia.
    + injection E as <-. destruct (event_less wr [] i c s eq_refl Hc Ho) as [[T C]|[[T C]|[T C]]].
      * unfold waiting, opened. rewrite T, C. cbn [thr_left]. lia.
      * unfold waiting, opened. rewrite T, C. cbn [thr_left]. lia.
      * rewrite C. cbn [thr_left]. lia.
  - destruct (Hi i H) as (d & Hd & Ho). rewrite Hc in Hd. injection Hd as <-. unfold left_over. rewrite H. cbn [thr_left].
    case_decide as Ht; [done|]. injection E as <-. destruct (event_less wr [] i c s eq_refl Hc Ho) as [[T C]|[[T C]|[T C]]]; [done| |].
    + unfold waiting, opened. rewrite T, C. cbn [thr_left]. lia.
    + rewrite C. cbn [thr_left]. lia.
Qed.
Lemma run_less ls : forall s s', in_open s -> Forall thread_step ls -> sys_run hit ro e s ls = Some s' ->
  length ls + left_over s' <= left_over s.
Proof.
  induction ls as [|l ls IH]; intros s s' Hi Hf H; cbn [sys_run length] in *; [injection H as <-; lia|].
  apply Forall_cons in Hf as [Hl Hf]. destruct (sys_step hit ro e s l) as [s1|] eqn:E; [|done]. cbn [mbind option_bind] in H.
  pose proof (step_less _ _ _ Hi Hl E). pose proof (IH _ _ (in_open_step _ _ _ Hi E) Hf H). lia.
Qed.
End one.

(** Whatever the peers have sent, in whatever pieces, and however the writes went:
    the thread makes a bounded number of steps until a peer does something; when it
    can make none it is gone, or inside HandleRead of a connection, or nothing has
    arrived on any open connection that it has not read. *)
Theorem server_comes_to_rest U hit (ro : router U) e w ls s :
  sys_run hit ro e (sys_new w) ls = Some s ->
  (forall ls' s', Forall thread_step ls' -> sys_run hit ro e s ls' = Some s' ->
     length ls' <= 2 * waiting s + 2 * opened s + 2) /\
  ((forall l, thread_step l -> sys_step hit ro e s l = None) ->
     sy_thr s = TDown \/ (exists i, sy_thr s = TIn i) \/
     forall i c, sy_conns s !! i = Some c -> hn_open c = true -> hn_in c = [] /\ hn_fin c = false).
Proof.
  intros Hrun. split.
  - intros ls' s' Hf H. assert (Hi : in_open s) by (eapply in_open_run; [|exact Hrun]; intros i Hi; cbn in Hi; congruence).
    pose proof (run_less hit ro e ls' s s' Hi Hf H) as Hl. unfold left_over in Hl at 2. destruct (sy_thr s); cbn [thr_left] in Hl; lia.
  - intros Hno. destruct (sy_thr s) as [|i|] eqn:Ht; [|right; left; by exists i|by left]. right. right. intros i c Hc Ho.
    specialize (Hno (LServe i false (WTake 0)) I). cbn [sys_step] in Hno. rewrite Hc in Hno. cbn [mbind option_bind] in Hno.
    case_decide as H; [done|]. destruct (hn_fin c) eqn:Hf.
    { exfalso. apply H. split_and!; [done..|]. by right. }
    destruct (hn_in c) as [|x b]; [done|]. exfalso. apply H. split_and!; [done..|]. by left.
Qed.
Print Assumptions server_comes_to_rest.

(** ** Over TLS *)
Section one_tls.
Import HttpsSystem.
Context {U : Type} (hit : iter_order) (ro : router U) (e : bytes).

Definition tls_in_open (s : xsys U) : Prop := forall i, xs_thr s = XIn i -> exists c, xs_conns s !! i = Some c /\ tn_open c = true.
Lemma tls_in_open_event wr more i c s : xs_conns s !! i = Some c -> tn_open c = true -> tls_in_open (xread hit ro e wr more i c s).
Proof.
  intros Hc Ho. unfold xread. destruct (handle_read_tls _ _ _ _ _ _) as [[v t]| | | | |]; intros j Hj; cbn [xs_thr xs_conns] in *; try done.
  injection Hj as <-. by exists c.
Qed.
Lemma tls_in_open_upd s i c c' : tls_in_open s -> xs_conns s !! i = Some c -> tn_open c' = tn_open c -> tls_in_open (xwith s (xs_thr s) i c').
Proof.
  intros Hi Hc Ho j Hj. cbn [xwith xs_thr xs_conns] in *. destruct (Hi j Hj) as (d & Hd & Hd'). destruct (decide (i = j)) as [<-|Hne].
  - rewrite lookup_insert. exists c'. split; [done|]. congruence.
  - rewrite lookup_insert_ne by done. by exists d.
Qed.
Lemma tls_in_open_step s l s' : tls_in_open s -> xstep hit ro e s l = Some s' -> tls_in_open s'.
Proof.
  intros Hi E. destruct l as [i|i good|i bs|i|i|i leave wr|i wr|i wr]; cbn [xstep] in E.
  - case_decide as H; [|done]. injection E as <-. intros j Hj. cbn in Hj. congruence.
  - destruct (xs_conns s !! i) as [c|] eqn:Hc; [|done]. cbn [mbind option_bind] in E. case_decide; [|done]. injection E as <-.
    by eapply tls_in_open_upd.
  - destruct (xs_conns s !! i) as [c|] eqn:Hc; [|done]. cbn [mbind option_bind] in E. case_decide; [|done]. injection E as <-.
    by eapply tls_in_open_upd.
  - destruct (xs_conns s !! i) as [c|] eqn:Hc; [|done]. cbn [mbind option_bind] in E. destruct (tn_open c) eqn:Ho; [|done]. injection E as <-.
    eapply tls_in_open_upd; [done..|]. by rewrite Ho.
  - destruct (xs_conns s !! i) as [c|] eqn:Hc; [|done]. cbn [mbind option_bind] in E. case_decide; [|done].
    destruct (tn_hello c) as [[]|]; [| |destruct (tn_fin c); [|done]]; injection E as <-; intros j Hj; cbn in Hj; congruence.
  - destruct (xs_conns s !! i) as [c|] eqn:Hc; [|done]. cbn [mbind option_bind] in E. case_decide as H; [|done].
    destruct H as (Ht & Ho & _). destruct leave.
    + destruct (tn_fin c); [|done]. injection E as <-. intros j Hj. cbn in Hj. congruence.
    + injection E as <-. by apply tls_in_open_event.
  - destruct (xs_conns s !! i) as [c|] eqn:Hc; [|done]. cbn [mbind option_bind] in E. case_decide as H; [|done].
    destruct (Hi i H) as (d & Hd & Ho). rewrite Hc in Hd. injection Hd as <-.
    case_decide; [done|]. injection E as <-. by apply tls_in_open_event.
  - destruct (xs_conns s !! i) as [c|] eqn:Hc; [|done]. cbn [mbind option_bind] in E. case_decide as H1.
    { injection E as <-. intros j Hj. cbn in Hj. congruence. }
    case_decide as H; [|done].
    destruct (Hi i H) as (d & Hd & Ho). rewrite Hc in Hd. injection Hd as <-. injection E as <-. by apply tls_in_open_event.
Qed.
Lemma tls_in_open_run ls : forall s s', tls_in_open s -> xrun hit ro e s ls = Some s' -> tls_in_open s'.
Proof.
  induction ls as [|l ls IH]; intros s s' Hi H; cbn [xrun] in H; [by injection H as <-|].
  destruct (xstep hit ro e s l) as [s1|] eqn:E; [|done]. cbn [mbind option_bind] in H.
  exact (IH _ _ (tls_in_open_step _ _ _ Hi E) H).
Qed.

Definition tls_thr_left (t : xthr) : nat := match t with XHand _ => 3 | XFree => 2 | XIn _ => 1 | XDown => 0 end.
Definition tls_left_over (s : xsys U) : nat := 2 * tls_waiting s + 2 * tls_opened s + tls_thr_left (xs_thr s).
Definition pend (c : tconn) : nat := length (tn_buf c) + length (concat (tn_wire c)).

Lemma records_of_recs l : records_of (Rec <$> l) = l.
Proof. induction l as [|b l IH]; [done|]. change (records_of (Rec <$> b :: l)) with (b :: records_of (Rec <$> l)). by rewrite IH. Qed.
Lemma tls_event_less wr i c s : xs_conns s !! i = Some c -> tn_open c = true ->
  let s' := xread hit ro e wr [] i c s in
  (xs_thr s' = XIn i /\ xs_conns s' = xs_conns s) \/ (xs_thr s' = XDown /\ xs_conns s' = xs_conns s) \/
  2 * tls_waiting s' + 2 * tls_opened s' + 2 <= 2 * tls_waiting s + 2 * tls_opened s /\ xs_thr s' = XFree.
Proof.
  intros Hc Ho. unfold xread.
  destruct (handle_read_tls _ _ _ _ _ _) as [[v t]| | | | |] eqn:E; cbn [xs_thr xs_conns]; try (by right; left); [|by left].
  right. right. split; [|done]. apply tls_takes in E as [H1 H2]. unfold tls_held in H1, H2. cbn [tl_buf tl_items] in H1, H2.
  rewrite app_nil_r, records_of_recs in H1, H2. unfold tls_waiting, tls_opened. cbn [xs_conns].
  match goal with |- context [<[i := ?c']> _] =>
    pose proof (total_upd (fun c => length (tn_buf c) + length (concat (tn_wire c))) _ i c c' Hc) as T1;
    pose proof (total_upd (fun c => if tn_open c then 1 else 0) _ i c c' Hc) as T2 end.
  cbn [tn_buf tn_wire tn_open] in T1, T2. rewrite Ho in T2. destruct (sv_closed v); cbn [negb] in *; [lia|]. specialize (H2 eq_refl). lia.
Qed.
Lemma tls_step_less s l s' : tls_in_open s -> tls_thread_step l -> xstep hit ro e s l = Some s' -> tls_left_over s' < tls_left_over s.
Proof.
  intros Hi Hl E. destruct l as [i|i good|i bs|i|i|i leave wr|i wr|i wr]; try done; cbn [xstep] in E;
    (destruct (xs_conns s !! i) as [c|] eqn:Hc; [|done]); cbn [mbind option_bind] in E; (case_decide as H; [|done]).
  - assert (Hs' : exists c', s' = xwith s XFree i c' /\ pend c' = pend c /\ (tn_open c' = true -> tn_open c = true)).
    { destruct (tn_hello c) as [[]|]; [| |destruct (tn_fin c); [|done]]; injection E as <-; by eexists. }
    destruct Hs' as (c' & -> & Hp & Ho). unfold pend in Hp. unfold tls_left_over, tls_waiting, tls_opened. rewrite H. cbn [xwith xs_conns xs_thr tls_thr_left].
    pose proof (total_upd (fun c => length (tn_buf c) + length (concat (tn_wire c))) _ i c c' Hc) as T1.
    pose proof (total_upd (fun c => if tn_open c then 1 else 0) _ i c c' Hc) as T2. cbn beta in T1, T2.
    assert ((if tn_open c' then 1 else 0) <= (if tn_open c then 1 else 0)).
    { destruct (tn_open c'); [|lia]. by rewrite Ho. }
    lia.
  - destruct H as (Ht & Ho & _). unfold tls_left_over. rewrite Ht. cbn [tls_thr_left]. destruct leave.
    + destruct (tn_fin c); [|done]. injection E as <-. unfold tls_waiting, tls_opened. cbn [xwith xs_conns xs_thr].
      pose proof (total_upd (fun c => length (tn_buf c) + length (concat (tn_wire c))) _ i c (tn_closed c) Hc) as T1.
      pose proof (total_upd (fun c => if tn_open c then 1 else 0) _ i c (tn_closed c) Hc) as T2.
      cbn beta in T1, T2. rewrite Ho in T2. change (tn_open (tn_closed c)) with false in T2. cbv iota in T2.
      change (tn_buf (tn_closed c)) with (tn_buf c) in T1. change (tn_wire (tn_closed c)) with (tn_wire c) in T1.
      cbn [tls_thr_left]. lia.
    + injection E as <-. destruct (tls_event_less wr i c s Hc Ho) as [[T C]|[[T C]|[T C]]].
      * unfold tls_waiting, tls_opened. rewrite T, C. cbn [tls_thr_left]. lia.
      * unfold tls_waiting, tls_opened. rewrite T, C. cbn [tls_thr_left]. lia.
      * rewrite C. cbn [tls_thr_left]. lia.
  - destruct (Hi i H) as (d & Hd & Ho). rewrite Hc in Hd. injection Hd as <-. unfold tls_left_over. rewrite H. cbn [tls_thr_left].
    case_decide as Ht; [done|]. injection E as <-. destruct (tls_event_less wr i c s Hc Ho) as [[T C]|[[T C]|[T C]]]; [done| |].
    + unfold tls_waiting, tls_opened. rewrite T, C. cbn [tls_thr_left]. lia.
    + rewrite C. cbn [tls_thr_left]. lia.
Qed.
Lemma tls_run_less ls : forall s s', tls_in_open s -> Forall tls_thread_step ls -> xrun hit ro e s ls = Some s' ->
  length ls + tls_left_over s' <= tls_left_over s.
Proof.
  induction ls as [|l ls IH]; intros s s' Hi Hf H; cbn [xrun length] in *; [injection H as <-; lia|].
  apply Forall_cons in Hf as [Hl Hf]. destruct (xstep hit ro e s l) as [s1|] eqn:E; [|done]. cbn [mbind option_bind] in H.
  pose proof (tls_step_less _ _ _ Hi Hl E). pose proof (IH _ _ (tls_in_open_step _ _ _ Hi E) Hf H). lia.
Qed.
End one_tls.

(** Over TLS; what is still inside OpenSSL (C91) counts as read here, as epoll does
    not report it. *)
Theorem https_server_comes_to_rest U hit (ro : router U) e w ls s :
  HttpsSystem.xrun hit ro e (HttpsSystem.xsys_new w) ls = Some s ->
  (forall ls' s', Forall tls_thread_step ls' -> HttpsSystem.xrun hit ro e s ls' = Some s' ->
     length ls' <= 2 * tls_waiting s + 2 * tls_opened s + 3) /\
  ((forall l, tls_thread_step l -> HttpsSystem.xstep hit ro e s l = None) ->
     HttpsSystem.xs_thr s = HttpsSystem.XDown \/ (exists i, HttpsSystem.xs_thr s = HttpsSystem.XHand i \/ HttpsSystem.xs_thr s = HttpsSystem.XIn i) \/
     forall i c, HttpsSystem.xs_conns s !! i = Some c -> HttpsSystem.tn_open c = true ->
       HttpsSystem.tn_wire c = [] /\ HttpsSystem.tn_fin c = false).
Proof.
  intros Hrun. split.
  - intros ls' s' Hf H. assert (Hi : tls_in_open s) by (eapply tls_in_open_run; [|exact Hrun]; intros i Hi; cbn in Hi; congruence).
    pose proof (tls_run_less hit ro e ls' s s' Hi Hf H) as Hl. unfold tls_left_over in Hl at 2. destruct (HttpsSystem.xs_thr s); cbn [tls_thr_left] in Hl; lia.
  - intros Hno. destruct (HttpsSystem.xs_thr s) as [|i|i|] eqn:Ht; [|right; left; exists i; by left|right; left; exists i; by right|by left].
    right. right. intros i c Hc Ho.
    specialize (Hno (HttpsSystem.XServe i false (WTake 0)) I). cbn [HttpsSystem.xstep] in Hno. rewrite Hc in Hno. cbn [mbind option_bind] in Hno.
    case_decide as H; [done|]. destruct (HttpsSystem.tn_fin c) eqn:Hf.
    { exfalso. apply H. split_and!; [done..|]. by right. }
    destruct (HttpsSystem.tn_wire c) as [|x b]; [done|]. exfalso. apply H. split_and!; [done..|]. by left.
Qed.
Print Assumptions https_server_comes_to_rest.

(** ** Examples *)

(** Two peers; one has sent two requests, the other one half of a request. *)
Definition busy : list hlab := [LOpen 0; LOpen 1; HttpSystem.LSend 0 hi; HttpSystem.LSend 0 yo; HttpSystem.LSend 1 (take 10 hi)].
Definition busy_end : hsys nat := HSys wn TFree
  (list_to_map [(0, HConn (hi ++ yo) false true [] []); (1, HConn (take 10 hi) false true [] [])]).
(** It answers both requests, then it waits for the rest of the third one. *)
Definition busy_after : hsys nat := HSys (World true (fun _ => Absent true) [] ∅ 2) (TIn 1)
  (list_to_map [(0, HConn [] false true [ok_text (B "hi"); ok_text (B "yo")] (ok_text (B "hi") ++ ok_text (B "yo")));
                (1, HConn (take 10 hi) false true [] [])]).
Example server_comes_to_rest_ex : sys_run map_to_list echo_ro [] (sys_new wn) busy = Some busy_end /\
  waiting busy_end = 114 /\ opened busy_end = 2 /\
  sys_run map_to_list echo_ro [] busy_end [LServe 0 false (WTake 999); LServe 0 false (WTake 999); LServe 1 false (WTake 999)] = Some busy_after /\
  forall ls' s', Forall thread_step ls' -> sys_run map_to_list echo_ro [] busy_end ls' = Some s' -> length ls' <= 234.
Proof.
  assert (Hrun : sys_run map_to_list echo_ro [] (sys_new wn) busy = Some busy_end) by (apply run_to; by vm_compute).
  split; [exact Hrun|]. split; [by vm_compute|]. split; [by vm_compute|]. split.
  - apply run_to. by vm_compute.
  - intros ls' s' Hf H. destruct (server_comes_to_rest _ _ _ _ _ _ _ Hrun) as [Hb _]. specialize (Hb ls' s' Hf H).
    assert (E : 2 * waiting busy_end + 2 * opened busy_end + 2 = 234) by by vm_compute. lia.
Qed.

(** Over TLS: the handshake, then two requests in one record. *)
Definition tls_busy : list HttpsSystem.xlab := [HttpsSystem.XOpen 0; HttpsSystem.XHello 0 true; HttpsSystem.XSend 0 (hi ++ yo)].
Definition tls_busy_end : HttpsSystem.xsys nat := HttpsSystem.XSys wn (HttpsSystem.XHand 0)
  (list_to_map [(0, HttpsSystem.TConn [] [hi ++ yo] false (Some true) false true [] [])]).
Example https_server_comes_to_rest_ex : HttpsSystem.xrun map_to_list echo_ro [] (HttpsSystem.xsys_new wn) tls_busy = Some tls_busy_end /\
  tls_waiting tls_busy_end = 104 /\ tls_opened tls_busy_end = 1 /\
  (exists s', HttpsSystem.xrun map_to_list echo_ro [] tls_busy_end [HttpsSystem.XShake 0; HttpsSystem.XServe 0 false (WTake 999)] = Some s') /\
  forall ls' s', Forall tls_thread_step ls' -> HttpsSystem.xrun map_to_list echo_ro [] tls_busy_end ls' = Some s' -> length ls' <= 213.
Proof.
  assert (Hrun : HttpsSystem.xrun map_to_list echo_ro [] (HttpsSystem.xsys_new wn) tls_busy = Some tls_busy_end) by (apply xrun_to; by vm_compute).
  split; [exact Hrun|]. split; [by vm_compute|]. split; [by vm_compute|]. split.
  - eexists. vm_compute. reflexivity.
  - intros ls' s' Hf H. destruct (https_server_comes_to_rest _ _ _ _ _ _ _ Hrun) as [Hb _]. specialize (Hb ls' s' Hf H).
    assert (E : 2 * tls_waiting tls_busy_end + 2 * tls_opened tls_busy_end + 3 = 213) by by vm_compute. lia.
Qed.

(** * C224: a server with worker threads *)

(** What is not done by the peers. *)
Definition no_peer (l : tlab) : Prop := match l with TAccept _ _ _ | TSend _ _ | TFin _ => False | _ => True end.
Definition reported (l : tlab) : Prop := match l with TNotify _ | TLeave _ => True | _ => False end.
Global Instance reported_dec l : Decision (reported l).
Proof. destruct l; cbn; apply _. Defined.
Definition unread {U} (s : tsys U) : nat := total (fun c => length (HttpThreads.tn_in c)) (ts_conns s).
Definition threads_come_to_rest_full : Prop := forall U mixed hit (ro : router U) e n w ls s,
  t_run mixed hit ro e (t_new n w) ls = Some s ->
  exists m, forall ls' s', Forall no_peer ls' -> t_run mixed hit ro e s ls' = Some s' -> length ls' <= m.

Lemma msum_total {A} (f : A -> nat) m : ClientServerProps.msum f m = total f m.
Proof.
  unfold ClientServerProps.msum. induction m as [|i x m Hi IH] using map_ind; [done|].
  rewrite total_insert by done. rewrite map_fold_insert_L; [by rewrite IH|intros; lia|done].
Qed.
Lemma work_bound fds ws : ClientThreadsProps.work fds ws <= 6 * length ws.
Proof.
  unfold ClientThreadsProps.work. induction ws as [|x ws IH]; cbn [sum_list_with length]; [lia|].
  assert (ClientThreadsProps.worth fds x <= 6); [|lia].
  destruct x as [|f|th f st]; cbn; [lia|destruct (fds !! f); lia|destruct st; lia].
Qed.
Lemma tstep_less {U} hit (ro : router U) e mixed s l s' : no_peer l -> ~ reported l -> t_step mixed hit ro e s l = Some s' ->
  ClientThreadsProps.tleft s' < ClientThreadsProps.tleft s.
Proof.
  intros Hl Hr E. apply (ClientThreadsProps.tless (fun _ => False) 0 (fun _ => True) ro hit e ltac:(done) s l s'); [by destruct l|].
  destruct l; try done; exact E.
Qed.
Lemma tstep_reported {U} hit (ro : router U) e mixed s l s' : reported l -> t_step mixed hit ro e s l = Some s' ->
  ClientThreadsProps.tleft s' <= ClientThreadsProps.tleft s + 5.
Proof.
  intros Hr E. unfold t_step in E. destruct (ts_down s) eqn:Hd; [done|]. destruct l; try done;
    (destruct (conn_of s f) as [[i c]|]; [|done]); cbn [mbind option_bind] in E; (destruct (mixed && _); [|done]); injection E as <-;
    unfold ClientThreadsProps.tleft; cbn [add_task close_fd ts_conns ts_queue ts_fds ts_workers ts_down].
  - rewrite app_length. cbn [length]. lia.
  - pose proof (ClientThreadsProps.work_delete (fun _ => False) (fun _ => True) ro ltac:(done) (ts_fds s) f (ts_workers s)). lia.
Qed.
Lemma t_run_less {U} hit (ro : router U) e mixed ls : forall s s', Forall no_peer ls -> t_run mixed hit ro e s ls = Some s' ->
  length ls <= ClientThreadsProps.tleft s + 6 * length (filter reported ls).
Proof.
  induction ls as [|l ls IH]; intros s s' Hf H; cbn [t_run length] in *; [lia|].
  apply Forall_cons in Hf as [Hl Hf]. destruct (t_step mixed hit ro e s l) as [s1|] eqn:E; [|done]. cbn [mbind option_bind] in H.
  specialize (IH _ _ Hf H). rewrite filter_cons. destruct (decide (reported l)) as [Hr|Hr].
  - pose proof (tstep_reported _ _ _ _ _ _ _ Hr E). cbn [length]. lia.
  - pose proof (tstep_less _ _ _ _ _ _ _ Hl Hr E). lia.
Qed.

(** In both modes: so many steps for what is there already, and six for every event
    that epoll reports. *)
Theorem threads_steps_bounded U mixed hit (ro : router U) e s ls' s' :
  Forall no_peer ls' -> t_run mixed hit ro e s ls' = Some s' ->
  length ls' <= 4 * unread s + 5 * length (ts_queue s) + 6 * length (ts_workers s) + 1 + 6 * length (filter reported ls').
Proof.
  intros Hf H. pose proof (t_run_less _ _ _ _ _ _ _ Hf H) as Hl. unfold ClientThreadsProps.tleft in Hl. rewrite msum_total in Hl.
  pose proof (work_bound (ts_fds s) (ts_workers s)). unfold unread. destruct (ts_down s); lia.
Qed.
Print Assumptions threads_steps_bounded.
(** In kMultiThread nothing is reported. *)
Theorem threads_come_to_rest_partial U hit (ro : router U) e s ls' s' :
  Forall no_peer ls' -> t_run false hit ro e s ls' = Some s' ->
  length ls' <= 4 * unread s + 5 * length (ts_queue s) + 6 * length (ts_workers s) + 1.
Proof.
  intros Hf H. pose proof (threads_steps_bounded _ _ _ _ _ _ _ _ Hf H) as Hl.
  assert (Hn : filter reported ls' = []); [|rewrite Hn in Hl; cbn [length] in Hl; lia].
  clear Hl Hf. revert s H. induction ls' as [|l ls IH]; intros s H; [done|]. cbn [t_run] in H.
  destruct (t_step false hit ro e s l) as [s1|] eqn:E; [|done]. cbn [mbind option_bind] in H. rewrite filter_cons_False; [by eapply IH|].
  intros Hr. unfold t_step in E. destruct (ts_down s); [done|]. destruct l; try done; by destruct (conn_of s f) as [[i c]|].
Qed.
Print Assumptions threads_come_to_rest_partial.

(** A request that waits in the queue of two workers. *)
Example threads_come_to_rest_ex : exists s, t_run false map_to_list echo_ro [] (t_new 2 wn) [TAccept 0 5 true; TSend 0 hi] = Some s /\
  (exists s', t_run false map_to_list echo_ro [] s ([TPop 1] ++ replicate 53 (TRecv 1) ++ [TRun 1 (WTake 999)]) = Some s') /\
  forall ls' s', Forall no_peer ls' -> t_run false map_to_list echo_ro [] s ls' = Some s' -> length ls' <= 226.
Proof.
  eexists. split; [vm_compute; reflexivity|]. split; [eexists; vm_compute; reflexivity|].
  intros ls' s' Hf H. pose proof (threads_come_to_rest_partial _ _ _ _ _ _ _ Hf H) as Hb.
  match type of Hb with _ <= ?n => assert (E : n = 226) by by vm_compute end. lia.
Qed.

(** In kMixed the main thread reports a connection again and again while its task
    waits: each time one more task. *)
Lemma notify_again {U} hit (ro : router U) e f i c m : forall s, ts_down s = false -> conn_of s f = Some (i, c) -> HttpThreads.tn_in c <> [] ->
  exists s', t_run true hit ro e s (replicate m (TNotify f)) = Some s' /\ length (ts_queue s') = m + length (ts_queue s).
Proof.
  induction m as [|m IH]; intros s Hd Hc Hin; [by exists s|]. cbn [replicate t_run].
  assert (E : t_step true hit ro e s (TNotify f) = Some (add_task s (KRead f))).
  { unfold t_step. rewrite Hd, Hc. cbn [mbind option_bind snd]. by rewrite (bool_decide_eq_true_2 _ Hin). }
  rewrite E. cbn [mbind option_bind]. destruct (IH (add_task s (KRead f))) as (s' & H & Hq); [done..|].
  exists s'. split; [exact H|]. rewrite Hq. cbn [add_task ts_queue]. rewrite app_length. cbn [length]. lia.
Qed.
Lemma mixed_start : exists s, t_run true map_to_list echo_ro [] (t_new 10 wn) [TAccept 0 5 true; TSend 0 hi] = Some s /\
  (ts_down s, conn_of s 5, ts_queue s) = (false, Some (0, HttpThreads.TConn hi false [] []), []).
Proof. apply HttpThreadsProps.t_run_view. by vm_compute. Qed.
Theorem threads_come_to_rest_refuted : ~ threads_come_to_rest_full.
Proof.
  intros H. destruct mixed_start as (s & Hrun & [= Hd Hc _]).
  destruct (H nat true map_to_list echo_ro [] 10 wn _ s Hrun) as (m & Hm).
  destruct (notify_again map_to_list echo_ro [] 5 0 _ (S m) s Hd Hc) as (s' & H' & _); [done|].
  specialize (Hm (replicate (S m) (TNotify 5)) s' (Forall_replicate no_peer (S m) (TNotify 5) I) H'). rewrite replicate_length in Hm. lia.
Qed.
Print Assumptions threads_come_to_rest_refuted.
(** So the queue has no bound either. *)
Theorem mixed_queue_grows m : exists s s', t_run true map_to_list echo_ro [] (t_new 10 wn) [TAccept 0 5 true; TSend 0 hi] = Some s /\
  t_run true map_to_list echo_ro [] s (replicate m (TNotify 5)) = Some s' /\ length (ts_queue s') = m.
Proof.
  destruct mixed_start as (s & Hrun & [= Hd Hc Hq]).
  destruct (notify_again map_to_list echo_ro [] 5 0 _ m s Hd Hc) as (s' & H' & Hl); [done|]. exists s, s'. split; [exact Hrun|].
  split; [exact H'|]. rewrite Hl, Hq. cbn [length]. lia.
Qed.
Print Assumptions mixed_queue_grows.

(** * C225: an HTTPS server with worker threads *)

Definition worker_step (l : slab) : Prop := match l with LPop _ | LGo _ _ | LTime _ _ => True | _ => False end.
(** The worker goes to HandleRead of a session that was closed already. *)
Definition finds_closed {U} (s : ssys U) (l : slab) : bool :=
  match l with
  | LGo w _ =>
      match ss_workers s !! w with
      | Some (SGot f) => match i ← ss_map s !! f; ss_conns s !! i with Some c => bool_decide (sc_sess c = Closed) | None => false end
      | _ => false
      end
  | _ => false
  end.
Fixpoint spins {U} hit (ro : router U) e (s : ssys U) (ls : list slab) : nat :=
  match ls with
  | [] => 0
  | l :: ls' => (if finds_closed s l then 1 else 0) + match s_step hit ro e s l with Some s' => spins hit ro e s' ls' | None => 0 end
  end.
Definition s_unread {U} (s : ssys U) : nat := total (fun c => length (sc_buf c) + length (concat (sc_wire c))) (ss_conns s).
Definition https_threads_come_to_rest_full : Prop := forall U hit (ro : router U) e n w ls s,
  s_run hit ro e (s_new n w) ls = Some s ->
  exists m, forall ls' s', Forall worker_step ls' -> s_run hit ro e s ls' = Some s' -> length ls' <= m.

Section https_threads.
Context {U : Type} (hit : iter_order) (ro : router U) (e : bytes).

Definition rank (fds : gmap nat nat) (x : swst) : nat :=
  match x with
  | SFree => 0 | SLeave _ => 1 | SPeek f => match fds !! f with Some _ => 5 | None => 2 end
  | SRead _ _ => 3 | SGot _ => 4 | SAcc _ => 6
  end.
Definition ranks (fds : gmap nat nat) (ws : list swst) : nat := sum_list_with (rank fds) ws.
Lemma ranks_insert fds ws w x y : ws !! w = Some x -> ranks fds (<[w := y]> ws) + rank fds x = ranks fds ws + rank fds y.
Proof.
  unfold ranks. revert w. induction ws as [|z ws IH]; intros [|w] H; try done; cbn in H.
  - injection H as ->. change (<[0 := y]> (x :: ws)) with (y :: ws). cbn [sum_list_with]. lia.
  - change (<[S w := y]> (z :: ws)) with (z :: <[w := y]> ws). cbn [sum_list_with]. specialize (IH w H). lia.
Qed.
Lemma rank_delete fds f x : rank (delete f fds) x <= rank fds x.
Proof.
  destruct x as [|g|g|g|g j|g]; cbn [rank]; try lia. destruct (decide (f = g)) as [<-|Hne].
  - rewrite lookup_delete. destruct (fds !! f); lia.
  - rewrite lookup_delete_ne by done. lia.
Qed.
Lemma ranks_delete fds f ws : ranks (delete f fds) ws <= ranks fds ws.
Proof. unfold ranks. induction ws as [|x ws IH]; cbn [sum_list_with]; [lia|]. pose proof (rank_delete fds f x). lia. Qed.
Lemma ranks_bound fds ws : ranks fds ws <= 6 * length ws.
Proof.
  unfold ranks. induction ws as [|x ws IH]; cbn [sum_list_with length]; [lia|].
  assert (rank fds x <= 6); [|lia]. destruct x; cbn [rank]; try lia. destruct (fds !! f); lia.
Qed.

Definition s_pend (c : sconn) : nat := length (sc_buf c) + length (concat (sc_wire c)).
(** Records have come that the waiting HandleRead has not looked at. *)
Definition fresh (c : sconn) : nat :=
  match sc_sess c with NoSess | Live => if decide (sc_taken c = length (sc_wire c)) then 0 else 1 | _ => 0 end.
Definition worth_of (c : sconn) : nat := 4 * s_pend c + fresh c.
Definition s_left (s : ssys U) : nat :=
  total worth_of (ss_conns s) + 7 * length (ss_queue s) + ranks (ss_fds s) (ss_workers s) + (if ss_down s then 0 else 1).

Lemma call_less wr more s w f i c s' x : ss_down s = false -> records_of more = [] ->
  ss_workers s !! w = Some x -> (x = SGot f \/ x = SRead f i) -> ss_conns s !! i = Some c -> sc_sess c = Live ->
  s_call hit ro e wr more s w f i c = Some s' -> s_left s' < s_left s.
Proof.
  intros Hd Hm Hw Hx Hc Hl E. unfold s_call in E.
  set (own := bool_decide (ss_fds s !! f = Some i)) in E.
  destruct (handle_read_tls _ _ _ _ _ _) as [[v t]| | | | |] eqn:Ev.
  2-4, 6: injection E as <-; unfold s_left; cbn [sdown ss_conns ss_queue ss_fds ss_workers ss_down]; rewrite Hd; lia.
  2: { case_decide as Hn; [done|]. injection E as <-. unfold s_left. cbn [sconn_put sput ss_conns ss_queue ss_fds ss_workers ss_down]. rewrite Hd.
    pose proof (total_upd worth_of _ i c (set_taken (length (sc_wire c)) c) Hc) as T.
    pose proof (ranks_insert (ss_fds s) _ _ _ (SRead f i) Hw) as R. cbn [rank] in R.
    assert (F : worth_of (set_taken (length (sc_wire c)) c) = 4 * s_pend c).
    { unfold worth_of, fresh, set_taken, s_pend. cbn [sc_sess sc_taken sc_wire sc_buf]. rewrite Hl, decide_True by done. lia. }
    rewrite F in T. unfold worth_of in T at 2. destruct Hx as [->| ->].
    - cbn [rank] in R. lia.
    - cbn [rank] in R. assert (fresh c = 1); [|lia]. unfold fresh. rewrite Hl, decide_False; [done|]. intros Ht. apply Hn. by split. }
  apply tls_takes in Ev as [H1 H2]. unfold tls_held in H1, H2. cbn [tl_buf tl_items] in H1, H2.
  assert (Hrec : records_of (if own then (Rec <$> sc_wire c) ++ more else [SGap]) = if own then sc_wire c else []).
  { destruct own; [|done]. unfold records_of in *. rewrite bind_app, Hm, app_nil_r. apply records_of_recs. }
  rewrite Hrec in H1, H2.
  set (c' := SConn _ _ _ _ _ _ _ _) in E.
  pose proof (total_upd worth_of _ i c c' Hc) as T.
  assert (P : s_pend c' <= s_pend c /\ (sv_closed v = false -> s_pend c' < s_pend c)).
  { unfold s_pend, c'. cbn [sc_buf sc_wire]. destruct own; cbn [concat length] in *; [by split|]. split; [lia|]. intros Hcl. specialize (H2 Hcl). lia. }
  destruct P as [P1 P2]. unfold worth_of in T at 2 4.
  destruct (sv_closed v); injection E as <-; unfold s_left; cbn [sclose ss_conns ss_queue ss_fds ss_workers ss_down]; rewrite Hd.
  - assert (fresh c' = 0) by done.
    pose proof (ranks_insert (delete f (ss_fds s)) _ _ _ (SPeek f) Hw) as R.
    pose proof (ranks_delete (ss_fds s) f (ss_workers s)). cbn [rank] in R. rewrite lookup_delete in R.
    destruct Hx as [->| ->]; cbn [rank] in R; lia.
  - specialize (P2 eq_refl). assert (fresh c' <= 1) by (unfold fresh; repeat case_match; lia).
    pose proof (ranks_insert (ss_fds s) _ _ _ (SPeek f) Hw) as R. cbn [rank] in R.
    destruct (ss_fds s !! f); destruct Hx as [->| ->]; cbn [rank] in R; lia.
Qed.
Lemma put_less s w x y : ss_workers s !! w = Some x -> rank (ss_fds s) y < rank (ss_fds s) x -> s_left (sput s w y) < s_left s.
Proof.
  intros Hw Hr. unfold s_left. cbn [sput ss_conns ss_queue ss_fds ss_workers ss_down].
  pose proof (ranks_insert (ss_fds s) _ _ _ y Hw). lia.
Qed.
Lemma close_put_less s w x f g : ss_workers s !! w = Some x -> 1 < rank (delete f (ss_fds s)) x -> s_left (sput (sclose s f) w (SLeave g)) < s_left s.
Proof.
  intros Hw Hr. unfold s_left. cbn [sput sclose ss_conns ss_queue ss_fds ss_workers ss_down].
  pose proof (ranks_insert (delete f (ss_fds s)) _ _ _ (SLeave g) Hw). pose proof (ranks_delete (ss_fds s) f (ss_workers s)).
  cbn [rank] in *. lia.
Qed.
Lemma go_less s w wr x s' : ss_down s = false -> ss_workers s !! w = Some x -> s_go hit ro e s w wr x = Some s' ->
  finds_closed s (LGo w wr) = false -> s_left s' < s_left s.
Proof.
  intros Hd Hw E Hfc. cbn [finds_closed] in Hfc. rewrite Hw in Hfc. destruct x as [|f|f|f|f i|f]; cbn [s_go] in E; [done| | | | |].
  - destruct (ss_fds s !! f) as [j|] eqn:Hf; [|injection E as <-; eapply put_less; [exact Hw|cbn [rank]; lia]].
    destruct (ss_conns s !! j) as [c|] eqn:Hc; [|done]. cbn [mbind option_bind] in E.
    assert (Hcl : s_left (sput (sclose s f) w (SLeave f)) < s_left s) by (eapply close_put_less; [exact Hw|cbn [rank]; lia]).
    destruct (sc_sess c) eqn:Hs.
    + destruct (sc_hello c) as [[]|]; [|by injection E as <-|destruct (sc_fin c); [by injection E as <-|done]].
      injection E as <-. unfold s_left. cbn [sput smap_put sconn_put ss_conns ss_queue ss_fds ss_workers ss_down].
      pose proof (total_upd worth_of _ j c (set_sess Live c) Hc) as T.
      assert (F : worth_of (set_sess Live c) = worth_of c) by (unfold worth_of, fresh, set_sess, s_pend; cbn [sc_sess sc_taken sc_wire sc_buf]; by rewrite Hs).
      pose proof (ranks_insert (ss_fds s) _ _ _ (SPeek f) Hw) as R. cbn [rank] in R. rewrite Hf in R. lia.
    + destruct (raw c || sc_fin c); [by injection E as <-|done].
    + destruct (raw c || sc_fin c); [by injection E as <-|done].
    + destruct (raw c || sc_fin c); [by injection E as <-|done].
  - destruct (ss_fds s !! f) as [j|] eqn:Hf; [|injection E as <-; eapply put_less; [exact Hw|cbn [rank]; rewrite Hf; lia]].
    destruct (ss_conns s !! j) as [c|] eqn:Hc; [|done]. cbn [mbind option_bind] in E.
    destruct (raw c); [|destruct (sc_fin c); [|done]]; injection E as <-; (eapply put_less; [exact Hw|cbn [rank]; rewrite Hf; lia]).
  - destruct (ss_map s !! f) as [i|] eqn:Hm; [|injection E as <-; eapply close_put_less; [exact Hw|cbn [rank]; lia]].
    cbn [mbind option_bind] in Hfc. destruct (ss_conns s !! i) as [c|] eqn:Hc; [|done]. cbn [mbind option_bind] in E.
    assert (Hdn : s_left (sdown s) < s_left s) by (unfold s_left; cbn [sdown ss_conns ss_queue ss_fds ss_workers ss_down]; rewrite Hd; lia).
    destruct (sc_sess c) eqn:Hs; [by injection E as <-| |by rewrite bool_decide_eq_true_2 in Hfc|by injection E as <-].
    destruct (inside s w i); [by injection E as <-|]. eapply (call_less wr [] s w f i c); [exact Hd|reflexivity|exact Hw|by left|exact Hc|exact Hs|exact E].
  - destruct (ss_conns s !! i) as [c|] eqn:Hc; [|done]. cbn [mbind option_bind] in E. case_decide as Hs.
    + eapply (call_less wr [] s w f i c); [exact Hd|reflexivity|exact Hw|by right|exact Hc|exact Hs|exact E].
    + injection E as <-. unfold s_left. cbn [sdown ss_conns ss_queue ss_fds ss_workers ss_down]. rewrite Hd. lia.
  - destruct (ss_map s !! f) as [i|] eqn:Hm; [|injection E as <-; eapply put_less; [exact Hw|cbn [rank]; lia]].
    destruct (ss_conns s !! i) as [c|] eqn:Hc; [|done]. cbn [mbind option_bind] in E. injection E as <-.
    unfold s_left. cbn [sput smap_del sconn_put ss_conns ss_queue ss_fds ss_workers ss_down].
    set (c' := if decide (sc_sess c = Live) then set_sess Freed c else c).
    pose proof (total_upd worth_of _ i c c' Hc) as T. assert (F : worth_of c' <= worth_of c).
    { unfold c'. case_decide; [|lia]. unfold worth_of, fresh, set_sess, s_pend. cbn [sc_sess sc_taken sc_wire sc_buf]. lia. }
    pose proof (ranks_insert (ss_fds s) _ _ _ SFree Hw) as R. cbn [rank] in R. lia.
Qed.
Lemma s_step_less s l s' : worker_step l -> s_step hit ro e s l = Some s' -> 
  s_left s' + 1 <= s_left s + (if finds_closed s l then 2 else 0).
Proof.
  intros Hl E. unfold s_step in E. destruct (ss_down s) eqn:Hd; [done|]. destruct l as [i f|i good|i bs|i|w|w wr|w wr]; try done.
  - destruct (ss_workers s !! w) as [[]|] eqn:Hw; try done. destruct (ss_queue s) as [|f q] eqn:Hq; [done|]. injection E as <-.
    unfold s_left. cbn [ss_conns ss_queue ss_fds ss_workers ss_down finds_closed]. rewrite Hd, Hq.
    pose proof (ranks_insert (ss_fds s) _ _ _ (SAcc f) Hw) as R. cbn [rank] in R. cbn [length]. lia.
  - destruct (ss_workers s !! w) as [x|] eqn:Hw; [|done]. cbn [mbind option_bind] in E.
    destruct (finds_closed s (LGo w wr)) eqn:Hfc; [|pose proof (go_less _ _ _ _ _ Hd Hw E Hfc); lia].
    cbn [finds_closed] in Hfc. rewrite Hw in Hfc. destruct x as [| | |f| |]; try done. cbn [s_go] in E.
    destruct (ss_map s !! f) as [i|]; [|done]. cbn [mbind option_bind] in Hfc. destruct (ss_conns s !! i) as [c|]; [|done].
    apply bool_decide_eq_true in Hfc. cbn [mbind option_bind] in E. rewrite Hfc in E. injection E as <-.
    unfold s_left. cbn [sput ss_conns ss_queue ss_fds ss_workers ss_down].
    pose proof (ranks_insert (ss_fds s) _ _ _ (SPeek f) Hw) as R. cbn [rank] in R. destruct (ss_fds s !! f); lia.
  - destruct (ss_workers s !! w) as [x|] eqn:Hw; [|done]. cbn [mbind option_bind finds_closed] in *.
    destruct x as [|f|f|f|f i|f]; cbn [s_time] in E; try done.
    + injection E as <-. assert (s_left (sput (sclose s f) w (SLeave f)) < s_left s); [|lia]. eapply close_put_less; [exact Hw|cbn [rank]; lia].
    + injection E as <-. assert (s_left (sput s w (SLeave f)) < s_left s); [|lia]. eapply put_less; [exact Hw|].
      cbn [rank]. destruct (ss_fds s !! f); lia.
    + destruct (ss_conns s !! i) as [c|] eqn:Hc; [|done]. cbn [mbind option_bind] in E. case_decide as Hs.
      * assert (s_left s' < s_left s); [|lia]. eapply (call_less wr [SGap] s w f i c); [exact Hd|reflexivity|exact Hw|by right|exact Hc|exact Hs|exact E].
      * injection E as <-. unfold s_left. cbn [sdown ss_conns ss_queue ss_fds ss_workers ss_down]. rewrite Hd. lia.
Qed.
Lemma s_run_less ls : forall s s', Forall worker_step ls -> s_run hit ro e s ls = Some s' ->
  length ls + s_left s' <= s_left s + 2 * spins hit ro e s ls.
Proof.
  induction ls as [|l ls IH]; intros s s' Hf H; cbn [s_run spins length] in *; [injection H as <-; lia|].
  apply Forall_cons in Hf as [Hl Hf]. destruct (s_step hit ro e s l) as [s1|] eqn:E; [|done]. cbn [mbind option_bind] in H.
  pose proof (s_step_less _ _ _ Hl E). pose proof (IH _ _ Hf H). destruct (finds_closed s l); lia.
Qed.
Lemma worth_bound (m : gmap nat sconn) : total worth_of m <= 4 * total s_pend m + base.size m.
Proof.
  induction m as [|i c m Hi IH] using map_ind; [done|]. rewrite !total_insert by done. rewrite map_size_insert_None by done.
  assert (worth_of c <= 4 * s_pend c + 1); [|lia]. unfold worth_of, fresh. repeat case_match; lia.
Qed.
End https_threads.

(** The workers come to rest, unless one of them finds a closed session under the
    number it watches; each time it does costs two steps. *)
Theorem https_threads_come_to_rest_partial U hit (ro : router U) e s ls' s' :
  Forall worker_step ls' -> s_run hit ro e s ls' = Some s' ->
  length ls' <= 4 * s_unread s + base.size (ss_conns s) + 7 * length (ss_queue s) + 6 * length (ss_workers s) + 1 + 2 * spins hit ro e s ls'.
Proof.
  intros Hf H. pose proof (s_run_less hit ro e ls' s s' Hf H) as Hl. unfold s_left in Hl at 2.
  pose proof (ranks_bound (ss_fds s) (ss_workers s)). pose proof (worth_bound (ss_conns s)) as Hw. unfold s_unread.
  unfold s_pend in Hw at 1. destruct (ss_down s); lia.
Qed.
Print Assumptions https_threads_come_to_rest_partial.

Example https_threads_come_to_rest_ex : exists s, s_run map_to_list echo_ro [] (s_new 1 wn) [LAccept 0 5; LHello 0 true; LSend 0 hi] = Some s /\
  (exists s', s_run map_to_list echo_ro [] s [LPop 0; G 0; G 0; G 0] = Some s' /\ spins map_to_list echo_ro [] s [LPop 0; G 0; G 0; G 0] = 0) /\
  forall ls' s', Forall worker_step ls' -> s_run map_to_list echo_ro [] s ls' = Some s' -> length ls' <= 223 + 2 * spins map_to_list echo_ro [] s ls'.
Proof.
  eexists. split; [vm_compute; reflexivity|]. split; [eexists; split; vm_compute; reflexivity|].
  intros ls' s' Hf H. pose proof (https_threads_come_to_rest_partial _ _ _ _ _ _ _ Hf H) as Hb.
  match type of Hb with _ <= ?n + _ => assert (E : n = 223) by by vm_compute end. lia.
Qed.

(** A worker whose number was closed and given to the next peer: the bytes that this
    one sends for its handshake make the worker run HandleRead with the session of the
    one before, which returns at once, for ever. *)
Lemma spin {U} hit (ro : router U) e s w f i c j cj m : ss_down s = false -> ss_workers s !! w = Some (SPeek f) ->
  ss_fds s !! f = Some j -> ss_conns s !! j = Some cj -> raw cj = true ->
  ss_map s !! f = Some i -> ss_conns s !! i = Some c -> sc_sess c = Closed ->
  s_run hit ro e s (concat (replicate m [LGo w (WTake 99); LGo w (WTake 99)])) = Some s.
Proof.
  intros Hd Hw Hf Hj Hr Hm Hc Hs. induction m as [|m IH]; [done|]. cbn [replicate concat app s_run].
  assert (E1 : s_step hit ro e s (LGo w (WTake 99)) = Some (sput s w (SGot f))).
  { unfold s_step. rewrite Hd, Hw. cbn [mbind option_bind s_go]. rewrite Hf. cbn [mbind option_bind]. rewrite Hj. cbn [mbind option_bind]. by rewrite Hr. }
  assert (E2 : s_step hit ro e (sput s w (SGot f)) (LGo w (WTake 99)) = Some s).
  { unfold s_step. cbn [sput ss_down ss_workers]. rewrite Hd, list_lookup_insert by (by eapply lookup_lt_Some).
    cbn [mbind option_bind s_go sput ss_map ss_conns]. rewrite Hm. cbn [mbind option_bind]. rewrite Hc. cbn [mbind option_bind]. rewrite Hs.
    f_equal. unfold sput. cbn [ss_world ss_fds ss_conns ss_map ss_queue ss_workers ss_down]. rewrite list_insert_insert, list_insert_id by done.
    by destruct s. }
  rewrite E1. cbn [mbind option_bind]. rewrite E2. exact IH.
Qed.
Definition spinning : list slab :=
  [LAccept 0 5; LHello 0 true; LPop 0; G 0; LSend 0 (B "xxxx" ++ CRLFCRLF); G 0; G 0; LAccept 1 5; LHello 1 true].
Lemma spinning_end : exists s, s_run map_to_list echo_ro [] (s_new 1 wn) spinning = Some s /\
  (ss_down s, ss_workers s, ss_fds s !! 5, ss_map s !! 5, ss_queue s, sc_sess <$> ss_conns s !! 0, ss_conns s !! 1) =
  (false, [SPeek 5], Some 1, Some 0, [5], Some Closed, Some (SConn [] [] 0 false (Some true) NoSess [] [])).
Proof. apply s_run_view. by vm_compute. Qed.
Theorem https_threads_come_to_rest_refuted : ~ https_threads_come_to_rest_full.
Proof.
  intros H. destruct spinning_end as (s & Hrun & [= Hd Hw Hf Hm _ Hs Hc]).
  destruct (H nat map_to_list echo_ro [] 1 wn spinning s Hrun) as (m & Hb).
  destruct (ss_conns s !! 0) as [c|] eqn:H0; [|done]. injection Hs as Hs.
  specialize (Hb (concat (replicate (S m) [LGo 0 (WTake 99); LGo 0 (WTake 99)])) s).
  assert (Hlen : forall k, length (concat (replicate k [LGo 0 (WTake 99); LGo 0 (WTake 99)])) = 2 * k).
  { induction k as [|k IH]; [done|]. cbn [replicate concat]. rewrite app_length, IH. cbn [length]. lia. }
  rewrite Hlen in Hb. enough (2 * S m <= m) by lia. apply Hb.
  - apply Forall_concat, Forall_replicate. by repeat constructor.
  - apply (spin map_to_list echo_ro [] s 0 5 0 c 1 (SConn [] [] 0 false (Some true) NoSess [] []) (S m) Hd); [by rewrite Hw|exact Hf|exact Hc|reflexivity|exact Hm|exact H0|exact Hs].
Qed.
Print Assumptions https_threads_come_to_rest_refuted.
