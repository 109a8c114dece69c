(** Facts about an HTTP server with all its connections (HttpSystem.v). *)
From Verif.Spec Require Import ServerSpec.
From Verif.Proof Require Import ServerProof SocketProof.
From Verif.Model Require Import HttpSystem.

(** ** Reading when more has arrived *)

Definition more (l' : list item) (t : tail) (s : stream) : stream := Stream (sm_items s ++ l') t.
Definition more3 {A B} (l' : list item) (t : tail) (x : A * B * stream) : A * B * stream := (x.1, more l' t x.2).
Definition ofmap {A B} (f : A → B) (o : outcome A) : outcome B := a ← o; Ok (f a).

Lemma until_loop_more d l' t l : forall ch buf,
  until_loop d l Wait ch buf <> Blocked ->
  until_loop d (l ++ l') t ch buf = ofmap (more3 l' t) (until_loop d l Wait ch buf).
Proof.
  induction l as [|[c|] l IH]; intros ch buf H; cbn [until_loop app] in *;
    destruct (until_goes_on d buf ch) as [[]| | | | |] eqn:E; cbn [mbind outcome_bind] in *; try done.
  all: try by apply IH.
  all: destruct l' as [|[] l']; cbn [until_loop]; by rewrite E.
Qed.

Lemma grab_app n l l' b r g : grab n l = (b, r, g) -> length b = n \/ g = true ->
  grab n (l ++ l') = (b, r ++ l', g).
Proof.
  revert l b r g. induction n as [|n IH]; intros l b r g H Hc; simpl in *.
  - by injection H as <- <- <-.
  - destruct l as [|[c|] l]; simpl in *.
    + injection H as <- <- <-. destruct Hc; [done|done].
    + destruct (grab n l) as [[b1 r1] g1] eqn:E. injection H as <- <- <-.
      rewrite (IH _ _ _ _ E); [done|]. simpl in Hc. destruct Hc; [left; lia|by right].
    + by injection H as <- <- <-.
Qed.

Lemma recv_all_more n l l' t :
  recv_all n (Stream l Wait) <> Blocked ->
  recv_all n (Stream (l ++ l') t) = ofmap (more3 l' t) (recv_all n (Stream l Wait)).
Proof.
  unfold recv_all. cbn [sm_items sm_tail]. destruct (grab n l) as [[b r] g] eqn:E.
  destruct (Nat.eqb_spec (length b) n) as [Hb|Hb].
  - intros _. rewrite (grab_app _ _ l' _ _ _ E) by auto. by rewrite (proj2 (Nat.eqb_eq _ _) Hb).
  - destruct g; [|done]. intros _. rewrite (grab_app _ _ l' _ _ _ E) by auto.
    by rewrite (proj2 (Nat.eqb_neq _ _) Hb).
Qed.

Section system.
Context {U : Type}.
Implicit Types (w : world U) (ro : router U).

Definition more_served (l' : list item) (t : tail) (v : served U) : served U :=
  Served (sv_world v) (more l' t (sv_rest v)) (sv_wrote v) (sv_sent v) (sv_closed v).

Lemma answer_more hit wr ro r e w s l' t :
  answer hit wr ro r e w (more l' t s) = ofmap (more_served l' t) (answer hit wr ro r e w s).
Proof.
  unfold answer. destruct (dispatch _ _ _ _) as [cw| | | | |]; cbn [mbind outcome_bind ofmap]; try done.
  unfold respond. destruct (resp_build hit _ []) as [[rc p2] buf].
  destruct (negb (rc =? kSuccess)%Z).
  - destruct (resp_build hit _ buf) as [[rc' p3] buf3].
    destruct (sock_write wr buf3) as [[len sent]| | | | |]; done.
  - destruct (sock_write wr buf) as [[len sent]| | | | |]; done.
Qed.

Lemma handle_read_more hit wr ro e w l l' t :
  handle_read hit wr ro e w (Stream l Wait) <> Blocked ->
  handle_read hit wr ro e w (Stream (l ++ l') t) =
    ofmap (more_served l' t) (handle_read hit wr ro e w (Stream l Wait)).
Proof.
  intros H. unfold handle_read in *.
  assert (Hu : read_until [] CRLFCRLF (Stream l Wait) <> Blocked).
  { intros E. by rewrite E in H. }
  unfold read_until in *. cbn [sm_items sm_tail] in *.
  change CRLFCRLF with (CR :: drop 1 CRLFCRLF) in *. cbv iota beta in *.
  rewrite (until_loop_more _ _ _ _ _ _ Hu).
  destruct (until_loop _ l Wait NUL []) as [[[len buf] s1]| | | | |] eqn:E; cbn [mbind outcome_bind ofmap] in *; try done.
  cbn [more3 fst snd] in *.
  assert (Ht : sm_tail s1 = Wait).
  { clear -E. revert E. generalize NUL, (@nil ascii). induction l as [|[c|] l IH]; intros ch b E; cbn [until_loop] in E;
      destruct (until_goes_on _ b ch) as [[]| | | | |]; cbn [mbind outcome_bind] in E; try done.
    - injection E as _ _ <-. done.
    - by apply IH in E.
    - injection E as _ _ <-. done.
    - injection E as _ _ <-. done.
    - injection E as _ _ <-. done. }
  destruct (len <=? 0)%Z; [done|].
  destruct (req_parse req_new buf) as [[rc r]| | | | |]; cbn [mbind outcome_bind] in *; try done.
  destruct (negb (rc =? kSuccess)%Z).
  { destruct (resp_build hit _ []) as [[rc' p] rb].
    destruct (sock_write wr rb) as [[z sent]| | | | |]; done. }
  destruct (0 <? header_get_content_length (rq_header r))%Z; [|apply answer_more].
  unfold read_string in *. destruct s1 as [l1 t1]. cbn in Ht. subst t1.
  assert (Hr : recv_all (Z.to_nat (header_get_content_length (rq_header r))) (Stream l1 Wait) <> Blocked).
  { intros E1. rewrite E1 in H. done. }
  unfold more at 1. cbn [sm_items sm_tail]. rewrite (recv_all_more _ _ _ _ Hr).
  destruct (recv_all _ _) as [[[rc' b] s2]| | | | |]; cbn [mbind outcome_bind ofmap more3 fst snd] in *; try done.
  destruct (rc' <=? 0)%Z; [done|]. apply answer_more.
Qed.

Lemma answer_rest hit wr ro r e w s v : answer hit wr ro r e w s = Ok v -> sv_rest v = s.
Proof.
  unfold answer. destruct (dispatch _ _ _ _) as [cw| | | | |]; cbn [mbind outcome_bind]; try done.
  unfold respond. destruct (resp_build hit _ []) as [[rc p2] buf].
  destruct (negb (rc =? kSuccess)%Z).
  - destruct (resp_build hit _ buf) as [[rc' p3] buf3].
    destruct (sock_write wr buf3) as [[len sent]| | | | |]; cbn [mbind outcome_bind]; try done. by intros [= <-].
  - destruct (sock_write wr buf) as [[len sent]| | | | |]; cbn [mbind outcome_bind]; try done. by intros [= <-].
Qed.

(** ** Requests in pieces *)

Lemma map_Byte_nil (q : bytes) : map Byte q = [] -> q = [].
Proof. by destruct q. Qed.

Lemma handle_read_piece hit wr ro e w text r p v :
  short text -> request_text exact_name text r -> NUL ∉ rq_body r ->
  p `prefix_of` text -> p <> text ->
  handle_read hit wr ro e w (Stream (map Byte p) Wait) <> Ok v.
Proof.
  intros Hs Hr Hn [q ->] Hne Hv.
  pose proof (handle_read_request hit wr ro e w _ r [] Wait Hs Hr Hn) as H.
  rewrite map_app, app_nil_r in H.
  rewrite handle_read_more, Hv in H by (by rewrite Hv). cbn [ofmap mbind outcome_bind] in H.
  symmetry in H. apply answer_rest in H. cbn [sv_rest more_served more] in H.
  injection H as H. apply app_eq_nil in H as [_ H]. apply map_Byte_nil in H as ->.
  by rewrite app_nil_r in Hne.
Qed.

(** What a handler chain makes of [r] can be sent. *)
Definition sendable (p : resp) : Prop :=
  resp_sendable (rs_header p) /\ rs_version p <> vUNKNOWN /\ short (rs_body p).
Definition tame (ro : router U) (r : req) : Prop := forall w, exists c' w',
  dispatch ro (rt_path (rq_route r)) (ctx_new r resp_new) w = Ok (c', w') /\ sendable (cx_resp c').

(** [out] is the answer to [r]: what the handlers say, or that there is nothing. *)
Definition answers (ro : router U) (r : req) (out : bytes) : Prop := exists w w' c',
  dispatch ro (rt_path (rq_route r)) (ctx_new r resp_new) w = Ok (c', w') /\
  (rs_status (cx_resp c') <> sUNKNOWN -> response_text out (rs_status (cx_resp c')) (rs_body (cx_resp c'))) /\
  (rs_status (cx_resp c') = sUNKNOWN ->
     response_text out sNOT_FOUND (B "<html><body><h1>404 Not Found</h1></body></html>")).

Lemma handle_read_whole hit k ro e w text r l t :
  valid_order hit -> short text -> request_text exact_name text r -> NUL ∉ rq_body r -> tame ro r ->
  exists w' out, handle_read hit (WTake k) ro e w (Stream (map Byte text ++ l) t)
    = Ok (Served w' (Stream l t) [out] (take k out) false) /\ answers ro r out.
Proof.
  intros Hit Hs Hr Hn Ht. rewrite (handle_read_request _ _ _ _ _ _ r) by done.
  destruct (Ht w) as (c' & w' & Hd & Hse & Hve & Hsh). rewrite (answer_ok _ _ _ _ _ _ _ _ _ Hd).
  destruct (respond_ok hit (WTake k) (cx_resp c') e w' (Stream l t) Hit Hse Hve Hsh ltac:(done))
    as (out & sent & cl & E & H1 & H2 & _ & Hcl & Hsent).
  exists w', out. rewrite E, (Hsent k eq_refl). split; [|by exists w, w', c'].
  destruct cl; [|done]. discriminate (proj1 Hcl eq_refl).
Qed.

Lemma handle_read_piece_blocks hit k ro e w text r p :
  valid_order hit -> short text -> request_text exact_name text r -> NUL ∉ rq_body r -> tame ro r ->
  p `prefix_of` text -> p <> text ->
  handle_read hit (WTake k) ro e w (Stream (map Byte p) Wait) = Blocked.
Proof.
  intros Hit Hs Hr Hn Ht Hp Hne.
  destruct (handle_read hit (WTake k) ro e w (Stream (map Byte p) Wait)) as [v| | | | |] eqn:E;
    [by apply (handle_read_piece _ _ _ _ _ text r _ v) in E| | | |done|]; exfalso;
    destruct Hp as [q ->];
    destruct (handle_read_whole hit k ro e w _ r [] Wait Hit Hs Hr Hn Ht) as (w' & out & Hw & _);
    rewrite map_app, app_nil_r in Hw; rewrite handle_read_more, E in Hw by (by rewrite E); done.
Qed.

Lemma bytes_of_bytes b : bytes_of (map Byte b) = b.
Proof. induction b as [|c b IH]; [done|]. cbn. by f_equal. Qed.

(** ** Runs *)

Lemma sys_run_app hit ro e (s : hsys U) a b :
  sys_run hit ro e s (a ++ b) = (s' ← sys_run hit ro e s a; sys_run hit ro e s' b).
Proof.
  revert s. induction a as [|l a IH]; intros s; [done|]. simpl.
  destruct (sys_step hit ro e s l) as [s1|]; [|done]. simpl. apply IH.
Qed.
Lemma sys_run_snoc hit ro e (s s' : hsys U) ls l :
  sys_run hit ro e s (ls ++ [l]) = Some s' ->
  exists s1, sys_run hit ro e s ls = Some s1 /\ sys_step hit ro e s1 l = Some s'.
Proof.
  rewrite sys_run_app. destruct (sys_run hit ro e s ls) as [s1|]; [|done]. simpl. intros H.
  exists s1. split; [done|]. by destruct (sys_step hit ro e s1 l).
Qed.

Definition about (l : hlab) : nat :=
  match l with LOpen i | LSend i _ | LFin i | LServe i _ _ | LResume i _ | LTimeout i _ => i end.

Lemma read_event_other hit ro e wr m i c (s : hsys U) j :
  j <> i -> sy_conns (read_event hit ro e wr m i c s) !! j = sy_conns s !! j.
Proof.
  intros H. unfold read_event. destruct (handle_read _ _ _ _ _ _); cbn [sy_conns]; try done.
  by rewrite lookup_insert_ne.
Qed.

Lemma step_other hit ro e (s s' : hsys U) l j :
  sys_step hit ro e s l = Some s' -> about l <> j -> sy_conns s' !! j = sy_conns s !! j.
Proof.
  intros H Hj. assert (Hn : j <> about l) by congruence.
  destruct l as [i|i bs|i|i lv wr|i wr|i wr]; cbn [sys_step about] in *.
  - case_decide; [|done]. injection H as <-. unfold with_conn. cbn. by rewrite lookup_insert_ne.
  - destruct (sy_conns s !! i) as [c|]; [|done]. simpl in H. destruct (_ && _); [|done].
    injection H as <-. unfold with_conn. cbn. by rewrite lookup_insert_ne.
  - destruct (sy_conns s !! i) as [c|]; [|done]. simpl in H. destruct (hn_open c); [|done].
    injection H as <-. unfold with_conn. cbn. by rewrite lookup_insert_ne.
  - destruct (sy_conns s !! i) as [c|]; [|done]. simpl in H. case_decide; [|done].
    destruct lv.
    + destruct (hn_fin c); [|done]. injection H as <-. unfold with_conn. cbn. by rewrite lookup_insert_ne.
    + injection H as <-. by apply read_event_other.
  - destruct (sy_conns s !! i) as [c|]; [|done]. simpl in H. case_decide; [|done].
    case_decide; [done|]. injection H as <-. by apply read_event_other.
  - destruct (sy_conns s !! i) as [c|]; [|done]. simpl in H. case_decide; [|done].
    injection H as <-. by apply read_event_other.
Qed.

(** What the peer of connection [i] has sent. *)
Definition sent_by (i : nat) (ls : list hlab) : bytes :=
  concat (map (fun l => match l with LSend j bs => if decide (j = i) then bs else [] | _ => [] end) ls).
Lemma sent_by_snoc i ls l : sent_by i (ls ++ [l]) =
  sent_by i ls ++ match l with LSend j bs => if decide (j = i) then bs else [] | _ => [] end.
Proof. unfold sent_by. rewrite map_app, concat_app. simpl. by rewrite app_nil_r. Qed.

Lemma sent_by_none hit ro e w0 (s : hsys U) ls i :
  sys_run hit ro e (sys_new w0) ls = Some s -> sy_conns s !! i = None -> sent_by i ls = [].
Proof.
  revert s. induction ls as [|l ls IH] using rev_ind; intros s H Hi; [done|].
  apply sys_run_snoc in H as (s1 & H1 & Hl). rewrite sent_by_snoc.
  destruct (decide (about l = i)) as [E|E].
  - assert (H0 : sy_conns s1 !! i = None /\ forall bs, l <> LSend i bs).
    { destruct l as [j|j bs|j|j lv wr|j wr|j wr]; cbn [about] in E; subst j; cbn [sys_step] in Hl;
        try (destruct (sy_conns s1 !! i) as [c|] eqn:Ec; [|by cbn in Hl]; cbn [mbind option_bind] in Hl; exfalso).
      - case_decide; [|done]. injection Hl as <-. unfold with_conn in Hi. cbn in Hi. by rewrite lookup_insert in Hi.
      - destruct (_ && _); [|done]. injection Hl as <-. unfold with_conn in Hi. cbn in Hi. by rewrite lookup_insert in Hi.
      - destruct (hn_open c); [|done]. injection Hl as <-. unfold with_conn in Hi. cbn in Hi. by rewrite lookup_insert in Hi.
      - case_decide; [|done]. destruct lv.
        + destruct (hn_fin c); [|done]. injection Hl as <-. unfold with_conn in Hi. cbn in Hi. by rewrite lookup_insert in Hi.
        + injection Hl as <-. unfold read_event in Hi.
          destruct (handle_read _ _ _ _ _ _); cbn in Hi; rewrite ?lookup_insert in Hi; congruence.
      - case_decide; [|done]. case_decide; [done|]. injection Hl as <-. unfold read_event in Hi.
        destruct (handle_read _ _ _ _ _ _); cbn in Hi; rewrite ?lookup_insert in Hi; congruence.
      - case_decide; [|done]. injection Hl as <-. unfold read_event in Hi.
        destruct (handle_read _ _ _ _ _ _); cbn in Hi; rewrite ?lookup_insert in Hi; congruence. }
    destruct H0 as [H0 Hns]. rewrite (IH s1 H1 H0). simpl. destruct l; try done.
    cbn [about] in E. subst. by destruct (Hns bs).
  - rewrite (step_other _ _ _ _ _ _ _ Hl E) in Hi. rewrite (IH s1 H1 Hi). simpl.
    destruct l; try done. cbn [about] in E. by rewrite decide_False.
Qed.

(** ** Peers that send whole requests *)

(** The requests [rs], written as [texts]. *)
Definition requests (texts : list bytes) (rs : list req) : Prop :=
  Forall2 (request_text exact_name) texts rs /\ Forall short texts /\ Forall (fun r => NUL ∉ rq_body r) rs.

(** Nothing but data happens to connection [i], and send(2) does not fail. *)
Definition calm (i : nat) (l : hlab) : Prop :=
  match l with
  | LFin j => j <> i
  | LTimeout j _ => j <> i
  | LServe j _ wr | LResume j wr => j = i -> exists k, wr = WTake k
  | _ => True
  end.

Lemma requests_drop texts rs k : requests texts rs -> requests (drop k texts) (drop k rs).
Proof.
  intros (H1 & H2 & H3). split; [by apply Forall2_drop|]. split; by apply Forall_drop.
Qed.

Lemma request_text_nonempty text r : request_text exact_name text r -> text <> [].
Proof.
  intros (first & hdrs & kvs & target & params & Hm & (Hl & _) & _) ->.
  destruct Hm as (Hm & _). symmetry in Hm. apply app_eq_nil in Hm as [-> _].
  symmetry in Hl. apply app_eq_nil in Hl as [_ Hl]. done.
Qed.

(** A pending piece of some requests: it starts with a whole one, or is a piece of one. *)
Lemma pending_cases (texts : list bytes) (p : bytes) :
  p `prefix_of` concat texts -> p <> [] ->
  exists text rest, texts = text :: rest /\
    ((exists q, p = text ++ q /\ q `prefix_of` concat rest) \/ (p `prefix_of` text /\ p <> text)).
Proof.
  intros Hp Hne. destruct texts as [|text rest].
  { destruct Hp as [q Hq]. symmetry in Hq. apply app_eq_nil in Hq as [? _]. done. }
  exists text, rest. split; [done|]. simpl in Hp.
  destruct (prefix_weak_total p text (text ++ concat rest)) as [H|H]; [done|by exists (concat rest)| |].
  - destruct (decide (p = text)) as [->|Hn]; [|by right].
    left. exists []. rewrite app_nil_r. split; [done|apply prefix_nil].
  - left. destruct H as [q ->]. exists q. split; [done|]. by apply prefix_app_inv in Hp.
Qed.

Record progress (ro : router U) (i : nat) (texts : list bytes) (rs : list req) (ls : list hlab) (c : hconn) (k : nat)
    : Prop := {
  pg_open : hn_open c = true; pg_fin : hn_fin c = false;
  pg_len : length (hn_out c) = k /\ k <= length texts;
  pg_in : sent_by i ls = concat (take k texts) ++ hn_in c;
  pg_out : Forall2 (answers ro) (take k rs) (hn_out c) }.

Lemma prefix_pending texts k i ls (c : hconn) :
  sent_by i ls = concat (take k texts) ++ hn_in c -> sent_by i ls `prefix_of` concat texts ->
  hn_in c `prefix_of` concat (drop k texts).
Proof.
  intros H Hp. rewrite H in Hp.
  assert (E : concat texts = concat (take k texts) ++ concat (drop k texts)) by (by rewrite <- concat_app, take_drop).
  rewrite E in Hp. by apply prefix_app_inv in Hp.
Qed.

(** One call of HandleRead for a connection in progress. *)
Lemma read_progress hit ro e n (s : hsys U) i c texts rs ls k :
  valid_order hit -> requests texts rs -> Forall (tame ro) rs ->
  progress ro i texts rs ls c k -> sent_by i ls `prefix_of` concat texts -> hn_in c <> [] ->
  sy_conns s !! i = Some c ->
  let s' := read_event hit ro e (WTake n) [] i c s in
  (exists text rest, drop k texts = text :: rest /\ hn_in c `prefix_of` text /\ hn_in c <> text /\
     s' = HSys (sy_world s) (TIn i) (sy_conns s)) \/
  (exists w' c', s' = HSys w' TFree (<[i := c']> (sy_conns s)) /\ progress ro i texts rs ls c' (S k)).
Proof.
  intros Hit (HF & Hsh & Hnul) Htame [Ho Hf [Hk1 Hk2] Hin Hout] Hpre Hne Hi s'.
  pose proof (prefix_pending _ _ _ _ _ Hin Hpre) as Hp.
  destruct (pending_cases _ _ Hp Hne) as (text & rest & Ed & Hc).
  assert (Htk : texts !! k = Some text).
  { assert (Hd : drop k texts !! 0 = Some text) by (by rewrite Ed). rewrite lookup_drop in Hd.
    by rewrite Nat.add_0_r in Hd. }
  destruct (Forall2_lookup_l _ _ _ _ _ HF Htk) as (r & Hrk & Hr).
  pose proof (Forall_lookup_1 _ _ _ _ Hsh Htk) as Hs. pose proof (Forall_lookup_1 _ _ _ _ Hnul Hrk) as Hn.
  pose proof (Forall_lookup_1 _ _ _ _ Htame Hrk) as Ht. cbn beta in Hn.
  unfold s', read_event. rewrite app_nil_r, Hf. destruct Hc as [(q & Hq & Hqp)|[Hpp Hpn]].
  - right. rewrite Hq, map_app.
    destruct (handle_read_whole hit n ro e (sy_world s) text r (map Byte q) Wait Hit Hs Hr Hn Ht)
      as (w' & out & E & Ha).
    rewrite E. cbn [sv_world sv_rest sv_wrote sv_sent sv_closed sm_items negb].
    exists w'. eexists. split; [reflexivity|]. rewrite bytes_of_bytes. split; cbn [hn_in hn_fin hn_open hn_out].
    + done.
    + done.
    + rewrite app_length. simpl. apply lookup_lt_Some in Htk. lia.
    + rewrite Hin, (take_S_r _ _ _ Htk), concat_app, Hq. simpl. by rewrite app_nil_r, app_assoc.
    + rewrite (take_S_r _ _ _ Hrk). apply Forall2_app; [done|]. by repeat constructor.
  - left. exists text, rest. do 3 (split; [done|]).
    by rewrite (handle_read_piece_blocks hit n ro e (sy_world s) text r).
Qed.

Theorem run_progress hit ro e w0 (s : hsys U) ls i c texts rs :
  valid_order hit -> sys_run hit ro e (sys_new w0) ls = Some s -> sy_conns s !! i = Some c ->
  Forall (calm i) ls -> requests texts rs -> Forall (tame ro) rs -> sent_by i ls `prefix_of` concat texts ->
  exists k, progress ro i texts rs ls c k /\ (sy_thr s = TIn i -> hn_in c <> []).
Proof.
  intros Hit H Hi Hcalm Hreq Htame. revert s c H Hi Hcalm.
  induction ls as [|l ls IH] using rev_ind; intros s c H Hi Hcalm Hp.
  { injection H as <-. unfold sys_new in Hi. cbn [sy_conns] in Hi. by rewrite lookup_empty in Hi. }
  apply sys_run_snoc in H as (s1 & H1 & Hl). apply Forall_app in Hcalm as [Hc1 Hc2].
  apply Forall_cons in Hc2 as [Hc2 _]. pose proof Hp as Hp0. rewrite sent_by_snoc in Hp.
  assert (Hp1 : sent_by i ls `prefix_of` concat texts).
  { etrans; [|exact Hp]. by eexists. }
  destruct (decide (about l = i)) as [E|E].
  - destruct l as [j|j bs|j|j lv wr|j wr|j wr]; cbn [about] in E; subst j; cbn [sys_step calm] in *;
      try (destruct (sy_conns s1 !! i) as [c1|] eqn:Ec; [|by cbn in Hl]; cbn [mbind option_bind] in Hl;
           destruct (IH s1 c1 H1 Ec Hc1 Hp1) as (k & Hk & Hst)).
    + case_decide as Hd; [|done]. destruct Hd as [Hd1 Hd2]. injection Hl as <-. unfold with_conn in Hi. cbn in Hi.
      rewrite lookup_insert in Hi. injection Hi as <-. exists 0. split.
      * split; cbn; try done; [lia|by rewrite sent_by_snoc, (sent_by_none _ _ _ _ _ _ _ H1 Hd2)|constructor].
      * cbn. congruence.
    + rewrite decide_True in Hp by done. destruct (hn_open c1 && negb (hn_fin c1)) eqn:Eo; [|done].
      injection Hl as <-. unfold with_conn in Hi |- *. cbn in Hi. rewrite lookup_insert in Hi. injection Hi as <-.
      exists k. split.
      * destruct Hk as [? ? ? Hin ?]. split; cbn; try done. rewrite sent_by_snoc, decide_True by done.
        by rewrite Hin, app_assoc.
      * cbn. intros Ht. specialize (Hst Ht). by destruct (hn_in c1).
    + done.
    + case_decide as Hd; [|done]. destruct Hd as (Hd1 & Hd2 & Hd3). destruct lv.
      { destruct Hk as [? Hfin ? ? ?]. by rewrite Hfin in Hl. }
      injection Hl as <-. destruct (Hc2 eq_refl) as [n ->].
      assert (Hne : hn_in c1 <> []).
      { destruct Hd3 as [?|Hd3]; [done|]. destruct Hk as [? Hfin ? ? ?]. congruence. }
      assert (Hls : sent_by i (ls ++ [LServe i false (WTake n)]) = sent_by i ls) by (by rewrite sent_by_snoc, app_nil_r).
      destruct (read_progress hit ro e n s1 i c1 texts rs ls k Hit Hreq Htame Hk Hp1 Hne Ec)
        as [(text & rest & _ & _ & _ & Es)|(w' & c' & Es & Hk')]; rewrite Es in Hi |- *; cbn in Hi |- *.
      * rewrite Ec in Hi. injection Hi as <-. exists k. split; [|done]. destruct Hk. split; try done. by rewrite Hls.
      * rewrite lookup_insert in Hi. injection Hi as <-. exists (S k). split; [|done]. destruct Hk'. split; try done. by rewrite Hls.
    + case_decide as Hd; [|done]. case_decide as Hd2; [done|]. injection Hl as <-.
      destruct (Hc2 eq_refl) as [n ->].
      assert (Hls : sent_by i (ls ++ [LResume i (WTake n)]) = sent_by i ls) by (by rewrite sent_by_snoc, app_nil_r).
      destruct (read_progress hit ro e n s1 i c1 texts rs ls k Hit Hreq Htame Hk Hp1 (Hst Hd) Ec)
        as [(text & rest & _ & _ & _ & Es)|(w' & c' & Es & Hk')]; rewrite Es in Hi, Hd2 |- *; cbn in Hi, Hd2 |- *.
      * done.
      * rewrite lookup_insert in Hi. injection Hi as <-. exists (S k). split; [|done]. destruct Hk'. split; try done. by rewrite Hls.
    + done.
  - assert (Hi1 : sy_conns s1 !! i = Some c) by (by rewrite <- (step_other _ _ _ _ _ _ _ Hl E)).
    destruct (IH s1 c H1 Hi1 Hc1 Hp1) as (k & Hk & Hst). exists k.
    assert (Hls : sent_by i (ls ++ [l]) = sent_by i ls).
    { rewrite sent_by_snoc. destruct l; rewrite ?app_nil_r; try done. cbn [about] in E.
      by rewrite decide_False, app_nil_r. }
    split; [destruct Hk; split; try done; by rewrite Hls|].
    intros Ht. apply Hst. destruct l as [j|j bs|j|j lv wr|j wr|j wr]; cbn [about sys_step] in *;
      try (destruct (sy_conns s1 !! j) as [c1|]; [|done]; cbn [mbind option_bind] in Hl).
    + case_decide as Hd; [|done]. by injection Hl as <-.
    + destruct (_ && _); [|done]. by injection Hl as <-.
    + destruct (hn_open c1); [|done]. by injection Hl as <-.
    + case_decide as Hd; [|done]. destruct lv.
      * destruct (hn_fin c1); [|done]. by injection Hl as <-.
      * injection Hl as <-. unfold read_event in Ht. destruct (handle_read _ _ _ _ _ _); cbn in Ht; congruence.
    + case_decide as Hd; [|done]. case_decide; [done|]. injection Hl as <-.
      unfold read_event in Ht. destruct (handle_read _ _ _ _ _ _); cbn in Ht; congruence.
    + case_decide as Hd; [|done]. injection Hl as <-.
      unfold read_event in Ht. destruct (handle_read _ _ _ _ _ _); cbn in Ht; congruence.
Qed.
End system.
