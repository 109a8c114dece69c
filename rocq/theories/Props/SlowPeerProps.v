(** C211, C212, C213: peers that are slow to read their answers (http_server.cpp:
    HandleRead, HandleAccept; socket.cpp: Socket::Write). *)
From Verif.Spec Require Import ServerSpec.
From Verif.Model Require Import SlowPeer.
From Verif.Proof Require Import RouteProof HttpSystemProof.
From Verif.Props Require Import ServerProps HttpSystemProps.

(** ** Statements *)

(** What the server and the peers did, without the reading of the peers. *)
Definition labels (ps : list plab) : list hlab := omap (fun p => match p with PDo l => Some l | _ => None end) ps.
Definition no_give_up (p : plab) : Prop := p <> PGiveUp.
Definition server_only (p : plab) : Prop := match p with PDo l => by_server l | _ => False end.
Definition server_or_reading (p : plab) : Prop := match p with PDo l => by_server l | PRecv _ _ => True | PGiveUp => False end.
(** What peer [i] has read. *)
Definition got {U} (s : psys U) (i : nat) : bytes := take (default 0 (ps_read s !! i)) (sent (ps_sys s) i).

(** C211: a request that is waiting can be answered, whether or not the peers read. *)
Definition slow_available_full : Prop := forall U room hit (ro : router U) e w ps s i c,
  valid_order hit -> 0 < room -> p_run room hit ro e (psys_new w) ps = Some s -> Forall no_give_up ps ->
  sy_thr (ps_sys s) <> TDown -> sy_conns (ps_sys s) !! i = Some c -> hn_in c <> [] -> good_peers ro (ps_sys s) (labels ps) ->
  exists ps' s' c', Forall server_only ps' /\ p_run room hit ro e s ps' = Some s' /\
    sy_conns (ps_sys s') !! i = Some c' /\ length (hn_out c) < length (hn_out c').

(** C213: the write time-out closes the connection. *)
Definition give_up_closes_full : Prop := forall U room hit (ro : router U) e w ps s s' i t m c,
  valid_order hit -> p_run room hit ro e (psys_new w) ps = Some s -> ps_wait s = Some (i, t, m) ->
  p_step room hit ro e s PGiveUp = Some s' -> sy_conns (ps_sys s') !! i = Some c -> hn_open c = false.

(** ** Proofs *)

Section slow.
Context {U : Type} (hit : iter_order) (ro : router U) (e : bytes).

(** All but the bytes sent. *)
Definition core (c : hconn) := (hn_in c, hn_fin c, hn_open c, hn_out c).
Definition eqs (s t : hsys U) : Prop :=
  sy_world s = sy_world t /\ sy_thr s = sy_thr t /\ core <$> sy_conns s = core <$> sy_conns t.
Lemma eqs_refl s : eqs s s.
Proof. done. Qed.
Lemma eqs_sym s t : eqs s t -> eqs t s.
Proof. intros (? & ? & ?). by split_and!. Qed.
Lemma eqs_lookup s t i c : eqs s t -> sy_conns t !! i = Some c -> exists c', sy_conns s !! i = Some c' /\ core c' = core c.
Proof.
  intros (_ & _ & E) H. assert (Hx : (core <$> sy_conns s) !! i = Some (core c)) by (rewrite E, lookup_fmap, H; done).
  rewrite lookup_fmap in Hx. destruct (sy_conns s !! i) as [c'|]; [|done]. cbn [fmap option_fmap option_map] in Hx. exists c'. split; [done|by apply (inj Some)].
Qed.
Lemma eqs_none s t i : eqs s t -> sy_conns t !! i = None -> sy_conns s !! i = None.
Proof.
  intros H Ht. destruct (sy_conns s !! i) as [c|] eqn:E; [|done]. apply eqs_sym in H.
  destruct (eqs_lookup t s i c H E) as (c' & ? & _). congruence.
Qed.
Lemma eqs_insert s t w x i c c' : eqs s t -> core c = core c' -> eqs (HSys w x (<[i := c]> (sy_conns s))) (HSys w x (<[i := c']> (sy_conns t))).
Proof. intros (_ & _ & E) H. split; [done|]. split; [done|]. cbn [sy_conns]. by rewrite !fmap_insert, E, H. Qed.
Lemma eqs_thr s t w x : eqs s t -> eqs (HSys w x (sy_conns s)) (HSys w x (sy_conns t)).
Proof. intros (_ & _ & E). by split_and!. Qed.

Definition same_but_sent (o1 o2 : outcome (served U)) : Prop :=
  match o1, o2 with
  | Ok v1, Ok v2 => sv_world v1 = sv_world v2 /\ sv_rest v1 = sv_rest v2 /\ sv_wrote v1 = sv_wrote v2 /\ sv_closed v1 = sv_closed v2
  | Throw x, Throw y => x = y
  | UB, UB | Diverge, Diverge | Blocked, Blocked | Terminate, Terminate => True
  | _, _ => False
  end.
Lemma rc_take k (b : bytes) : (rc_of (take k b) <? 0)%Z = false.
Proof. unfold rc_of. destruct (Z.ltb_spec (Z.of_nat (length (take k b))) 0); [lia|done]. Qed.
Lemma answer_take k k' r w s : same_but_sent (answer hit (WTake k) ro r e w s) (answer hit (WTake k') ro r e w s).
Proof.
  unfold answer. destruct (dispatch _ _ _ _) as [cw| | | | |]; cbn [mbind outcome_bind]; try done.
  unfold respond. destruct (resp_build hit _ []) as [[rc p2] buf].
  destruct (negb (rc =? kSuccess)%Z); [destruct (resp_build hit _ buf) as [[? ?] ?]|]; cbn [sock_write mbind outcome_bind same_but_sent sv_world sv_rest sv_wrote sv_closed];
    by rewrite !rc_take.
Qed.
Lemma read_take k k' w s : same_but_sent (handle_read hit (WTake k) ro e w s) (handle_read hit (WTake k') ro e w s).
Proof.
  unfold handle_read. destruct (read_until [] CRLFCRLF s) as [[[len buf] s1]| | | | |]; cbn [mbind outcome_bind]; try done.
  destruct (len <=? 0)%Z; [done|].
  destruct (req_parse req_new buf) as [[rc r]| | | | |]; cbn [mbind outcome_bind]; try done.
  destruct (negb (rc =? kSuccess)%Z). { by destruct (resp_build hit _ []) as [[? ?] out]. }
  destruct (0 <? _)%Z; [|apply answer_take].
  destruct (read_string _ _ _ _) as [[[rc' b] s2]| | | | |]; cbn [mbind outcome_bind]; try done.
  destruct (rc' <=? 0)%Z; [done|]. apply answer_take.
Qed.
Lemma event_take s t k k' m i c c' : eqs s t -> core c = core c' ->
  eqs (read_event hit ro e (WTake k) m i c s) (read_event hit ro e (WTake k') m i c' t).
Proof.
  intros H Hc. unfold read_event. destruct H as (Hw & Ht & Hm). injection Hc as Hi Hf Ho Hu. rewrite Hw, Hi, Hf.
  pose proof (read_take k k' (sy_world t) (Stream (map Byte (hn_in c') ++ m) (if hn_fin c' then Eof else Wait))) as Hr.
  destruct (handle_read hit (WTake k) _ _ _ _) as [v| | | | |], (handle_read hit (WTake k') _ _ _ _) as [v'| | | | |]; try done;
    try (by split_and!). destruct Hr as (-> & -> & -> & ->). apply eqs_insert; [by split_and!|]. unfold core. cbn. by rewrite Hu.
Qed.
Lemma step_any s t l k k' t' : eqs s t -> sys_step hit ro e t (with_wr (WTake k) l) = Some t' ->
  exists s', sys_step hit ro e s (with_wr (WTake k') l) = Some s' /\ eqs s' t'.
Proof.
  intros H Hl. pose proof H as (Hw & Ht & Hm).
  destruct l as [i|i bs|i|i lv wr|i wr|i wr]; cbn [with_wr sys_step] in *; rewrite ?Ht;
    try (destruct (sy_conns t !! i) as [c|] eqn:Ec; [|done]; cbn [mbind option_bind] in Hl;
         destruct (eqs_lookup s t i c H Ec) as (c' & Ec' & Hcc); rewrite Ec'; cbn [mbind option_bind]; pose proof Hcc as Hcore; injection Hcc as Hi Hf Ho Hu; rewrite ?Hi, ?Hf, ?Ho, ?Hu).
  - destruct (decide _) as [[G1 G2]|] in Hl; [|done]. injection Hl as <-. rewrite decide_True by (split; [done|by eapply eqs_none]).
    eexists. split; [done|]. unfold with_conn. rewrite Hw, Ht. by apply eqs_insert.
  - destruct (_ && _); [|done]. injection Hl as <-. eexists. split; [done|]. unfold with_conn. rewrite Hw, Ht. apply eqs_insert; [done|]. unfold core. cbn. done.
  - destruct (hn_open c); [|done]. injection Hl as <-. eexists. split; [done|]. unfold with_conn. rewrite Hw, Ht. apply eqs_insert; [done|]. unfold core. cbn. done.
  - destruct (decide _); [|done]. destruct lv.
    + destruct (hn_fin c); [|done]. injection Hl as <-. eexists. split; [done|]. unfold with_conn. rewrite Hw, Ht. apply eqs_insert; [done|]. unfold core. cbn. done.
    + injection Hl as <-. eexists. split; [done|]. by apply event_take.
  - destruct (decide (sy_thr t = TIn i)); [|done].
    pose proof (event_take s t k' k [] i c' c H Hcore) as He. pose proof He as (_ & Het & _). rewrite Het.
    destruct (decide _); [done|]. injection Hl as <-. eexists. by split.
  - destruct (decide _); [|done]. injection Hl as <-. eexists. split; [done|]. by apply event_take.
Qed.

(** What a step sends. *)
Lemma step_sent s l k s' : sys_step hit ro e s (with_wr (WTake k) l) = Some s' ->
  (exists new, outs s' (whose l) = outs s (whose l) ++ new /\ sent s' (whose l) = sent s (whose l) ++ take k (concat new) /\
     is_Some (sy_conns s' !! whose l) /\ (new <> [] -> sy_thr s' = TFree)) /\
  forall j, j <> whose l -> sy_conns s' !! j = sy_conns s !! j.
Proof.
  intros Hl. split.
  2: { intros j Hj. apply (step_other _ _ _ _ _ _ _ Hl). by destruct l. }
  assert (Hre : forall m i c, sy_conns s !! i = Some c -> let x := read_event hit ro e (WTake k) m i c s in
    exists new, outs x i = outs s i ++ new /\ sent x i = sent s i ++ take k (concat new) /\ is_Some (sy_conns x !! i) /\ (new <> [] -> sy_thr x = TFree)).
  { intros m i c Hc x. unfold x, read_event, outs, sent. clear x. rewrite Hc.
    destruct (handle_read _ _ _ _ _ _) as [v| | | | |] eqn:Ev; cbn [sy_conns sy_thr]; rewrite ?lookup_insert;
      try (exists []; cbn [concat]; rewrite Hc, take_nil, !app_nil_r; split_and!; [done|done|by eexists|done]).
    exists (sv_wrote v). cbn [hn_out hn_sent]. split; [done|]. split; [|split; [by eexists|done]].
    apply handle_read_sent in Ev as [[-> ->]|(out & -> & ->)]; [by cbn [concat]; rewrite take_nil|]. cbn [concat]. by rewrite app_nil_r. }
  destruct l as [i|i bs|i|i lv wr|i wr|i wr]; cbn [with_wr sys_step whose] in *;
    try (destruct (sy_conns s !! i) as [c|] eqn:Ec; [|done]; cbn [mbind option_bind] in Hl).
  - destruct (decide _) as [[G1 G2]|] in Hl; [|done]. injection Hl as <-. exists []. unfold outs, sent, with_conn. cbn [sy_conns]. rewrite lookup_insert, G2.
    cbn [concat]. rewrite take_nil. split_and!; [done|done|by eexists|done].
  - destruct (_ && _); [|done]. injection Hl as <-. exists []. unfold outs, sent, with_conn. cbn [sy_conns]. rewrite lookup_insert, Ec.
    cbn [hn_out hn_sent concat]. rewrite take_nil, !app_nil_r. split_and!; [done|done|by eexists|done].
  - destruct (hn_open c); [|done]. injection Hl as <-. exists []. unfold outs, sent, with_conn. cbn [sy_conns]. rewrite lookup_insert, Ec.
    cbn [hn_out hn_sent concat]. rewrite take_nil, !app_nil_r. split_and!; [done|done|by eexists|done].
  - destruct (decide _); [|done]. destruct lv.
    + destruct (hn_fin c); [|done]. injection Hl as <-. exists []. unfold outs, sent, with_conn. cbn [sy_conns]. rewrite lookup_insert, Ec.
      cbn [hn_out hn_sent concat]. rewrite take_nil, !app_nil_r. split_and!; [done|done|by eexists|done].
    + injection Hl as <-. by apply Hre.
  - destruct (decide (sy_thr s = TIn i)); [|done]. destruct (decide _); [done|]. injection Hl as <-. by apply Hre.
  - destruct (decide _); [|done]. injection Hl as <-. by apply Hre.
Qed.
Lemma outs_eqs s t i : eqs s t -> outs s i = outs t i.
Proof.
  intros H. unfold outs. destruct (sy_conns t !! i) as [c|] eqn:E.
  - destruct (eqs_lookup s t i c H E) as (c' & -> & Hc). by injection Hc.
  - by rewrite (eqs_none s t i H E).
Qed.
(** ... if the buffer takes all. *)
Lemma step_full s l s' : let n := length (text_of hit ro e s l) in sys_step hit ro e s (with_wr (WTake n) l) = Some s' ->
  concat (outs s' (whose l)) = concat (outs s (whose l)) ++ text_of hit ro e s l /\
  sent s' (whose l) = sent s (whose l) ++ text_of hit ro e s l /\
  is_Some (sy_conns s' !! whose l) /\ (text_of hit ro e s l <> [] -> sy_thr s' = TFree) /\
  forall j, j <> whose l -> sy_conns s' !! j = sy_conns s !! j.
Proof.
  intros n Hs. destruct (step_any s s l n 0 s' (eqs_refl s) Hs) as (s0 & Hs0 & He).
  destruct (step_sent s l n s' Hs) as [(new & Ho & Hse & Hc & Ht) Hj].
  assert (Htx : text_of hit ro e s l = concat new).
  { unfold text_of. rewrite Hs0, (outs_eqs _ _ _ He), Ho. by rewrite drop_app. }
  split; [by rewrite Ho, concat_app, Htx|]. split; [rewrite Hse, <- Htx; f_equal; by apply take_ge|]. split; [done|]. split; [|done].
  intros Hne. apply Ht. intros ->. by rewrite Htx in Hne.
Qed.

Section room.
Context (room : nat).

(** In all states. *)
Record pinv (s : psys U) : Prop := {
  pv_read : forall i, default 0 (ps_read s !! i) + left_to_copy s i <= length (sent (ps_sys s) i);
  pv_room : forall i, unread s i <= room;
  pv_wait : forall i t m, ps_wait s = Some (i, t, m) -> 0 < m <= t /\ unread s i = room /\ is_Some (sy_conns (ps_sys s) !! i) /\ sy_thr (ps_sys s) = TFree }.

Lemma pinv_new w : pinv (psys_new w).
Proof. split; [| |done]; intros i; unfold unread, left_to_copy, sent, psys_new; cbn [ps_sys ps_wait ps_read sys_new sy_conns]; rewrite !lookup_empty; cbn; lia. Qed.
Lemma sent_same (s s' : hsys U) j : sy_conns s' !! j = sy_conns s !! j -> sent s' j = sent s j.
Proof. unfold sent. by intros ->. Qed.
Lemma peer_step s l s' : by_peer l = true -> sys_step hit ro e s l = Some s' ->
  (forall j, sent s' j = sent s j) /\ (forall j, outs s' j = outs s j) /\ (forall j, is_Some (sy_conns s !! j) -> is_Some (sy_conns s' !! j)) /\ sy_thr s' = sy_thr s.
Proof.
  intros Hp Hl. destruct l as [i|i bs|i| | |]; try done; cbn [sys_step] in Hl;
    (destruct (sy_conns s !! i) as [c|] eqn:Ec; [|done]; cbn [mbind option_bind] in Hl).
  - destruct (_ && _); [|done]. injection Hl as <-. unfold with_conn, sent, outs. cbn [sy_conns sy_thr]. split_and!; [..|done]; intros j;
      (destruct (decide (i = j)) as [<-|Hne]; [rewrite lookup_insert, ?Ec|by rewrite lookup_insert_ne]); [done|done|by eexists].
  - destruct (hn_open c); [|done]. injection Hl as <-. unfold with_conn, sent, outs. cbn [sy_conns sy_thr]. split_and!; [..|done]; intros j;
      (destruct (decide (i = j)) as [<-|Hne]; [rewrite lookup_insert, ?Ec|by rewrite lookup_insert_ne]); [done|done|by eexists].
Qed.

Lemma p_step_inv s p s' : pinv s -> p_step room hit ro e s p = Some s' -> pinv s'.
Proof.
  intros HI Hp. destruct p as [l|i n|]; cbn [p_step] in Hp.
  - destruct (ps_wait s) as [[[j t] m]|] eqn:Ew.
    + destruct (by_peer l) eqn:Hbp; [|done]. destruct (sys_step hit ro e (ps_sys s) l) as [y|] eqn:Es; [|done]. cbn [mbind option_bind] in Hp. injection Hp as <-.
      destruct (peer_step _ _ _ Hbp Es) as (Hse & _ & Hc & Ht).
      assert (Hun : forall i, unread (PSys y (Some (j, t, m)) (ps_read s)) i = unread s i).
      { intros i. unfold unread, left_to_copy. cbn [ps_sys ps_wait ps_read]. by rewrite Hse, Ew. }
      split; cbn [ps_sys ps_wait ps_read].
      * intros i. unfold left_to_copy. cbn [ps_wait]. rewrite Hse. pose proof (pv_read s HI i) as H. unfold left_to_copy in H. by rewrite Ew in H.
      * intros i. rewrite Hun. apply (pv_room s HI).
      * intros i t' m' [= <- <- <-]. destruct (pv_wait s HI j t m Ew) as (H1 & H2 & H3 & H4). rewrite Hun, Ht. split_and!; try done; [lia|lia|]. by apply Hc.
    + destruct (sys_step _ _ _ _ _) as [y|] eqn:Es in Hp; [|done]. cbn [mbind option_bind] in Hp. injection Hp as <-.
      destruct (step_full _ _ _ Es) as (_ & Hse & Hc & Ht & Hj). set (tx := text_of hit ro e (ps_sys s) l) in *. set (i0 := whose l) in *.
      assert (Hl0 : forall i, left_to_copy s i = 0) by (intros i; unfold left_to_copy; by rewrite Ew).
      pose proof (pv_read s HI i0) as R0. pose proof (pv_room s HI i0) as M0. rewrite Hl0 in R0.
      assert (U0 : unread s i0 = length (sent (ps_sys s) i0) - default 0 (ps_read s !! i0)) by (unfold unread; rewrite Hl0; lia).
      destruct (Nat.leb_spec (length tx) (room - unread s i0)) as [Hle|Hgt].
      * split; cbn [ps_sys ps_wait ps_read]; [| |done].
        -- intros i. unfold left_to_copy. cbn [ps_wait]. destruct (decide (i = i0)) as [->|Hne].
           ++ rewrite Hse, app_length. lia.
           ++ rewrite (sent_same _ _ _ (Hj i Hne)). pose proof (pv_read s HI i). lia.
        -- intros i. unfold unread, left_to_copy. cbn [ps_wait ps_sys ps_read]. destruct (decide (i = i0)) as [->|Hne].
           ++ rewrite Hse, app_length. lia.
           ++ rewrite (sent_same _ _ _ (Hj i Hne)). pose proof (pv_room s HI i) as H. unfold unread in H. rewrite Hl0 in H. lia.
      * assert (Hu : unread (PSys y (Some (i0, length tx, length tx - (room - unread s i0))) (ps_read s)) i0 = room).
        { unfold unread at 1. unfold left_to_copy. cbn [ps_wait ps_sys ps_read]. rewrite decide_True by done. rewrite Hse, app_length. lia. }
        split; cbn [ps_sys ps_wait ps_read].
        -- intros i. unfold left_to_copy. cbn [ps_wait]. destruct (decide (i0 = i)) as [<-|Hne].
           ++ rewrite Hse, app_length. lia.
           ++ rewrite (sent_same _ _ _ (Hj i (not_eq_sym Hne))). pose proof (pv_read s HI i). lia.
        -- intros i. destruct (decide (i0 = i)) as [<-|Hne]; [by rewrite Hu|].
           unfold unread, left_to_copy. cbn [ps_wait ps_sys ps_read]. rewrite decide_False by done.
           rewrite (sent_same _ _ _ (Hj i (not_eq_sym Hne))). pose proof (pv_room s HI i) as H. unfold unread in H. rewrite Hl0 in H. lia.
        -- intros i t m [= <- <- <-]. split_and!; [lia|lia|done|done|]. apply Ht. intros E. rewrite E in Hgt. cbn in Hgt. lia.
  - destruct (decide _) as [[Hn0 Hn]|]; [|done]. injection Hp as <-.
    assert (Hlk : forall j, default 0 (<[i := default 0 (ps_read s !! i) + n]> (ps_read s) !! j) = default 0 (ps_read s !! j) + if decide (i = j) then n else 0).
    { intros j. destruct (decide (i = j)) as [<-|]; [by rewrite lookup_insert|]. rewrite lookup_insert_ne by done. lia. }
    destruct (ps_wait s) as [[[j t] m]|] eqn:Ew.
    + destruct (pv_wait s HI j t m Ew) as (H1 & H2 & H3 & H4). destruct (decide (j = i)) as [->|Hji].
      * assert (Hli : forall k, left_to_copy s k = if decide (i = k) then m else 0) by (intros k; unfold left_to_copy; by rewrite Ew).
        destruct (Nat.leb_spec m n).
        -- split; cbn [ps_sys ps_wait ps_read]; [| |done]; intros k; unfold unread, left_to_copy; cbn [ps_sys ps_wait ps_read]; rewrite Hlk;
             pose proof (pv_read s HI k) as R; pose proof (pv_room s HI k) as M; unfold unread in M, Hn, H2; rewrite Hli in *; destruct (decide (i = k)) as [<-|];
             rewrite ?decide_True in * by done; lia.
        -- assert (Hu : forall k, unread (PSys (ps_sys s) (Some (i, t, m - n)) (<[i := default 0 (ps_read s !! i) + n]> (ps_read s))) k = unread s k).
           { intros k. unfold unread, left_to_copy. cbn [ps_sys ps_wait ps_read]. rewrite Hlk, Ew. pose proof (pv_read s HI k) as R. rewrite Hli in R. destruct (decide (i = k)) as [<-|]; lia. }
           split; cbn [ps_sys ps_wait ps_read].
           ++ intros k. unfold left_to_copy. cbn [ps_wait]. rewrite Hlk. pose proof (pv_read s HI k) as R. rewrite Hli in R. destruct (decide (i = k)) as [<-|]; lia.
           ++ intros k. rewrite Hu. apply (pv_room s HI).
           ++ intros k t' m' [= <- <- <-]. rewrite Hu. split_and!; try done; lia.
      * assert (Hli : forall k, left_to_copy (PSys (ps_sys s) (Some (j, t, m)) (<[i := default 0 (ps_read s !! i) + n]> (ps_read s))) k = left_to_copy s k) by (intros k; unfold left_to_copy; by rewrite Ew).
        split; cbn [ps_sys ps_wait ps_read].
        -- intros k. rewrite Hli, Hlk. pose proof (pv_read s HI k) as R. unfold unread in Hn. destruct (decide (i = k)) as [<-|]; lia.
        -- intros k. unfold unread. rewrite Hli. cbn [ps_sys ps_read]. rewrite Hlk. pose proof (pv_room s HI k) as M. unfold unread in M. destruct (decide (i = k)) as [<-|]; lia.
        -- intros k t' m' [= <- <- <-]. split_and!; try done; [lia|lia|]. unfold unread. rewrite Hli. cbn [ps_sys ps_read]. rewrite Hlk, decide_False by done. unfold unread in H2. lia.
    + assert (Hli : forall k, left_to_copy s k = 0) by (intros k; unfold left_to_copy; by rewrite Ew).
      split; cbn [ps_sys ps_wait ps_read]; [| |done]; intros k; unfold unread, left_to_copy; cbn [ps_sys ps_wait ps_read]; rewrite Hlk;
        pose proof (pv_read s HI k) as R; pose proof (pv_room s HI k) as M; unfold unread in M, Hn; rewrite Hli in *; destruct (decide (i = k)) as [<-|]; lia.
  - destruct (ps_wait s) as [[[i t] m]|] eqn:Ew; [|done]. cbn [mbind option_bind] in Hp.
    destruct (sy_conns (ps_sys s) !! i) as [c|] eqn:Ec; [|done]. cbn [mbind option_bind] in Hp. injection Hp as <-.
    destruct (pv_wait s HI i t m Ew) as (H1 & H2 & H3 & H4).
    assert (Hli : forall k, left_to_copy s k = if decide (i = k) then m else 0) by (intros k; unfold left_to_copy; by rewrite Ew).
    assert (Hse : sent (ps_sys s) i = hn_sent c) by (unfold sent; by rewrite Ec).
    assert (Hlen : forall k, length (sent (with_conn (ps_sys s) i (HConn (hn_in c) (hn_fin c) (hn_open c && negb (m =? t)) (hn_out c) (take (length (hn_sent c) - m) (hn_sent c)))) k)
      = length (sent (ps_sys s) k) - left_to_copy s k).
    { intros k. rewrite Hli. unfold sent, with_conn. cbn [sy_conns]. destruct (decide (i = k)) as [<-|Hne].
      - rewrite lookup_insert, Ec. cbn [hn_sent]. rewrite take_length. lia.
      - rewrite lookup_insert_ne by done. lia. }
    split; cbn [ps_sys ps_wait ps_read]; [| |done]; intros k; unfold unread, left_to_copy at 1; cbn [ps_sys ps_wait ps_read]; rewrite Hlen;
      pose proof (pv_read s HI k) as R; pose proof (pv_room s HI k) as M; unfold unread in M; lia.
Qed.
Lemma p_run_inv ps : forall s s', pinv s -> p_run room hit ro e s ps = Some s' -> pinv s'.
Proof.
  induction ps as [|p ps IH]; intros s s' HI H; cbn [p_run] in H; [by injection H as <-|].
  destruct (p_step room hit ro e s p) as [y|] eqn:E; [|done]. apply (IH y); [|done]. by apply (p_step_inv s p).
Qed.
Lemma p_run_app a b : forall s, p_run room hit ro e s (a ++ b) = (s' ← p_run room hit ro e s a; p_run room hit ro e s' b).
Proof.
  induction a as [|l a IH]; intros s; [done|]. cbn [app p_run].
  destruct (p_step room hit ro e s l) as [s1|]; [|done]. cbn [mbind option_bind]. apply IH.
Qed.

(** Without giving up: a run of HttpSystem.v in which every write takes all. *)
Definition like (l l' : hlab) : Prop := exists k, l' = with_wr (WTake k) l.
Lemma follow ps : forall s s', Forall no_give_up ps -> p_run room hit ro e s ps = Some s' ->
  exists ls, Forall2 like (labels ps) ls /\ sys_run hit ro e (ps_sys s) ls = Some (ps_sys s').
Proof.
  induction ps as [|p ps IH]; intros s s' Hg H; cbn [p_run] in H.
  - injection H as <-. exists []. split; [constructor|done].
  - apply Forall_cons in Hg as [Hp Hg]. destruct (p_step room hit ro e s p) as [y|] eqn:E; [|done]. cbn [mbind option_bind] in H.
    destruct (IH y s' Hg H) as (ls & HF & Hr). destruct p as [l|i n|]; [| |done]; cbn [p_step] in E.
    + change (labels (PDo l :: ps)) with (l :: labels ps). destruct (ps_wait s) as [x|].
      * destruct (by_peer l) eqn:Hb; [|done]. destruct (sys_step hit ro e (ps_sys s) l) as [z|] eqn:Es; [|done]. cbn [mbind option_bind] in E. injection E as <-.
        exists (l :: ls). split; [constructor; [exists 0; by destruct l|done]|]. cbn [sys_run]. by rewrite Es.
      * destruct (sys_step _ _ _ _ _) as [z|] eqn:Es in E; [|done]. cbn [mbind option_bind] in E. injection E as <-.
        eexists (_ :: ls). split; [constructor; [by eexists|done]|]. cbn [sys_run]. by rewrite Es.
    + change (labels (PRecv i n :: ps)) with (labels ps). destruct (decide _); [|done]. injection E as <-. by exists ls.
Qed.
Lemma like_sent i ls ls' : Forall2 like ls ls' -> sent_by i ls' = sent_by i ls.
Proof. induction 1 as [|l l' ls ls' [k ->] _ IH]; [done|]. unfold sent_by in *. cbn. rewrite IH. by destruct l. Qed.
Lemma like_stays i ls ls' : Forall2 like ls ls' -> Forall (stays i) ls -> Forall (stays i) ls'.
Proof. induction 1 as [|l l' ls ls' [k ->] _ IH]; intros H; [done|]. apply Forall_cons in H as [H1 H2]. constructor; [by destruct l|by apply IH]. Qed.
Lemma like_writes ls ls' : Forall2 like ls ls' -> Forall writes_go_through ls'.
Proof. induction 1 as [|l l' ls ls' [k ->] _ IH]; constructor; [|done]. by destruct l; try (by exists k). Qed.

(** The peer reads until the write is done. *)
Lemma drain s : 0 < room -> pinv s -> exists ps' s', Forall server_or_reading ps' /\ p_run room hit ro e s ps' = Some s' /\
  ps_wait s' = None /\ ps_sys s' = ps_sys s.
Proof.
  intros Hroom HI. destruct (ps_wait s) as [[[i t] m]|] eqn:Ew; [|exists [], s; by split_and!].
  revert s t HI Ew. induction (lt_wf m) as [m _ IH]. intros s t HI Ew.
  destruct (pv_wait s HI i t m Ew) as (H1 & H2 & H3 & H4).
  assert (E : exists s1, p_step room hit ro e s (PRecv i room) = Some s1 /\ ps_sys s1 = ps_sys s /\ ps_wait s1 = if m <=? room then None else Some (i, t, m - room)).
  { cbn [p_step]. rewrite decide_True by lia. eexists. split; [done|]. cbn [ps_sys ps_wait]. rewrite Ew, decide_True by done. done. }
  destruct E as (s1 & E & Es & Ew1). pose proof (p_step_inv _ _ _ HI E) as HI1.
  destruct (Nat.leb_spec m room).
  - exists [PRecv i room], s1. split; [by repeat constructor|]. cbn [p_run]. rewrite E. by split_and!.
  - destruct (IH (m - room) ltac:(lia) s1 t HI1 Ew1) as (ps' & s' & HF & Hr & Hw & Hs).
    exists (PRecv i room :: ps'), s'. split; [by constructor|]. cbn [p_run]. rewrite E. cbn [mbind option_bind]. split_and!; [done|done|congruence].
Qed.
Lemma lift ls : 0 < room -> forall s t t', pinv s -> ps_wait s = None -> eqs (ps_sys s) t -> Forall by_server ls -> Forall writes_go_through ls ->
  sys_run hit ro e t ls = Some t' ->
  exists ps' s', Forall server_or_reading ps' /\ p_run room hit ro e s ps' = Some s' /\ eqs (ps_sys s') t'.
Proof.
  intros Hroom. induction ls as [|l ls IH]; intros s t t' HI Hw He Hb Hg H; cbn [sys_run] in H.
  { injection H as <-. exists [], s. by split_and!. }
  apply Forall_cons in Hb as [Hb1 Hb]. apply Forall_cons in Hg as [Hg1 Hg].
  destruct (sys_step hit ro e t l) as [t1|] eqn:Et; [|done]. cbn [mbind option_bind] in H.
  assert (Hl : exists k, l = with_wr (WTake k) l). { destruct l; try done; destruct Hg1 as [k ->]; by exists k. }
  destruct Hl as [k Hl]. rewrite Hl in Et.
  destruct (step_any (ps_sys s) t l k (length (text_of hit ro e (ps_sys s) l)) t1 He Et) as (y & Ey & Hey).
  assert (E1 : exists s1, p_step room hit ro e s (PDo l) = Some s1 /\ ps_sys s1 = y).
  { cbn [p_step]. rewrite Hw, Ey. cbn [mbind option_bind]. by eexists. }
  destruct E1 as (s1 & E1 & Es1). pose proof (p_step_inv _ _ _ HI E1) as HI1.
  destruct (drain s1 Hroom HI1) as (pd & s2 & Hd & Hrd & Hwd & Hsd).
  destruct (IH s2 t1 t') as (ps' & s' & HF & Hr & Hes); [by apply (p_run_inv pd s1)|done| |done|done|done|].
  { by rewrite Hsd, Es1. }
  exists (PDo l :: pd ++ ps'), s'. split; [constructor; [done|by apply Forall_app]|]. split; [|done].
  cbn [p_run]. rewrite E1. cbn [mbind option_bind]. rewrite p_run_app, Hrd. done.
Qed.
End room.
End slow.

(** ** Theorems *)

(** C211: a request that is waiting can be answered if the peers read when the server waits
    for them. *)
Theorem slow_available_partial : forall U room hit (ro : router U) e w ps s i c,
  valid_order hit -> 0 < room -> p_run room hit ro e (psys_new w) ps = Some s -> Forall no_give_up ps ->
  sy_thr (ps_sys s) <> TDown -> sy_conns (ps_sys s) !! i = Some c -> hn_in c <> [] -> good_peers ro (ps_sys s) (labels ps) ->
  exists ps' s' c', Forall server_or_reading ps' /\ p_run room hit ro e s ps' = Some s' /\
    sy_conns (ps_sys s') !! i = Some c' /\ length (hn_out c) < length (hn_out c').
Proof.
  intros U room hit ro e w ps s i c Hit Hroom H Hg Hd Hc Hin Hgood.
  pose proof (p_run_inv hit ro e room ps _ _ (pinv_new room w) H) as HI.
  destruct (follow hit ro e room ps _ _ Hg H) as (ls & HL & Hr). cbn [psys_new ps_sys] in Hr.
  destruct (available_partial U hit ro e w ls (ps_sys s) i c Hit Hr Hd Hc Hin (like_writes _ _ HL)) as (ls' & t' & c' & Hb & Hw & Hr' & Hc' & Hlen).
  { intros j cj Hj. destruct (Hgood j cj Hj) as (Hst & texts & rs & H1 & H2 & H3). split; [by apply (like_stays j _ _ HL)|].
    exists texts, rs. split_and!; [done|done|]. by rewrite (like_sent j _ _ HL). }
  destruct (drain hit ro e room s Hroom HI) as (pd & s1 & Hpd & Hrd & Hwd & Hsd).
  destruct (lift hit ro e room ls' Hroom s1 (ps_sys s) t') as (ps' & s' & HF & Hr2 & He); [by apply (p_run_inv hit ro e room pd s)|done|by rewrite Hsd|done..|].
  destruct (eqs_lookup _ _ i c' He Hc') as (c2 & Hc2 & Hcore). injection Hcore as _ _ _ Hu.
  exists (pd ++ ps'), s', c2. split; [by apply Forall_app|]. split; [by rewrite p_run_app, Hrd|]. split; [done|]. by rewrite Hu.
Qed.

(** The peer of 0 asks again and again and does not read. *)
Definition asks (text : bytes) (n : nat) : list plab := concat (replicate n [PDo (LSend 0 text); PDo (LServe 0 false (WTake 0))]).
(** C211, otherwise: whatever the size of the buffer and whatever is asked for, a peer that
    asks and does not read stops the server; the request of another peer waits, and the
    server can neither accept, nor read, nor answer, nor time out a read. *)
Theorem one_peer_stops_all : forall U room hit (ro : router U) e w text r,
  valid_order hit -> request_text exact_name text r -> short text -> NUL ∉ rq_body r -> tame ro r ->
  exists n s, p_run room hit ro e (psys_new w) (PDo (LOpen 0) :: PDo (LOpen 1) :: asks text n ++ [PDo (LSend 1 text)]) = Some s /\
    sy_conns (ps_sys s) !! 1 = Some (HConn text false true [] []) /\ forall l, (forall i b, l <> LSend i b) -> (forall i, l <> LFin i) -> p_step room hit ro e s (PDo l) = None.
Proof.
  intros U room hit ro e w text r Hit Hr Hs Hn Ht.
  assert (Hne : text <> []) by (by eapply request_text_nonempty).
  set (s0 := PSys (HSys w TFree (<[1 := hconn_new]> (<[0 := hconn_new]> ∅))) None ∅ : psys U).
  assert (E0 : forall ps, p_run room hit ro e (psys_new w) (PDo (LOpen 0) :: PDo (LOpen 1) :: ps) = p_run room hit ro e s0 ps).
  { assert (Hop : forall cs i, cs !! i = None -> p_step room hit ro e (PSys (HSys w TFree cs) None ∅) (PDo (LOpen i)) = Some (PSys (HSys w TFree (<[i := hconn_new]> cs)) None ∅)).
    { intros cs i Hi. cbn [p_step ps_wait ps_sys whose ps_read]. unfold text_of. cbn [with_wr sys_step sy_thr sy_conns whose].
      rewrite decide_True by done. cbn [mbind option_bind]. unfold outs, with_conn. cbn [sy_conns sy_world sy_thr]. rewrite Hi, lookup_insert. done. }
    intros ps. cbn [p_run]. unfold psys_new at 1, sys_new. rewrite Hop by apply lookup_empty. cbn [mbind option_bind].
    rewrite Hop by (by rewrite lookup_insert_ne, lookup_empty). done. }
  assert (HI0 : pinv room s0).
  { split; [| |done]; intros i; unfold unread, left_to_copy, sent, s0; cbn [ps_sys ps_wait ps_read sy_conns]; rewrite lookup_empty; [cbn; lia|].
    destruct (decide (i = 1)) as [->|]; [rewrite lookup_insert; cbn; lia|]. rewrite lookup_insert_ne by done.
    destruct (decide (i = 0)) as [->|]; [rewrite lookup_insert; cbn; lia|]. rewrite lookup_insert_ne, lookup_empty by done. cbn. lia. }
  assert (Hgen : forall n, exists m s, m <= n /\ p_run room hit ro e s0 (asks text m) = Some s /\ sy_conns (ps_sys s) !! 1 = Some hconn_new /\
    (is_Some (ps_wait s) \/
     ps_wait s = None /\ sy_thr (ps_sys s) = TFree /\ ps_read s = ∅ /\ exists c, sy_conns (ps_sys s) !! 0 = Some c /\ hn_in c = [] /\ hn_fin c = false /\ hn_open c = true /\ n <= length (hn_sent c))).
  { induction n as [|n (m & s & Hm & Hrun & H1 & Hst)].
    - exists 0, s0. split; [done|]. split; [done|]. unfold s0. cbn [ps_sys sy_conns ps_wait sy_thr ps_read]. rewrite lookup_insert. split; [done|]. right.
      split_and!; try done. exists hconn_new. rewrite lookup_insert_ne, lookup_insert by done. split_and!; done.
    - destruct Hst as [Hw|(Hw & Hth & Hrd & c & Hc & Hin & Hf & Ho & Hlen)]; [exists m, s; split; [lia|]; split_and!; [done|done|by left]|].
      destruct s as [[w1 th m1] wt rd]. cbn [ps_sys sy_thr ps_wait sy_conns ps_read] in *. subst wt th rd.
      destruct (handle_read_whole hit 0 ro e w1 text r [] Wait Hit Hs Hr Hn Ht) as (w' & out & Hh & Hans). rewrite app_nil_r in Hh. cbn [take] in Hh.
      destruct (handle_read_whole hit (length out) ro e w1 text r [] Wait Hit Hs Hr Hn Ht) as (w2 & out2 & Hh2 & _). rewrite app_nil_r in Hh2.
      pose proof (read_take hit ro e 0 (length out) w1 (Stream (map Byte text) Wait)) as Hrt. rewrite Hh, Hh2 in Hrt. cbn in Hrt.
      destruct Hrt as (<- & _ & [= <-] & _). rewrite firstn_all in Hh2.
      assert (Hout : out <> []).
      { destruct Hans as (w3 & w4 & c' & _ & Ha & Hb). destruct (decide (rs_status (cx_resp c') = sUNKNOWN)) as [Eu|Eu]; [specialize (Hb Eu)|specialize (Ha Eu); clear Hb; rename Ha into Hb];
          destruct Hb as (first & hdrs & ver & (Hm2 & _) & _); intros ->; by destruct first. }
      set (c1 := HConn text false true (hn_out c) (hn_sent c)).
      set (c2 := HConn [] false true (hn_out c ++ [out]) (hn_sent c ++ out)).
      assert (Hstep : exists wt, p_run room hit ro e (PSys (HSys w1 TFree m1) None ∅) [PDo (LSend 0 text); PDo (LServe 0 false (WTake 0))] =
        Some (PSys (HSys w' TFree (<[0 := c2]> (<[0 := c1]> m1))) wt ∅)).
      { assert (E1 : p_step room hit ro e (PSys (HSys w1 TFree m1) None ∅) (PDo (LSend 0 text)) = Some (PSys (HSys w1 TFree (<[0 := c1]> m1)) None ∅)).
        { cbn [p_step ps_wait ps_sys ps_read whose]. unfold text_of. cbn [with_wr sys_step sy_conns whose]. rewrite Hc. cbn [mbind option_bind].
          rewrite Ho, Hf. cbn [andb negb mbind option_bind]. unfold outs, with_conn. cbn [sy_conns sy_world sy_thr]. rewrite lookup_insert, Hc. cbn [hn_out]. rewrite drop_all. cbn [concat length Nat.leb].
          by rewrite Hin. }
        cbn [p_run]. rewrite E1. cbn [mbind option_bind p_step ps_wait ps_sys ps_read whose].
        assert (Hev : forall k, k = 0 \/ k = length out -> read_event hit ro e (WTake k) [] 0 c1 (HSys w1 TFree (<[0 := c1]> m1)) =
          HSys w' TFree (<[0 := HConn [] false true (hn_out c ++ [out]) (hn_sent c ++ take k out)]> (<[0 := c1]> m1))).
        { intros k Hk. unfold read_event, c1. cbn [hn_in hn_fin hn_out hn_sent sy_world sy_conns]. rewrite app_nil_r.
          destruct Hk as [->| ->]; [rewrite Hh|rewrite Hh2]; cbn [sv_world sv_rest sv_closed sv_wrote sv_sent sm_items bytes_of negb]; [done|by rewrite firstn_all]. }
        assert (Htx : text_of hit ro e (HSys w1 TFree (<[0 := c1]> m1)) (LServe 0 false (WTake 0)) = out).
        { unfold text_of. cbn [with_wr sys_step sy_conns whose sy_thr]. rewrite lookup_insert. cbn [mbind option_bind].
          rewrite decide_True by (split; [done|]; split; [done|by left]). rewrite (Hev 0) by (by left). unfold outs. cbn [sy_conns]. rewrite !lookup_insert. cbn [hn_out c1]. rewrite drop_app. cbn. by rewrite app_nil_r. }
        rewrite Htx. cbn [with_wr sys_step sy_conns sy_thr]. rewrite lookup_insert. cbn [mbind option_bind].
        rewrite decide_True by (split; [done|]; split; [done|by left]). rewrite (Hev (length out)) by (by right). cbn [mbind option_bind]. rewrite firstn_all. by eexists. }
      destruct Hstep as [wt Hstep].
      exists (S m), (PSys (HSys w' TFree (<[0 := c2]> (<[0 := c1]> m1))) wt ∅). split; [lia|]. split.
      { unfold asks. rewrite replicate_S_end, concat_app, p_run_app. fold (asks text m). rewrite Hrun. cbn [mbind option_bind concat]. rewrite app_nil_r. exact Hstep. }
      cbn [ps_sys sy_conns ps_wait sy_thr ps_read]. rewrite !lookup_insert_ne by done. split; [done|].
      destruct wt as [x|]; [left; by eexists|]. right. split_and!; try done. exists c2. rewrite lookup_insert. split_and!; try done.
      unfold c2. cbn [hn_sent]. rewrite app_length. destruct out; [done|]. cbn [length]. lia. }
  destruct (Hgen (S room)) as (n & s & _ & Hrun & H1 & Hst).
  pose proof (p_run_inv hit ro e room _ _ _ HI0 Hrun) as HI.
  assert (Hw : is_Some (ps_wait s)).
  { destruct Hst as [Hw|(Hw & Hth & Hrd & c & Hc & Hin & Hf & Ho & Hlen)]; [done|]. exfalso.
    pose proof (pv_room room s HI 0) as M. unfold unread, left_to_copy, sent in M. rewrite Hw, Hrd, Hc, lookup_empty in M. cbn in M. lia. }
  destruct Hw as [x Hw]. exists n. eexists. split.
  { rewrite E0, p_run_app, Hrun. cbn [mbind option_bind p_run p_step]. rewrite Hw. cbn [by_peer sys_step]. rewrite H1. cbn [mbind option_bind hn_open hn_fin hconn_new andb negb hn_in app hn_out hn_sent]. done. }
  cbn [ps_sys with_conn sy_conns]. rewrite lookup_insert. split; [done|].
  intros l Hs1 Hf1. cbn [p_step ps_wait]. destruct l as [| j b|j| | |]; try done; [by destruct (Hs1 j b)|by destruct (Hf1 j)].
Qed.

(** C212: what a peer has read is the beginning of its answers, in order; what it has not
    read is in the buffer or waits in Write.  The server waits for a peer only when this
    peer has left a whole buffer unread. *)
Theorem slow_bytes : forall U room hit (ro : router U) e w ps s,
  p_run room hit ro e (psys_new w) ps = Some s ->
  (forall i t m, ps_wait s = Some (i, t, m) -> 0 < m /\ unread s i = room) /\ (forall i, unread s i <= room) /\
  (Forall no_give_up ps -> forall i, got s i `prefix_of` concat (outs (ps_sys s) i) /\
     length (concat (outs (ps_sys s) i)) = length (got s i) + unread s i + left_to_copy s i).
Proof.
  intros U room hit ro e w ps s H. pose proof (p_run_inv hit ro e room ps _ _ (pinv_new room w) H) as HI.
  split. { intros i t m Hw. destruct (pv_wait room s HI i t m Hw) as ([? _] & ? & _). done. }
  split; [apply (pv_room room s HI)|]. intros Hg i.
  assert (E : sent (ps_sys s) i = concat (outs (ps_sys s) i)).
  { assert (Hgen : forall ps s0 s1, Forall no_give_up ps -> p_run room hit ro e s0 ps = Some s1 ->
      (forall i, sent (ps_sys s0) i = concat (outs (ps_sys s0) i)) -> forall i, sent (ps_sys s1) i = concat (outs (ps_sys s1) i)).
    { clear. intros ps. induction ps as [|p ps IH]; intros s0 s1 Hg H H0; cbn [p_run] in H; [by injection H as <-|].
      apply Forall_cons in Hg as [Hp Hg]. destruct (p_step room hit ro e s0 p) as [y|] eqn:E; [|done]. cbn [mbind option_bind] in H.
      apply (IH y s1 Hg H). clear IH H. destruct p as [l|j n|]; [| |done]; cbn [p_step] in E.
      - destruct (ps_wait s0) as [x|].
        + destruct (by_peer l) eqn:Hb; [|done]. destruct (sys_step hit ro e (ps_sys s0) l) as [z|] eqn:Es; [|done]. cbn [mbind option_bind] in E. injection E as <-.
          destruct (peer_step hit ro e _ _ _ Hb Es) as (Hse & Hou & _). intros k. cbn [ps_sys]. by rewrite Hse, Hou.
        + destruct (sys_step _ _ _ _ _) as [z|] eqn:Es in E; [|done]. cbn [mbind option_bind] in E. injection E as <-.
          destruct (step_full hit ro e _ _ _ Es) as (Hou & Hse & _ & _ & Hj). intros k. cbn [ps_sys]. destruct (decide (k = whose l)) as [->|Hne].
          * by rewrite Hse, Hou, H0.
          * unfold sent, outs. rewrite (Hj k Hne). apply H0.
      - destruct (decide _); [|done]. injection E as <-. done. }
    apply (Hgen ps _ _ Hg H). intros k. unfold sent, outs, psys_new. cbn [ps_sys sys_new sy_conns]. by rewrite lookup_empty. }
  pose proof (pv_read room s HI i) as R. unfold got. rewrite <- E. split; [eexists; symmetry; apply take_drop|].
  rewrite take_length. unfold unread. lia.
Qed.

(** C213: giving up frees the server, leaves the other connections alone, and cuts the
    answer off; the connection stays open if a byte of the answer was taken. *)
Theorem give_up_frees_partial : forall U room hit (ro : router U) e w ps s i t m,
  p_run room hit ro e (psys_new w) ps = Some s -> ps_wait s = Some (i, t, m) ->
  exists s' c c', p_step room hit ro e s PGiveUp = Some s' /\ ps_wait s' = None /\ sy_thr (ps_sys s') = TFree /\
    sy_world (ps_sys s') = sy_world (ps_sys s) /\ (forall j, j <> i -> sy_conns (ps_sys s') !! j = sy_conns (ps_sys s) !! j) /\
    sy_conns (ps_sys s) !! i = Some c /\ sy_conns (ps_sys s') !! i = Some c' /\
    hn_out c' = hn_out c /\ (exists cut, hn_sent c = hn_sent c' ++ cut /\ length cut = m) /\
    (hn_open c' = true <-> hn_open c = true /\ m < t).
Proof.
  intros U room hit ro e w ps s i t m H Hw. pose proof (p_run_inv hit ro e room ps _ _ (pinv_new room w) H) as HI.
  destruct (pv_wait room s HI i t m Hw) as (H1 & H2 & [c Hc] & H4).
  do 3 eexists. split. { cbn [p_step]. rewrite Hw. cbn [mbind option_bind]. rewrite Hc. cbn [mbind option_bind]. done. }
  cbn [ps_wait ps_sys with_conn sy_thr sy_world sy_conns]. split_and!; [done|done|done| |done|by rewrite lookup_insert|done|..].
  - intros j Hj. by rewrite lookup_insert_ne.
  - cbn [hn_sent]. exists (drop (length (hn_sent c) - m) (hn_sent c)). split; [by rewrite take_drop|]. rewrite drop_length.
    pose proof (pv_read room s HI i) as R. unfold left_to_copy, sent in R. rewrite Hw, Hc, decide_True in R by done. lia.
  - cbn [hn_open]. rewrite andb_true_iff, negb_true_iff, Nat.eqb_neq. intuition lia.
Qed.
Print Assumptions slow_available_partial.
Print Assumptions one_peer_stops_all.
Print Assumptions slow_bytes.
Print Assumptions give_up_frees_partial.

(** ** Examples *)

Lemma prun_to {U} room hit (ro : router U) e s ps w' t l x rd :
  match p_run room hit ro e s ps with
  | Some s' => Some (sy_world (ps_sys s'), sy_thr (ps_sys s'), map_to_list (sy_conns (ps_sys s')), ps_wait s', map_to_list (ps_read s'))
  | None => None end = Some (w', t, l, x, rd) ->
  p_run room hit ro e s ps = Some (PSys (HSys w' t (list_to_map l)) x (list_to_map rd)).
Proof.
  destruct (p_run room hit ro e s ps) as [[[w1 t1 m1] x1 r1]|]; [|done]. cbn. intros [= -> -> <- -> <-]. by rewrite !list_to_map_to_list.
Qed.
Ltac prun := apply prun_to; by vm_compute.

(** Buffers of 50 bytes; peer 0 asks twice and reads nothing; each answer has 40 bytes. *)
Definition stuck : list plab :=
  [PDo (LOpen 0); PDo (LOpen 1); PDo (LSend 0 hi); PDo (LServe 0 false (WTake 0)); PDo (LSend 0 hi); PDo (LServe 0 false (WTake 0));
   PDo (LSend 1 yo)].
Definition stuck_end : psys nat :=
  PSys (HSys (World true (fun _ => Absent true) [] ∅ 2) TFree (list_to_map [(0, HConn [] false true [ok_text (B "hi"); ok_text (B "hi")] (ok_text (B "hi") ++ ok_text (B "hi")));
                                    (1, HConn yo false true [] [])])) (Some (0, 40, 30)) (list_to_map []).
Lemma stuck_run : p_run 50 map_to_list echo_ro [] (psys_new wn) stuck = Some stuck_end.
Proof. prun. Qed.
Lemma stuck_good : good_peers echo_ro (ps_sys stuck_end) (labels stuck).
Proof.
  intros j c Hj. split; [repeat constructor; done|]. unfold stuck_end in Hj. cbn [ps_sys sy_conns] in Hj.
  apply elem_of_list_to_map_2, elem_of_cons in Hj as [[= -> _]|Hj].
  { exists [hi; hi], [ex_req (B "hi"); ex_req (B "hi")]. split; [|split; [|by vm_compute]].
    - split; [|split]; repeat constructor; first [apply hi_req|by_compute].
    - repeat constructor; (apply echo_tame; [by_compute|by vm_compute]). }
  apply elem_of_list_singleton in Hj as [= -> _].
  exists [yo], [ex_req (B "yo")]. split; [|split; [|by vm_compute]].
  - split; [|split]; repeat constructor; [apply yo_req|by_compute].
  - repeat constructor. apply echo_tame; [by_compute|by vm_compute].
Qed.
Lemma stuck_calm : Forall no_give_up stuck.
Proof. by repeat constructor. Qed.
Example slow_available_ex : exists ps' s' c', Forall server_or_reading ps' /\
  p_run 50 map_to_list echo_ro [] stuck_end ps' = Some s' /\ sy_conns (ps_sys s') !! 1 = Some c' /\ 0 < length (hn_out c').
Proof.
  refine (slow_available_partial nat 50 map_to_list echo_ro [] wn stuck stuck_end 1 (HConn yo false true [] []) valid_order_sorted _ stuck_run stuck_calm _ _ _ stuck_good);
    [lia|done|by vm_compute|done].
Qed.

Theorem slow_available_refuted : ~ slow_available_full.
Proof.
  intros H.
  destruct (H nat 50 map_to_list echo_ro [] wn stuck stuck_end 1 (HConn yo false true [] []) valid_order_sorted) as (ps' & s' & c' & Hby & Hrun & Hc & Hl);
    [lia|apply stuck_run|apply stuck_calm|done|by vm_compute|done|apply stuck_good|].
  assert (E : s' = stuck_end).
  { destruct Hby as [|p ps' Hp _]; [cbn [p_run] in Hrun; by apply (inj Some) in Hrun|exfalso]. cbn [p_run] in Hrun.
    assert (p_step 50 map_to_list echo_ro [] stuck_end p = None) as E; [|by rewrite E in Hrun].
    destruct p as [l| |]; try done. destruct l; done. }
  subst s'. vm_compute in Hc. apply (inj Some) in Hc. subst c'. cbn in Hl. lia.
Qed.

Example one_peer_stops_all_ex : exists n s,
  p_run 200 map_to_list echo_ro [] (psys_new wn) (PDo (LOpen 0) :: PDo (LOpen 1) :: asks hi n ++ [PDo (LSend 1 hi)]) = Some s /\
  sy_conns (ps_sys s) !! 1 = Some (HConn hi false true [] []) /\ forall l, (forall i b, l <> LSend i b) -> (forall i, l <> LFin i) -> p_step 200 map_to_list echo_ro [] s (PDo l) = None.
Proof.
  apply (one_peer_stops_all nat 200 map_to_list echo_ro [] wn hi (ex_req (B "hi")) valid_order_sorted hi_req);
    [by vm_compute|by_compute|apply echo_tame; [by_compute|by vm_compute]].
Qed.

(** Then peer 0 reads 35 bytes: the second answer is all in the buffer, peer 1 is answered. *)
Definition freed : list plab := stuck ++ [PRecv 0 10; PRecv 0 25; PDo (LServe 1 false (WTake 0)); PRecv 1 40].
Definition freed_end : psys nat :=
  PSys (HSys (World true (fun _ => Absent true) [] ∅ 3) TFree (list_to_map [(0, HConn [] false true [ok_text (B "hi"); ok_text (B "hi")] (ok_text (B "hi") ++ ok_text (B "hi")));
                                    (1, HConn [] false true [ok_text (B "yo")] (ok_text (B "yo")))])) None (list_to_map [(0, 35); (1, 40)]).
Lemma freed_run : p_run 50 map_to_list echo_ro [] (psys_new wn) freed = Some freed_end.
Proof. prun. Qed.
Example slow_bytes_ex :
  got freed_end 0 = take 35 (ok_text (B "hi")) /\ unread freed_end 0 = 45 /\ got freed_end 1 = ok_text (B "yo") /\
  got freed_end 0 `prefix_of` concat (outs (ps_sys freed_end) 0) /\
  unread stuck_end 0 = 50 /\ left_to_copy stuck_end 0 = 30.
Proof.
  split; [by vm_compute|]. split; [by vm_compute|]. split; [by vm_compute|].
  split; [|split; by vm_compute].
  destruct (slow_bytes nat 50 map_to_list echo_ro [] wn freed freed_end freed_run) as (_ & _ & H).
  apply H. by repeat constructor.
Qed.

(** The time-out: 10 bytes of the second answer went out, and the connection is open. *)
Definition cut_end : psys nat :=
  PSys (HSys (World true (fun _ => Absent true) [] ∅ 2) TFree (list_to_map [(0, HConn [] false true [ok_text (B "hi"); ok_text (B "hi")] (ok_text (B "hi") ++ B "HTTP/1.1 2"));
                                    (1, HConn yo false true [] [])])) None (list_to_map []).
Lemma cut_run : p_run 50 map_to_list echo_ro [] (psys_new wn) (stuck ++ [PGiveUp]) = Some cut_end.
Proof. prun. Qed.
Example give_up_frees_ex : exists s' c c', p_step 50 map_to_list echo_ro [] stuck_end PGiveUp = Some s' /\ ps_wait s' = None /\
  sy_conns (ps_sys stuck_end) !! 0 = Some c /\ sy_conns (ps_sys s') !! 0 = Some c' /\ hn_open c' = true /\
  exists cut, hn_sent c = hn_sent c' ++ cut /\ length cut = 30.
Proof.
  destruct (give_up_frees_partial nat 50 map_to_list echo_ro [] wn stuck stuck_end 0 40 30 stuck_run eq_refl)
    as (s' & c & c' & H1 & H2 & _ & _ & _ & H3 & H4 & _ & H5 & H6).
  exists s', c, c'. split_and!; [done|done|done|done| |done].
  apply H6. split; [|lia]. assert (E : sy_conns (ps_sys stuck_end) !! 0 = Some (HConn [] false true [ok_text (B "hi"); ok_text (B "hi")] (ok_text (B "hi") ++ ok_text (B "hi")))) by (by vm_compute).
  rewrite E in H3. apply (inj Some) in H3. by subst c.
Qed.

Theorem give_up_closes_refuted : ~ give_up_closes_full.
Proof.
  intros H.
  assert (E : p_step 50 map_to_list echo_ro [] stuck_end PGiveUp = Some cut_end).
  { pose proof cut_run as C. rewrite p_run_app, stuck_run in C. cbn [mbind option_bind p_run] in C.
    destruct (p_step 50 map_to_list echo_ro [] stuck_end PGiveUp) as [y|]; [exact C|done]. }
  assert (F := H nat 50 map_to_list echo_ro [] wn stuck stuck_end cut_end 0 40 30
    (HConn [] false true [ok_text (B "hi"); ok_text (B "hi")] (ok_text (B "hi") ++ B "HTTP/1.1 2"))
    valid_order_sorted stuck_run eq_refl E ltac:(by vm_compute)).
  discriminate F.
Qed.
Print Assumptions slow_available_refuted.
Print Assumptions give_up_closes_refuted.
