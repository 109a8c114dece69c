(** C207, C208: what the log of a server says about its connections
    (http_server.cpp: HandleAccept, HandleLeave, HandleError, HandleRead; tcp_server.cpp). *)
From Verif.Model Require Import SystemLog.
From Verif.Proof Require Import LogProof.
From Verif.Props Require Import LogProps.

(** ** Statements *)

(** How an entry changes the number of connections: "accept from", "leave from", and the
    errors of reading, parsing and writing, after which the connection is closed. *)
Definition begins (p : string) (t : bytes) : bool := bool_decide (B p `prefix_of` t).
Definition change (e : log_entry) : Z :=
  match e with
  | (kInfo, t) => if begins "accept from " t then 1 else if begins "leave from " t then -1 else 0
  | (kError, t) => if begins "[soc." t || begins "[req.Parse]:" t then -1 else 0
  | _ => 0
  end.
Definition changes (log : list log_entry) : Z := foldr (fun e n => change e + n)%Z 0%Z log.
(** The connections that are open. *)
Definition open_now {U} (s : lsys U) : gset nat := dom (filter (fun x => hn_open x.2 = true) (sy_conns (lg_sys s))).
Definition errors (gs : list glab) : nat := length (filter (fun g => match g with GError _ => true | _ => false end = true) gs).

(** The number of open connections can be counted in the log, in some way. *)
Definition log_counts_full : Prop := forall U hit (ro : router U) errmsg w, exists count : list log_entry -> Z,
  forall gs s, g_run hit ro errmsg (lsys_new w) gs = Some s -> sy_thr (lg_sys s) <> TDown -> Z.of_nat (base.size (open_now s)) = count (lg_log s).
(** ... and which ones they are. *)
Definition log_names_full : Prop := forall U hit (ro : router U) errmsg w, exists who : list log_entry -> gset Z,
  forall gs s, errors gs = 0 -> g_run hit ro errmsg (lsys_new w) gs = Some s -> sy_thr (lg_sys s) <> TDown ->
    forall n, n ∈ who (lg_log s) <-> exists i, i ∈ open_now s /\ lg_num s !! i = Some n.

(** The entries with number [n] at the end: "accept from ... soc: n", "resp: ... soc:n". *)
Definition ends (p : bytes) (t : bytes) : bool := bool_decide (p `suffix_of` t).
Definition accepts (n : Z) (e : log_entry) : bool :=
  match e with (kInfo, t) => begins "accept from " t && ends (B " soc: " ++ int_to_string n) t | _ => false end.
Definition answers (n : Z) (e : log_entry) : bool :=
  match e with (kInfo, t) => begins "resp: " t && ends (B " soc:" ++ int_to_string n ++ [LF]) t | _ => false end.
Definition leaves (n : Z) (e : log_entry) : bool :=
  match e with (kInfo, t) => begins "leave from " t && ends (B " soc: " ++ int_to_string n) t | _ => false end.
(** [n] was accepted and has not left since. *)
Definition here (n : Z) (log : list log_entry) : bool :=
  foldl (fun b e => if accepts n e then true else if leaves n e then false else b) false log.
(** An entry for a connection that was closed by the server after an error. *)
Definition loses (e : log_entry) : bool := match e with (kError, _) => bool_decide (change e <> 0%Z) | _ => false end.
(** The answers with number [n] since it was last accepted. *)
Definition since (n : Z) (log : list log_entry) : list log_entry :=
  foldl (fun acc e => if accepts n e then [] else if answers n e then acc ++ [e] else acc) [] log.

(** ** Proofs *)

Lemma changes_app l1 l2 : changes (l1 ++ l2) = (changes l1 + changes l2)%Z.
Proof. induction l1 as [|e l1 IH]; [done|]. cbn [app changes foldr]. fold (changes (l1 ++ l2)) (changes l1). lia. Qed.

(** What one call of HandleRead logs. *)
Lemma read_shape {U} fd rerr werr hit wr (ro : router U) errmsg w s :
  let log := (handle_read_log fd rerr werr hit wr ro w s).1 in
  match handle_read hit wr ro errmsg w s with
  | Ok v =>
      if sv_closed v then changes log = (-1)%Z
      else exists m p st out, log = [req_entry fd m p; resp_entry fd st] /\ sv_wrote v = [out] /\ says_status out st
  | Blocked => log = [] \/ exists m p, log = [req_entry fd m p]
  | _ => True
  end.
Proof.
  intros log. subst log. unfold handle_read_log, handle_read.
  destruct (read_until [] CRLFCRLF s) as [[[len buf] s1]| | | | |]; cbn [mbind outcome_bind log_bind fst]; try done; [|by left].
  destruct (Z.eqb_spec len 0) as [->|Hn]; [done|].
  destruct (Z.ltb_spec len 0) as [Hlt|Hge].
  { rewrite (proj2 (Z.leb_le _ _)) by lia. cbn [sv_closed fst]. by destruct rerr. }
  rewrite (proj2 (Z.leb_gt _ _)) by lia.
  destruct (req_parse req_new buf) as [[rc r]| | | | |] eqn:Hp; cbn [mbind outcome_bind log_bind fst]; try done; [|by left].
  assert (Hans : forall r s2,
    match answer hit wr ro r errmsg w s2 with
    | Ok v =>
        if sv_closed v then changes (answer_log fd werr hit wr ro r w s2).1 = (-1)%Z
        else exists m p st out, (answer_log fd werr hit wr ro r w s2).1 = [req_entry fd m p; resp_entry fd st] /\ sv_wrote v = [out] /\ says_status out st
    | Blocked => (answer_log fd werr hit wr ro r w s2).1 = [] \/ exists m p, (answer_log fd werr hit wr ro r w s2).1 = [req_entry fd m p]
    | _ => True
    end).
  { intros r' s2. pose proof (answer_log_only fd werr hit wr ro r' w s2 errmsg) as He. unfold answer_log in He |- *.
    destruct (dispatch _ _ _ _) as [cw| | | | |]; cbn [log_bind log_say fst snd] in He |- *; rewrite <- He; try done;
      [|right; by do 2 eexists].
    destruct (respond_log fd werr hit wr (cx_resp cw.1) cw.2 s2) as [es o] eqn:E. cbn [fst snd].
    destruct o as [v| | | | |]; try done.
    - destruct (respond_log_spec _ _ _ _ _ _ _ _ _ E) as (st' & out & Hsay & Ho & [(_ & -> & ->)|(_ & -> & ->)] & _); [|done].
      by eexists _, _, st', out.
    - exfalso. unfold respond_log in E. revert E.
      repeat (case_decide || case_match || destruct (resp_build _ _ _) as [[? ?] ?]); destruct wr; cbn; try done; by case_match. }
  destruct (negb (rc =? kSuccess)%Z).
  { destruct (req_parse_text_ok req_text_new _ _ _ Hp) as [t Ht]. rewrite Ht. cbn [log_bind].
    rewrite !resp_build_ok by done. cbv iota beta.
    destruct wr; cbn [sock_write mbind outcome_bind log_bind log_say fst snd sv_closed]; done. }
  destruct (0 <? header_get_content_length (rq_header r))%Z; [|apply Hans].
  destruct (read_string true 0 _ s1) as [[[rc2 body] s2]| | | | |]; cbn [mbind outcome_bind log_bind fst]; try done; [|by left].
  destruct (Z.eqb_spec rc2 0) as [->|Hn2]; [done|].
  destruct (Z.ltb_spec rc2 0) as [Hlt2|Hge2].
  { rewrite (proj2 (Z.leb_le _ _)) by lia. cbn [sv_closed fst]. by destruct rerr. }
  rewrite (proj2 (Z.leb_gt _ _)) by lia. apply Hans.
Qed.

(** The open connections with their answers. *)
Definition view_of (m : gmap nat hconn) : gmap nat (list bytes) := hn_out <$> filter (fun x => hn_open x.2 = true) m.
Notation view s := (view_of (sy_conns (lg_sys s))).
Lemma view_lookup m i o : view_of m !! i = Some o <-> exists c, m !! i = Some c /\ hn_open c = true /\ hn_out c = o.
Proof.
  unfold view_of. rewrite lookup_fmap_Some. split.
  - intros (c & <- & H). apply map_filter_lookup_Some in H as [H1 H2]. by exists c.
  - intros (c & H1 & H2 & <-). exists c. split; [done|]. by apply map_filter_lookup_Some.
Qed.
Lemma view_none m i : view_of m !! i = None <-> forall c, m !! i = Some c -> hn_open c = false.
Proof.
  split.
  - intros H c Hc. destruct (hn_open c) eqn:E; [|done]. assert (view_of m !! i = Some (hn_out c)) by (apply view_lookup; eauto). congruence.
  - intros H. destruct (view_of m !! i) as [o|] eqn:E; [|done]. apply view_lookup in E as (c & E1 & E2 & _). specialize (H c E1). congruence.
Qed.
Lemma view_insert m i c : view_of (<[i := c]> m) = if hn_open c then <[i := hn_out c]> (view_of m) else delete i (view_of m).
Proof.
  apply map_eq. intros j. destruct (decide (i = j)) as [<-|Hne].
  - destruct (hn_open c) eqn:E.
    + rewrite lookup_insert. apply view_lookup. exists c. by rewrite lookup_insert.
    + rewrite lookup_delete. apply view_none. intros c'. rewrite lookup_insert. by intros [= <-].
  - assert (Hj : view_of (<[i := c]> m) !! j = view_of m !! j).
    { destruct (view_of m !! j) as [o|] eqn:E.
      - apply view_lookup in E. apply view_lookup. by rewrite lookup_insert_ne.
      - apply view_none. rewrite lookup_insert_ne by done. by apply view_none. }
    rewrite Hj. destruct (hn_open c); [by rewrite lookup_insert_ne|by rewrite lookup_delete_ne].
Qed.
Lemma open_view {U} (s : lsys U) : open_now s = dom (view s).
Proof. unfold open_now, view_of. by rewrite dom_fmap_L. Qed.

(** What the entries are about. *)
Lemma last_cut {A} (c : A) a b a' b' : c ∉ b -> c ∉ b' -> a ++ c :: b = a' ++ c :: b' -> b = b'.
Proof.
  intros Hb Hb' H. apply (f_equal reverse) in H. rewrite !reverse_app, !reverse_cons, <- !app_assoc in H. cbn [app] in H.
  apply (inj reverse). revert H. rewrite <- (reverse_involutive b) in Hb. rewrite <- (reverse_involutive b') in Hb'.
  revert Hb Hb'. generalize (reverse b) (reverse b'). intros x y Hx Hy H.
  assert (Hx' : c ∉ x) by (by rewrite <- elem_of_reverse). assert (Hy' : c ∉ y) by (by rewrite <- elem_of_reverse). clear Hx Hy.
  revert y Hy' H. induction x as [|d x IH]; intros [|e y] Hy H; [done|..].
  - cbn in H. injection H as <- _. exfalso. apply Hy. apply elem_of_list_here.
  - cbn in H. injection H as -> _. exfalso. apply Hx'. apply elem_of_list_here.
  - cbn in H. injection H as <- H. f_equal. apply (IH (fun K => Hx' (elem_of_list_further _ _ _ K)) y); [|done].
    intros K. apply Hy. by apply elem_of_list_further.
Qed.
Lemma int_inj n m : int_to_string n = int_to_string m -> n = m.
Proof.
  assert (Hm : forall k, "-"%char ∉ dec_of_N k).
  { intros k H. destruct (dec_of_N_ok k) as (_ & Hd & _). rewrite Forall_forall in Hd. by specialize (Hd _ H). }
  unfold int_to_string. intros E.
  destruct (Z.ltb_spec n 0), (Z.ltb_spec m 0).
  - injection E as E. destruct (dec_of_N_ok (Z.to_N (- n))) as (H1 & _). destruct (dec_of_N_ok (Z.to_N (- m))) as (H2 & _).
    rewrite E in H1. lia.
  - exfalso. apply (Hm (Z.to_N m)). rewrite <- E. apply elem_of_list_here.
  - exfalso. apply (Hm (Z.to_N n)). rewrite E. apply elem_of_list_here.
  - destruct (dec_of_N_ok (Z.to_N n)) as (H1 & _). destruct (dec_of_N_ok (Z.to_N m)) as (H2 & _). rewrite E in H1. lia.
Qed.
Lemma no_char_int c z : is_digit c = false -> c <> "-"%char -> c ∉ int_to_string z.
Proof. intros H1 H2 [H|H]%int_to_string_chars; congruence. Qed.
Lemma accepts_accept n fd peer : accepts n (accept_entry fd peer) = bool_decide (n = fd).
Proof.
  unfold accepts, accept_entry, begins, ends. rewrite bool_decide_true by (by eexists).
  cbn [andb]. apply bool_decide_ext. split; [|intros ->; rewrite app_assoc; by eexists].
  intros [k E]. change (B " soc: ") with (B " soc:" ++ [SP]) in E. rewrite <- !app_assoc in E. cbn [app] in E.
  apply int_inj. symmetry.
  apply (last_cut SP (B "accept from " ++ peer ++ B " soc:") _ (k ++ B " soc:") _); [by apply no_char_int..|].
  rewrite <- !app_assoc. exact E.
Qed.
Lemma answers_resp n fd st : answers n (resp_entry fd st) = bool_decide (n = fd).
Proof.
  unfold answers, resp_entry, begins, ends. rewrite bool_decide_true by (by eexists).
  cbn [andb]. apply bool_decide_ext. split; [|intros ->; exists (B "resp: " ++ status_str st); by rewrite <- !app_assoc].
  intros [k E]. change (B " soc:") with (B " soc" ++ [":"%char]) in E. rewrite <- !app_assoc in E. cbn [app] in E.
  apply int_inj. symmetry. apply (inj (.++ [LF])).
  apply (last_cut ":"%char (B "resp: " ++ status_str st ++ B " soc") _ (k ++ B " soc") _).
  1,2: intros [H|H%elem_of_list_singleton]%elem_of_app; [revert H; by apply no_char_int|done].
  rewrite <- !app_assoc. exact E.
Qed.
Lemma answers_accept n fd peer : answers n (accept_entry fd peer) = false.
Proof. done. Qed.
Lemma accepts_resp n fd st : accepts n (resp_entry fd st) = false.
Proof. done. Qed.

(** An entry that is neither. *)
Definition mute (e : log_entry) : Prop := forall n, accepts n e = false /\ answers n e = false.
Definition quiet (e : log_entry) : Prop := mute e /\ (forall n, leaves n e = false) /\ (e.1 = kError \/ change e = 0%Z).
Lemma since_app n l1 l2 : since n (l1 ++ l2) =
  foldl (fun acc e => if accepts n e then [] else if answers n e then acc ++ [e] else acc) (since n l1) l2.
Proof. unfold since. by rewrite foldl_app. Qed.
Lemma since_quiet n log es : Forall mute es -> since n (log ++ es) = since n log.
Proof.
  intros H. rewrite since_app. generalize (since n log). induction H as [|e es He _ IH]; intros acc; [done|].
  cbn [foldl]. destruct (He n) as [-> ->]. apply IH.
Qed.
Lemma quiet_mute es : Forall quiet es -> Forall mute es.
Proof. intros H. apply (Forall_impl _ _ _ H). by intros e [? _]. Qed.
Lemma since_other n log es fd : n <> fd -> Forall (fun e => mute e \/ exists st, e = resp_entry fd st) es -> since n (log ++ es) = since n log.
Proof.
  intros Hn H. rewrite since_app. generalize (since n log). induction H as [|e es [He|[st' ->]] _ IH]; intros acc; [done|..]; cbn [foldl].
  - destruct (He n) as [-> ->]. apply IH.
  - rewrite accepts_resp, answers_resp, bool_decide_false by done. apply IH.
Qed.
Lemma quiet_error t : quiet (kError, t).
Proof. split; [done|]. split; [done|by left]. Qed.
Lemma quiet_req fd m p : quiet (req_entry fd m p).
Proof. split; [done|]. split; [done|by right]. Qed.
Lemma mute_leave fd p : mute (leave_entry fd p).
Proof. done. Qed.
Lemma leaves_leave n fd peer : leaves n (leave_entry fd peer) = bool_decide (n = fd).
Proof.
  unfold leaves, leave_entry, begins, ends. rewrite bool_decide_true by (by eexists).
  cbn [andb]. apply bool_decide_ext. split; [|intros ->; rewrite app_assoc; by eexists].
  intros [k E]. change (B " soc: ") with (B " soc:" ++ [SP]) in E. rewrite <- !app_assoc in E. cbn [app] in E.
  apply int_inj. symmetry.
  apply (last_cut SP (B "leave from " ++ peer ++ B " soc:") _ (k ++ B " soc:") _); [by apply no_char_int..|].
  rewrite <- !app_assoc. exact E.
Qed.
Lemma here_app n l1 l2 : here n (l1 ++ l2) = foldl (fun b e => if accepts n e then true else if leaves n e then false else b) (here n l1) l2.
Proof. unfold here. by rewrite foldl_app. Qed.
Lemma here_quiet n fd log es : Forall (fun e => quiet e \/ exists st, e = resp_entry fd st) es -> here n (log ++ es) = here n log.
Proof.
  intros H. rewrite here_app. generalize (here n log). induction H as [|e es [(He & Hl & _)|[st ->]] _ IH]; intros b; [done|..]; cbn [foldl].
  - rewrite (proj1 (He n)), (Hl n). apply IH.
  - apply IH.
Qed.
(** A call that ends with less has an entry that says so. *)
Lemma less_loses fd es : Forall (fun e => quiet e \/ exists st, e = resp_entry fd st) es -> (changes es < 0)%Z -> exists e, e ∈ es /\ loses e = true.
Proof.
  induction 1 as [|e es He _ IH]; intros Hc; [done|]. unfold changes in Hc. cbn [foldr] in Hc. fold (changes es) in Hc.
  destruct He as [(_ & _ & [Hk|H0])|[st ->]].
  - destruct (decide (change e = 0%Z)) as [H0|H0].
    + destruct IH as (e' & Hin & He'); [lia|]. exists e'. split; [by right|done].
    + exists e. split; [by left|]. destruct e as [k t]. cbn [fst] in Hk. subst k. unfold loses. by rewrite bool_decide_true.
  - destruct IH as (e' & Hin & He'); [lia|]. exists e'. split; [by right|done].
  - change (change (resp_entry fd st)) with 0%Z in Hc. destruct IH as (e' & Hin & He'); [lia|]. exists e'. split; [by right|done].
Qed.

(** The entries of a call are about its connection. *)
Lemma read_about {U} fd rerr werr hit wr (ro : router U) w s :
  Forall (fun e => quiet e \/ exists st, e = resp_entry fd st) (handle_read_log fd rerr werr hit wr ro w s).1.
Proof.
  assert (Hq : forall t, Forall (fun e => quiet e \/ exists st, e = resp_entry fd st) [(kError, t)]).
  { intros t. constructor; [|constructor]. left. apply quiet_error. }
  assert (Hr : forall p s1 w, Forall (fun e => quiet e \/ exists st, e = resp_entry fd st) (respond_log fd werr hit wr p w s1 : _ * outcome (served U)).1).
  { intros p s1 w'. unfold respond_log. destruct (resp_build _ _ _) as [[rc p2] b].
    assert (He : forall es b3 p3, Forall (fun e => quiet e \/ exists st, e = resp_entry fd st) es ->
      Forall (fun e => quiet e \/ exists st, e = resp_entry fd st)
        (log_say es (log_bind (sock_write wr b3) (fun o => if (o.1 <? 0)%Z then ([(kError, B "[soc.Write]" ++ werr)], Ok (Served w' s1 [b3] o.2 true))
           else ([resp_entry fd (rs_status p3)], Ok (Served w' s1 [b3] o.2 false))))).1).
    { intros es b3 p3 Hes. unfold log_say. cbn [fst]. apply Forall_app. split; [done|].
      destruct (sock_write wr b3) as [o| | | | |]; cbn [log_bind fst]; try by constructor.
      destruct (o.1 <? 0)%Z; cbn [fst]; [apply Hq|]. constructor; [|constructor]. right. by eexists. }
    destruct (negb (rc =? kSuccess)%Z); [|apply He; constructor].
    destruct (resp_build _ _ b) as [[rc3 p3] b3]. apply He. apply Hq. }
  assert (Ha : forall r s1 w, Forall (fun e => quiet e \/ exists st, e = resp_entry fd st) (answer_log fd werr hit wr ro r w s1).1).
  { intros r s1 w'. unfold answer_log, log_say. cbn [fst]. apply Forall_app. split.
    - constructor; [|constructor]. left. apply quiet_req.
    - destruct (dispatch _ _ _ _) as [cw| | | | |]; cbn [log_bind fst]; try by constructor. apply Hr. }
  unfold handle_read_log.
  destruct (read_until [] CRLFCRLF s) as [[[len buf] s1]| | | | |]; cbn [log_bind fst]; try by constructor.
  destruct (len =? 0)%Z; [apply Hq|]. destruct (len <? 0)%Z; [apply Hq|].
  destruct (req_parse req_new buf) as [[rc r]| | | | |]; cbn [log_bind fst]; try by constructor.
  destruct (negb (rc =? kSuccess)%Z).
  { destruct (req_parse_text req_text_new req_new buf) as [t| | | | |]; cbn [log_bind fst]; try by constructor.
    destruct (resp_build hit (resp_bad_request resp_new (qt_own t)) []) as [[c p] b]. unfold log_say. cbn [fst]. apply Forall_app. split; [apply Hq|].
    destruct (sock_write wr b) as [o| | | | |]; cbn [log_bind fst]; try by constructor. constructor; [|constructor]. right. by eexists. }
  destruct (0 <? header_get_content_length (rq_header r))%Z; [|apply Ha].
  destruct (read_string true 0 _ s1) as [[[rc2 body] s2]| | | | |]; cbn [log_bind fst]; try by constructor.
  destruct (rc2 =? 0)%Z; [apply Hq|]. destruct (rc2 <? 0)%Z; [apply Hq|]. apply Ha.
Qed.

(** What a step does. *)
Inductive does {U} (s s' : lsys U) (g : glab) (es : list log_entry) : Prop :=
| does_nothing : view s' = view s -> lg_num s' = lg_num s -> (forall i, g <> GError i) -> changes es = 0%Z -> Forall quiet es -> does s s' g es
| does_accept i fd peer : view s !! i = None -> view s' = <[i := []]> (view s) -> lg_num s' = <[i := fd]> (lg_num s) ->
    (forall j n, is_Some (view s !! j) -> lg_num s !! j = Some n -> n <> fd) -> (forall i, g <> GError i) -> es = [accept_entry fd peer] -> does s s' g es
| does_close i n : is_Some (view s !! i) -> lg_num s !! i = Some n -> view s' = delete i (view s) -> lg_num s' = lg_num s ->
    changes es = (match g with GError _ => 0 | _ => -1 end)%Z ->
    (exists peer, es = [leave_entry n peer]) \/ Forall (fun e => quiet e \/ exists st, e = resp_entry n st) es -> does s s' g es
| does_answer i n o out m p st : view s !! i = Some o -> lg_num s !! i = Some n -> view s' = <[i := o ++ [out]]> (view s) -> lg_num s' = lg_num s ->
    (forall i, g <> GError i) -> says_status out st -> es = [req_entry n m p; resp_entry n st] -> does s s' g es.

(** In all states: open connections have a number of their own; the thread waits for an
    open one. *)
Record linv {U} (s : lsys U) : Prop := {
  li_num : forall i, is_Some (view s !! i) -> is_Some (lg_num s !! i);
  li_inj : forall i j n, is_Some (view s !! i) -> is_Some (view s !! j) -> lg_num s !! i = Some n -> lg_num s !! j = Some n -> i = j;
  li_in : forall i, sy_thr (lg_sys s) = TIn i -> is_Some (view s !! i) }.

Lemma does_inv {U} (s s' : lsys U) g es : linv s -> does s s' g es ->
  (forall i, sy_thr (lg_sys s') = TIn i -> is_Some (view s' !! i)) -> linv s'.
Proof.
  intros [I1 I2 I3] D Ht. split; [| |exact Ht]; clear Ht I3.
  - intros i Hi. destruct D as [Ev En _ _ _|j fd peer _ Ev En _ _ _|j n _ _ Ev En _ _|j n o out m p st Hj Hn Ev En _ _ _].
    + rewrite Ev in Hi. rewrite En. by apply I1.
    + rewrite En. destruct (decide (j = i)) as [->|Hne]; [rewrite lookup_insert; by eexists|].
      rewrite Ev, lookup_insert_ne in Hi by done. rewrite lookup_insert_ne by done. by apply I1.
    + rewrite Ev in Hi. rewrite En. apply I1. destruct Hi as [x Hx%lookup_delete_Some]. exists x. tauto.
    + rewrite En. destruct (decide (j = i)) as [->|Hne]; [by eexists|]. rewrite Ev, lookup_insert_ne in Hi by done. by apply I1.
  - intros i j n Hi Hj. destruct D as [Ev En _ _ _|k fd peer _ Ev En Hf _ _|k n' _ _ Ev En _ _|k n' o out m p st Hk Hn Ev En _ _ _]; rewrite En, Ev in *.
    + by apply I2.
    + destruct (decide (k = i)) as [<-|Hi'], (decide (k = j)) as [<-|Hj']; rewrite ?lookup_insert, ?lookup_insert_ne in * by done; [done|..].
      * intros [= ->] H. by destruct (Hf j n Hj H).
      * intros H [= ->]. by destruct (Hf i n Hi H).
      * by apply I2.
    + destruct Hi as [x Hx%lookup_delete_Some], Hj as [y Hy%lookup_delete_Some]. apply I2; eexists; naive_solver.
    + assert (Hv : forall a, is_Some (<[k := o ++ [out]]> (view s) !! a) -> is_Some (view s !! a)).
      { intros a. destruct (decide (k = a)) as [->|]; [by eexists|]. by rewrite lookup_insert_ne. }
      apply I2; by apply Hv.
Qed.

Section steps.
Context {U : Type} (hit : iter_order) (ro : router U) (errmsg : bytes).

Lemma read_does rerr werr wr more i c s s' g (Hg : forall i, g <> GError i) :
  linv s -> sy_conns (lg_sys s) !! i = Some c -> hn_open c = true ->
  lg_num s' = lg_num s -> lg_sys s' = read_event hit ro errmsg wr more i c (lg_sys s) -> sy_thr (lg_sys s') <> TDown ->
  does s s' g (read_entries hit ro rerr werr wr more i s) /\
  (forall j, sy_thr (lg_sys s') = TIn j -> is_Some (view s' !! j)).
Proof.
  intros HI Hc Ho Hnum Hs Hdown. unfold read_entries. rewrite Hc.
  destruct (li_num s HI i) as [n Hn]. { exists (hn_out c). apply view_lookup. by exists c. }
  rewrite Hn. cbn [default from_option].
  pose proof (read_shape n rerr werr hit wr ro errmsg (sy_world (lg_sys s))
    (Stream (map Byte (hn_in c) ++ more) (if hn_fin c then Eof else Wait))) as Hsh. cbv zeta in Hsh.
  pose proof (read_about n rerr werr hit wr ro (sy_world (lg_sys s))
    (Stream (map Byte (hn_in c) ++ more) (if hn_fin c then Eof else Wait))) as Hab.
  set (es := (handle_read_log _ _ _ _ _ _ _ _).1) in *. clearbody es.
  unfold read_event in Hs.
  destruct (handle_read _ _ _ _ _ _) as [v| | | | |]; rewrite Hs in *; cbn [sy_thr sy_conns lg_sys] in *; try done.
  - assert (Hv : view s' = if negb (sv_closed v) then <[i := hn_out c ++ sv_wrote v]> (view s) else delete i (view s)).
    { rewrite Hs. cbn [sy_conns]. by rewrite view_insert. }
    split; [|done].
    destruct (sv_closed v); cbn [negb] in Hv.
    + apply (does_close s s' g es i n); [|done|done|done| |by right].
      * exists (hn_out c). apply view_lookup. by exists c.
      * destruct g; try done. by destruct (Hg i0).
    + destruct Hsh as (m & p & st & out & -> & Hw & Hst). rewrite Hw in Hv.
      apply (does_answer s s' g _ i n (hn_out c) out m p st); try done. apply view_lookup. by exists c.
  - split.
    + apply does_nothing; [by rewrite Hs|done|done|..]; destruct Hsh as [->|(m & p & ->)]; try done; repeat constructor; apply quiet_req.
    + intros j [= <-]. exists (hn_out c). apply view_lookup. by exists c.
Qed.

Lemma view_same_out m i c c' : m !! i = Some c -> hn_open c = hn_open c' -> hn_out c = hn_out c' -> view_of (<[i := c']> m) = view_of m.
Proof.
  intros Hc Ho Hu. rewrite view_insert, <- Ho, <- Hu. destruct (hn_open c) eqn:E.
  - apply insert_id. apply view_lookup. by exists c.
  - apply delete_notin. apply view_none. intros c2 Hc2. congruence.
Qed.

(** TcpServer's text is empty or of its last error, which is in the log. *)
Definition err_inv (s : lsys U) : Prop := change (kError, lg_err s) = 0%Z /\ (lg_err s = [] \/ (kError, lg_err s) ∈ lg_log s).
Lemma step_err s g s' : err_inv s -> g_step hit ro errmsg s g = Some s' -> err_inv s'.
Proof.
  intros [H1 H2] H.
  assert (Hk : forall y m es, s' = LSys y m (lg_err s) (lg_log s ++ es) -> err_inv s').
  { intros y m es ->. split; [done|]. cbn [lg_err lg_log]. destruct H2 as [H2|H2]; [by left|right]. apply elem_of_app. by left. }
  assert (Hf : forall t, change (kError, t) = 0%Z -> s' = fail s t -> err_inv s').
  { intros t Ht ->. split; [done|]. right. cbn [fail lg_err lg_log]. apply elem_of_app. right. by apply elem_of_list_singleton. }
  destruct g as [l fd peer rerr werr|why| |why|i]; cbn [g_step] in H.
  - destruct (sys_step hit ro errmsg (lg_sys s) l) as [y|]; [|done]. cbn [mbind option_bind] in H.
    destruct l; [destruct (decide _); [|done]|..]; injection H as H; exact (Hk _ _ _ (eq_sym H)).
  - destruct (decide _); [|done]. injection H as H. refine (Hf _ _ (eq_sym H)). by vm_compute.
  - destruct (decide _); [|done]. injection H as H. refine (Hf _ _ (eq_sym H)). by vm_compute.
  - destruct (decide _); [|done]. injection H as H. exact (Hk _ _ _ (eq_sym H)).
  - destruct (sy_conns _ !! i) as [c|]; [|done]. cbn [mbind option_bind] in H. destruct (decide _); [|done]. injection H as H. exact (Hk _ _ _ (eq_sym H)).
Qed.

Lemma step_does s g s' : linv s -> err_inv s -> g_step hit ro errmsg s g = Some s' -> sy_thr (lg_sys s') <> TDown ->
  sy_thr (lg_sys s) <> TDown /\ exists es, lg_log s' = lg_log s ++ es /\ does s s' g es /\
    forall j, sy_thr (lg_sys s') = TIn j -> is_Some (view s' !! j).
Proof.
  intros HI [HE _] H Hdown. destruct g as [l fd peer rerr werr|why| |why|i]; cbn [g_step] in H.
  - destruct (sys_step hit ro errmsg (lg_sys s) l) as [y|] eqn:Hs; [|done]. cbn [mbind option_bind] in H.
    assert (Hl : (exists i, l = LOpen i) \/
      (forall i, l <> LOpen i) /\ s' = LSys y (lg_num s) (lg_err s) (lg_log s ++ entries hit ro s l fd peer rerr werr)).
    { destruct l; [by left; eexists|right; split; [done|congruence]..]. }
    destruct Hl as [[i ->]|[Hno ->]].
    + destruct (decide (unused s fd)) as [Hu|]; [|done]. injection H as <-. cbn [lg_sys lg_log lg_num] in *.
      cbn [sys_step] in Hs. destruct (decide _) as [[Ht Hi]|]; [|done]. injection Hs as <-. cbn [with_conn sy_thr sy_conns] in *.
      split; [by rewrite Ht|]. eexists. split; [done|]. split; [|intros j Hj; congruence].
      assert (Hn : view s !! i = None) by (apply view_none; congruence).
      eapply (does_accept s _ _ _ i fd peer); [done|..]; cbn [with_conn lg_sys lg_num sy_conns entries]; [|done| |done|done].
      * rewrite view_insert. done.
      * intros j n [o Ho] Hj ->. apply view_lookup in Ho as (c & Hc & Hoc & _). by apply (Hu j c Hc Hoc).
    + cbn [lg_sys lg_log lg_num] in *. clear H.
      destruct l as [i|i bs|i|i leave wr|i wr|i wr]; cbn [sys_step] in Hs.
      * by destruct (Hno i).
      * destruct (sy_conns (lg_sys s) !! i) as [c|] eqn:Hc; [|done]. cbn [mbind option_bind] in Hs.
        destruct (hn_open c && negb (hn_fin c)); [|done]. injection Hs as <-. cbn [with_conn sy_thr sy_conns] in *. split; [done|].
        assert (Hv : view_of (<[i := HConn (hn_in c ++ bs) (hn_fin c) (hn_open c) (hn_out c) (hn_sent c)]> (sy_conns (lg_sys s))) = view s)
          by (by apply (view_same_out _ i c)).
        eexists. split; [done|]. split; [apply does_nothing; try done; constructor|]. intros j Hj. rewrite Hv. by apply (li_in s HI).
      * destruct (sy_conns (lg_sys s) !! i) as [c|] eqn:Hc; [|done]. cbn [mbind option_bind] in Hs.
        destruct (hn_open c) eqn:Hoc; [|done]. injection Hs as <-. cbn [with_conn sy_thr sy_conns] in *. split; [done|].
        assert (Hv : view_of (<[i := HConn (hn_in c) true true (hn_out c) (hn_sent c)]> (sy_conns (lg_sys s))) = view s)
          by (by apply (view_same_out _ i c)).
        eexists. split; [done|]. split; [apply does_nothing; try done; constructor|]. intros j Hj. rewrite Hv. by apply (li_in s HI).
      * destruct (sy_conns (lg_sys s) !! i) as [c|] eqn:Hc; [|done]. cbn [mbind option_bind] in Hs.
        destruct (decide _) as [(Ht & Ho & _)|]; [|done]. split; [by rewrite Ht|]. destruct leave.
        -- destruct (hn_fin c); [|done]. injection Hs as <-. eexists. split; [done|]. cbn [with_conn sy_thr sy_conns lg_sys] in *.
           split; [|intros j Hj; congruence].
           assert (Hv : is_Some (view s !! i)) by (exists (hn_out c); apply view_lookup; by exists c).
           destruct (li_num s HI i Hv) as [n Hn]. cbn [entries]. rewrite Hn. cbn [default from_option].
           eapply (does_close s _ _ _ i n); [done|done| |done|done|].
           ++ cbn [lg_sys with_conn sy_conns]. by rewrite view_insert.
           ++ left. by eexists.
        -- injection Hs as <-. eexists. split; [done|]. by apply (read_does rerr werr wr [] i c).
      * destruct (sy_conns (lg_sys s) !! i) as [c|] eqn:Hc; [|done]. cbn [mbind option_bind] in Hs.
        destruct (decide (sy_thr (lg_sys s) = TIn i)) as [Ht|]; [|done]. split; [by rewrite Ht|].
        destruct (decide _); [done|]. injection Hs as <-. eexists. split; [done|].
        destruct (li_in s HI i Ht) as [o (c' & Hc' & Ho & _)%view_lookup].
        apply (read_does rerr werr wr [] i c); try done. congruence.
      * destruct (sy_conns (lg_sys s) !! i) as [c|] eqn:Hc; [|done]. cbn [mbind option_bind] in Hs.
        destruct (decide (sy_thr (lg_sys s) = TIn i)) as [Ht|]; [|done]. split; [by rewrite Ht|].
        injection Hs as <-. eexists. split; [done|].
        destruct (li_in s HI i Ht) as [o (c' & Hc' & Ho & _)%view_lookup].
        apply (read_does rerr werr wr [Gap] i c); try done. congruence.
  - destruct (decide _) as [Ht|]; [|done]. injection H as <-. cbn [fail lg_sys lg_log] in *. split; [done|].
    eexists. split; [done|]. split; [|by apply (li_in s HI)]. apply does_nothing; try done. by repeat constructor.
  - destruct (decide _) as [Ht|]; [|done]. injection H as <-. cbn [fail lg_sys lg_log] in *. split; [done|].
    eexists. split; [done|]. split; [|by apply (li_in s HI)]. apply does_nothing; try done. by repeat constructor.
  - destruct (decide _) as [Ht|]; [|done]. injection H as <-. cbn [say lg_sys lg_log] in *. split; [done|].
    eexists. split; [done|]. split; [|by apply (li_in s HI)]. apply does_nothing; try done. by repeat constructor.
  - destruct (sy_conns (lg_sys s) !! i) as [c|] eqn:Hc; [|done]. cbn [mbind option_bind] in H.
    destruct (decide _) as [(Ht & Ho)|]; [|done]. injection H as <-. cbn [lg_sys with_conn sy_thr sy_conns lg_log] in *. split; [by rewrite Ht|].
    eexists. split; [done|]. split; [|intros j Hj; congruence].
    assert (Hv : is_Some (view s !! i)) by (exists (hn_out c); apply view_lookup; by exists c).
    destruct (li_num s HI i Hv) as [n Hn].
    eapply (does_close s _ _ _ i n); [done|done| |done| |].
    + cbn [lg_sys with_conn sy_conns]. by rewrite view_insert.
    + unfold changes. cbn [foldr]. rewrite HE. done.
    + right. constructor; [|constructor]. left. apply quiet_error.
Qed.

Lemma down_stays s g s' : g_step hit ro errmsg s g = Some s' -> sy_thr (lg_sys s) = TDown -> sy_thr (lg_sys s') = TDown.
Proof.
  intros H Ht. destruct g as [l fd peer rerr werr|why| |why|i]; cbn [g_step] in H; rewrite ?Ht in H; try done.
  - destruct (sys_step hit ro errmsg (lg_sys s) l) as [y|] eqn:E; [|done]. cbn [mbind option_bind] in H.
    assert (Hy : sy_thr y = TDown).
    { destruct l as [i|i bs|i|i lv wr|i wr|i wr]; cbn [sys_step] in E; rewrite ?Ht in E; [done|..];
        (destruct (sy_conns _ !! i) as [c|]; [|done]); cbn [mbind option_bind] in E.
      - destruct (_ && _); [|done]. by injection E as <-.
      - destruct (hn_open c); [|done]. by injection E as <-.
      - rewrite decide_False in E by (by intros [? _]). done.
      - done.
      - done. }
    destruct l; [destruct (decide _); [|done]|..]; injection H as <-; exact Hy.
  - destruct (sy_conns _ !! i) as [c|]; [|done]. cbn [mbind option_bind] in H. rewrite decide_False in H by (by intros [? _]). done.
Qed.
Lemma down_run gs : forall s s', g_run hit ro errmsg s gs = Some s' -> sy_thr (lg_sys s) = TDown -> sy_thr (lg_sys s') = TDown.
Proof.
  induction gs as [|g gs IH]; intros s s' H Ht; cbn [g_run] in H; [by injection H as <-|].
  destruct (g_step hit ro errmsg s g) as [y|] eqn:E; [|done]. cbn [mbind option_bind] in H.
  apply (IH y s' H). by apply (down_stays s g).
Qed.
(** An invariant of the states before the process is gone. *)
Lemma run_keeps (P : lsys U -> list glab -> Prop) :
  (forall s gs g s' es, linv s -> err_inv s -> P s gs -> g_step hit ro errmsg s g = Some s' -> does s s' g es -> lg_log s' = lg_log s ++ es -> P s' (gs ++ [g])) ->
  forall gs s gs0 s', linv s -> err_inv s -> P s gs0 -> g_run hit ro errmsg s gs = Some s' -> sy_thr (lg_sys s') <> TDown ->
  linv s' /\ err_inv s' /\ P s' (gs0 ++ gs).
Proof.
  intros HP gs. induction gs as [|g gs IH]; intros s gs0 s' HI HE H0 H Hd; cbn [g_run] in H.
  - injection H as <-. by rewrite app_nil_r.
  - destruct (g_step hit ro errmsg s g) as [y|] eqn:E; [|done]. cbn [mbind option_bind] in H.
    assert (Hyd : sy_thr (lg_sys y) <> TDown) by (intros Hy; apply Hd; by apply (down_run gs y s' H)).
    destruct (step_does s g y HI HE E Hyd) as (_ & es & Hl & D & Ht).
    assert (HI' : linv y) by (by apply (does_inv s y g es)).
    destruct (IH y (gs0 ++ [g]) s' HI' (step_err _ _ _ HE E)) as (A1 & A2 & A3); [|done|done|].
    { by apply (HP s gs0 g y es). }
    rewrite <- app_assoc in A3. done.
Qed.
Lemma linv_new w : linv (lsys_new w : lsys U).
Proof.
  assert (Hv : forall i, ~ is_Some (view (lsys_new w : lsys U) !! i)).
  { intros i [o (c & Hc & _)%view_lookup]. cbn in Hc. by rewrite lookup_empty in Hc. }
  split; [|intros i j n Hi|done]; intros; by destruct (Hv i).
Qed.
Lemma err_inv_new w : err_inv (lsys_new w : lsys U).
Proof. split; [by vm_compute|by left]. Qed.
End steps.

(** ** Theorems *)

(** C207: the number of open connections is the number of "accept" entries, less the
    "leave" entries and the errors of reading, parsing and writing, less the connections
    lost by EPOLLERR, for which the log has no entry of their own. *)
Theorem log_counts_partial : forall U hit (ro : router U) errmsg w gs s,
  g_run hit ro errmsg (lsys_new w) gs = Some s -> sy_thr (lg_sys s) <> TDown ->
  Z.of_nat (base.size (open_now s)) = (changes (lg_log s) - Z.of_nat (errors gs))%Z.
Proof.
  intros U hit ro errmsg w gs s H Hd.
  destruct (run_keeps hit ro errmsg (fun s gs => Z.of_nat (base.size (dom (view s))) = (changes (lg_log s) - Z.of_nat (errors gs))%Z))
    with (gs := gs) (s := lsys_new w) (gs0 := @nil glab) (s' := s) as (_ & _ & Hc); [|apply linv_new|apply err_inv_new|done|done|done|].
  2: { by rewrite open_view. }
  clear. intros s gs g s' es HI HE HP Hs D Hl.
  rewrite Hl, changes_app. unfold errors. rewrite filter_app, app_length. fold (errors gs).
  assert (Hg : (forall i, g <> GError i) -> filter (fun g => match g with GError _ => true | _ => false end = true) [g] = []).
  { intros Hg. rewrite filter_cons_False; [done|]. destruct g; try done. by destruct (Hg i). }
  destruct D as [Ev _ H1 H2 _|i fd peer Hi Ev _ _ H1 ->|i n Hi _ Ev _ H2 _|i n o out m p st Hi _ Ev _ H1 _ ->].
  - rewrite Ev, H2, (Hg H1). cbn [length]. lia.
  - rewrite Ev, (Hg H1), dom_insert_L. cbn [length].
    rewrite size_union, size_singleton.
    2: { apply disjoint_singleton_l. by apply not_elem_of_dom. }
    change (changes [accept_entry fd peer]) with 1%Z. lia.
  - rewrite Ev, dom_delete_L. rewrite size_difference by (by apply singleton_subseteq_l, elem_of_dom). rewrite size_singleton.
    assert (0 < base.size (dom (view s))).
    { destruct (decide (base.size (dom (view s)) = 0)) as [E|]; [|lia]. apply size_empty_inv in E. apply elem_of_dom in Hi. set_solver. }
    assert (Hlen : length (filter (fun g => match g with GError _ => true | _ => false end = true) [g]) = match g with GError _ => 1 | _ => 0 end) by (by destruct g).
    rewrite Hlen, H2. destruct g; lia.
  - rewrite Ev, (Hg H1), dom_insert_L. replace ({[i]} ∪ dom (view s)) with (dom (view s)).
    2: { apply set_eq. intros j. rewrite elem_of_union, elem_of_singleton. split; [tauto|]. intros [->|]; [|done]. apply elem_of_dom. by eexists. }
    change (changes [req_entry n m p; resp_entry n st]) with 0%Z. cbn [length]. lia.
Qed.

(** C208: for an open connection, the "resp:" entries with its number since it was
    accepted are the answers it was given. *)
Theorem answers_in_log : forall U hit (ro : router U) errmsg w gs s i c,
  g_run hit ro errmsg (lsys_new w) gs = Some s -> sy_thr (lg_sys s) <> TDown ->
  sy_conns (lg_sys s) !! i = Some c -> hn_open c = true ->
  exists n, lg_num s !! i = Some n /\
    Forall2 (fun e out => exists st, e = resp_entry n st /\ says_status out st) (since n (lg_log s)) (hn_out c).
Proof.
  intros U hit ro errmsg w gs s i c H Hd Hc Ho.
  destruct (run_keeps hit ro errmsg (fun s _ => forall i o n, view s !! i = Some o -> lg_num s !! i = Some n ->
      Forall2 (fun e out => exists st, e = resp_entry n st /\ says_status out st) (since n (lg_log s)) o))
    with (gs := gs) (s := lsys_new w) (gs0 := @nil glab) (s' := s) as (HI & _ & HP); [|apply linv_new|apply err_inv_new| |done|done|].
  3: { assert (Hv : view s !! i = Some (hn_out c)) by (apply view_lookup; by exists c).
       destruct (li_num s HI i) as [n Hn]; [by eexists|]. exists n. split; [done|]. by apply (HP i). }
  2: { intros j o n [c' [Hc' _]]%view_lookup. cbn in Hc'. by rewrite lookup_empty in Hc'. }
  clear. intros s gs g s' es HI HE HP Hs D Hl j o n Hj Hn. rewrite Hl.
  destruct D as [Ev En _ _ Hq|i fd peer Hi Ev En Hf _ ->|i m Hi Him Ev En _ Hq|i m o' out me p st Hi Him Ev En _ Hst ->]; rewrite Ev in Hj; rewrite En in Hn.
  - rewrite since_quiet by (by apply quiet_mute). by apply (HP j).
  - rewrite since_app. cbn [foldl]. rewrite accepts_accept. destruct (decide (i = j)) as [<-|Hne].
    + rewrite lookup_insert in Hj. rewrite lookup_insert in Hn. injection Hj as <-. injection Hn as ->. by rewrite bool_decide_true.
    + rewrite lookup_insert_ne in Hj by done. rewrite lookup_insert_ne in Hn by done. rewrite bool_decide_false by (by eapply Hf).
      rewrite answers_accept. by apply (HP j).
  - apply lookup_delete_Some in Hj as [Hne Hj]. rewrite (since_other n _ _ m); [by apply (HP j)|..].
    { intros ->. apply Hne. by apply (li_inj s HI i j m). }
    destruct Hq as [[peer ->]|Hq]; [constructor; [left; apply mute_leave|constructor]|].
    apply (Forall_impl _ _ _ Hq). intros e [[He _]|He]; [by left|by right].
  - destruct (decide (i = j)) as [<-|Hne].
    + rewrite lookup_insert in Hj. injection Hj as <-. assert (n = m) as -> by congruence.
      change [req_entry m me p; resp_entry m st] with ([req_entry m me p] ++ [resp_entry m st]).
      rewrite (app_assoc (lg_log s)), since_app. rewrite since_quiet by (by repeat constructor).
      cbn [foldl]. rewrite accepts_resp, answers_resp, bool_decide_true by done.
      apply Forall2_app; [by apply (HP i)|]. constructor; [|constructor]. by exists st.
    + rewrite lookup_insert_ne in Hj by done. rewrite (since_other n _ _ m); [by apply (HP j)| |].
      * intros ->. apply Hne. apply (li_inj s HI i j m); by try eexists.
      * constructor; [left; apply quiet_req|]. constructor; [right; by eexists|constructor].
Qed.

(** C207, which ones: the number of every open connection was accepted and has not left
    since; as long as no connection was closed after an error, no other number is so. *)
Theorem log_names_partial : forall U hit (ro : router U) errmsg w gs s,
  g_run hit ro errmsg (lsys_new w) gs = Some s -> sy_thr (lg_sys s) <> TDown ->
  (forall i, i ∈ open_now s -> exists n, lg_num s !! i = Some n /\ here n (lg_log s) = true) /\
  (errors gs = 0 -> Forall (fun e => loses e = false) (lg_log s) ->
   forall n, here n (lg_log s) = true -> exists i, i ∈ open_now s /\ lg_num s !! i = Some n).
Proof.
  intros U hit ro errmsg w gs s H Hd.
  destruct (run_keeps hit ro errmsg (fun s gs => (forall i n, is_Some (view s !! i) -> lg_num s !! i = Some n -> here n (lg_log s) = true) /\
      (errors gs = 0 -> Forall (fun e => loses e = false) (lg_log s) ->
       forall n, here n (lg_log s) = true -> exists i, is_Some (view s !! i) /\ lg_num s !! i = Some n)))
    with (gs := gs) (s := lsys_new w) (gs0 := @nil glab) (s' := s) as (HI & _ & HP1 & HP2); [|apply linv_new|apply err_inv_new| |done|done|].
  3: { rewrite open_view. split.
       - intros i Hi%elem_of_dom. destruct (li_num s HI i Hi) as [n Hn]. exists n. split; [done|]. by apply (HP1 i).
       - intros H1 H2 n Hn. destruct (HP2 H1 H2 n Hn) as (i & Hi & Hin). exists i. split; [by apply elem_of_dom|done]. }
  2: { split; [|done]. intros j n [o (c' & Hc' & _)%view_lookup]. cbn in Hc'. by rewrite lookup_empty in Hc'. }
  clear. intros s gs g s' es HI HE [HP1 HP2] Hs D Hl. rewrite Hl.
  assert (Herr : errors (gs ++ [g]) = 0 -> errors gs = 0 /\ forall i, g <> GError i).
  { unfold errors. rewrite filter_app, app_length. intros E. split; [lia|]. intros i ->. rewrite filter_cons_True in E by done. cbn [length] in E. lia. }
  split.
  - intros j n Hj Hn.
    destruct D as [Ev En _ _ Hq|i fd peer Hi Ev En Hf _ ->|i m Hi Him Ev En _ Hq|i m o' out me p st Hi Him Ev En _ Hst ->]; rewrite Ev in Hj; rewrite En in Hn.
    + rewrite (here_quiet n 0%Z); [by apply (HP1 j)|]. apply (Forall_impl _ _ _ Hq). intros e He. by left.
    + rewrite here_app. cbn [foldl]. rewrite accepts_accept. destruct (decide (i = j)) as [<-|Hne].
      * rewrite lookup_insert in Hn. injection Hn as ->. by rewrite bool_decide_true.
      * rewrite lookup_insert_ne in Hj by done. rewrite lookup_insert_ne in Hn by done. rewrite bool_decide_false by (by eapply Hf).
        change (leaves n (accept_entry fd peer)) with false. by apply (HP1 j).
    + destruct Hj as [x [Hne Hx]%lookup_delete_Some]. assert (Hj : is_Some (view s !! j)) by (by eexists).
      assert (Hm : n <> m). { intros ->. apply Hne. by apply (li_inj s HI i j m). }
      destruct Hq as [[peer ->]|Hq].
      * rewrite here_app. cbn [foldl]. rewrite leaves_leave, bool_decide_false by done. by apply (HP1 j).
      * rewrite (here_quiet n m) by done. by apply (HP1 j).
    + rewrite (here_quiet n m) by (constructor; [left; apply quiet_req|constructor; [right; by eexists|constructor]]).
      apply (HP1 j); [|done]. destruct (decide (i = j)) as [<-|Hne]; [by eexists|]. by rewrite lookup_insert_ne in Hj.
  - intros Hg Hno n Hn. destruct (Herr Hg) as [Hg1 Hg2]. apply Forall_app in Hno as [Hno1 Hno2].
    destruct D as [Ev En _ _ Hq|i fd peer Hi Ev En Hf _ ->|i m Hi Him Ev En Hc Hq|i m o' out me p st Hi Him Ev En _ Hst ->]; rewrite Ev, En.
    + rewrite (here_quiet n 0%Z) in Hn; [by apply HP2|]. apply (Forall_impl _ _ _ Hq). intros e He. by left.
    + rewrite here_app in Hn. cbn [foldl] in Hn. rewrite accepts_accept in Hn.
      destruct (decide (n = fd)) as [->|Hne].
      * exists i. rewrite !lookup_insert. split; [by eexists|done].
      * rewrite bool_decide_false in Hn by done. change (leaves n (accept_entry fd peer)) with false in Hn.
        destruct (HP2 Hg1 Hno1 n Hn) as (j & Hj & Hjn). exists j.
        assert (i <> j) by (intros ->; rewrite Hi in Hj; by destruct Hj). by rewrite !lookup_insert_ne.
    + destruct Hq as [[peer ->]|Hq].
      * rewrite here_app in Hn. cbn [foldl] in Hn. change (accepts n (leave_entry m peer)) with false in Hn. rewrite leaves_leave in Hn.
        destruct (decide (n = m)) as [->|Hne]; [by rewrite bool_decide_true in Hn|]. rewrite bool_decide_false in Hn by done.
        destruct (HP2 Hg1 Hno1 n Hn) as (j & Hj & Hjn). exists j. split; [|done].
        rewrite lookup_delete_ne; [done|]. intros ->. congruence.
      * exfalso. destruct (less_loses m es Hq) as (e & Hin & He).
        { rewrite Hc. destruct g; try done. by destruct (Hg2 i0). }
        rewrite Forall_forall in Hno2. specialize (Hno2 e Hin). congruence.
    + rewrite (here_quiet n m) in Hn by (constructor; [left; apply quiet_req|constructor; [right; by eexists|constructor]]).
      destruct (HP2 Hg1 Hno1 n Hn) as (j & Hj & Hjn). exists j. split; [|done].
      destruct (decide (i = j)) as [<-|Hne]; [rewrite lookup_insert; by eexists|]. by rewrite lookup_insert_ne.
Qed.

(** The entry for a connection lost by EPOLLERR is empty or repeats an older one. *)
Theorem error_entry_is_old : forall U hit (ro : router U) errmsg w gs i s s',
  g_run hit ro errmsg (lsys_new w) gs = Some s -> g_step hit ro errmsg s (GError i) = Some s' ->
  exists t, lg_log s' = lg_log s ++ [(kError, t)] /\ (t = [] \/ (kError, t) ∈ lg_log s).
Proof.
  intros U hit ro errmsg w gs i s s' H Hs.
  assert (HE : err_inv s).
  { revert H. generalize (err_inv_new w : err_inv (lsys_new w : lsys U)). generalize (lsys_new w : lsys U).
    induction gs as [|g gs IH]; intros y Hy H; cbn [g_run] in H; [by injection H as <-|].
    destruct (g_step hit ro errmsg y g) as [z|] eqn:E; [|done]. apply (IH z); [|done]. by apply (step_err hit ro errmsg y g). }
  exists (lg_err s). split; [|apply HE]. cbn [g_step] in Hs. destruct (sy_conns _ !! i); [|done]. cbn [mbind option_bind] in Hs.
  destruct (decide _); [|done]. by injection Hs as <-.
Qed.

(** Two runs with one log: accept(2) fails twice; it fails once, and a connection is lost. *)
Definition w0 : world nat := World true (fun _ => Absent true) [] ∅ 0.
Definition no_routes : router nat := router_new.
Definition run_of (gs : list glab) : option (lsys nat) := g_run map_to_list no_routes [] (lsys_new w0) gs.
Definition opens (i : nat) (fd : Z) : glab := GStep (LOpen i) fd (B "10.0.0.1:4000") None [].
Definition does_ (l : hlab) : glab := GStep l 0 [] None [].
Definition no_fds : bytes := B "Too many open files".
Theorem log_counts_refuted : ~ log_counts_full.
Proof.
  intros H. destruct (H nat map_to_list no_routes [] w0) as [count Hc].
  destruct (run_of [opens 0 5; GNoAccept no_fds; GNoAccept no_fds]) as [s1|] eqn:E1; [|by vm_compute in E1].
  destruct (run_of [opens 0 5; GNoAccept no_fds; GError 0]) as [s2|] eqn:E2; [|by vm_compute in E2].
  pose proof (Hc _ _ E1) as H1. pose proof (Hc _ _ E2) as H2. vm_compute in E1, E2. injection E1 as <-. injection E2 as <-.
  specialize (H1 ltac:(done)). specialize (H2 ltac:(done)). vm_compute in H1. vm_compute in H2. congruence.
Qed.
Definition one_gone (i : nat) : list glab := [opens 0 5; opens 1 6; does_ (LFin i); does_ (LServe i false (WTake 0))].
Definition gone_log : list log_entry :=
  [accept_entry 5 (B "10.0.0.1:4000"); accept_entry 6 (B "10.0.0.1:4000"); (kError, B "[soc.ReadUntil]: peer close before read complete")].
Definition seen_of (o : option (lsys nat)) := s ← o; Some (lg_log s, sy_thr (lg_sys s), elements (open_now s), lg_num s !! 0, lg_num s !! 1).
Lemma gone_runs i : i = 0 \/ i = 1 -> seen_of (run_of (one_gone i)) = Some (gone_log, TFree, [1 - i], Some 5%Z, Some 6%Z).
Proof. intros [->| ->]; by vm_compute. Qed.
(** Two connections; the one or the other is closed in the middle of a request. *)
Theorem log_names_refuted : ~ log_names_full.
Proof.
  intros H. destruct (H nat map_to_list no_routes [] w0) as [who Hw].
  pose proof (gone_runs 0 (or_introl eq_refl)) as G1. pose proof (gone_runs 1 (or_intror eq_refl)) as G2.
  destruct (run_of (one_gone 0)) as [s1|] eqn:E1; [|done]. destruct (run_of (one_gone 1)) as [s2|] eqn:E2; [|done].
  unfold seen_of in G1, G2. cbn [mbind option_bind] in G1, G2. injection G1 as L1 T1 O1 N1 M1. injection G2 as L2 T2 O2 N2 M2.
  pose proof (fun Hd => proj1 (Hw (one_gone 0) _ eq_refl E1 Hd 5%Z)) as H1. rewrite T1, L1 in H1.
  pose proof (fun Hd => proj2 (Hw (one_gone 1) _ eq_refl E2 Hd 5%Z)) as H2. rewrite T2, L2 in H2.
  destruct H1 as (i & Hi & Hn); [done|apply H2; [done|]|].
  - exists 0. split; [|done]. apply elem_of_elements. rewrite O2. by apply elem_of_list_singleton.
  - apply elem_of_elements in Hi. rewrite O1 in Hi. apply elem_of_list_singleton in Hi as ->. cbn in Hn. congruence.
Qed.
Print Assumptions log_counts_partial.
Print Assumptions log_counts_refuted.
Print Assumptions log_names_refuted.
Print Assumptions log_names_partial.
Print Assumptions answers_in_log.
Print Assumptions error_entry_is_old.

(** ** Example *)

(** Two requests on one connection, then it leaves and its number is used again; a
    connection that sends nonsense, one that asks for the wrong thing; one lost by an
    error; accept(2) fails once before. *)
Definition get (p : string) : bytes := B "GET " ++ B p ++ B " HTTP/1.1" ++ CRLFCRLF.
Definition long_run : list glab :=
  [opens 0 5; opens 1 6; does_ (LSend 0 (get "/a" ++ get "/b")); does_ (LServe 0 false (WTake 200));
   does_ (LSend 1 (B "nonsense" ++ CRLFCRLF)); does_ (LServe 1 false (WTake 200)); does_ (LServe 0 false (WTake 200));
   does_ (LFin 0); GStep (LServe 0 true (WTake 0)) 0 (B "10.0.0.1:4000") None [];
   GNoAccept no_fds; opens 2 5; opens 3 7; does_ (LSend 2 (get "/c")); does_ (LServe 2 false (WTake 200)); GError 3].
Definition long_log : list log_entry :=
  [accept_entry 5 (B "10.0.0.1:4000"); accept_entry 6 (B "10.0.0.1:4000"); req_entry 5 mGET (B "/a"); resp_entry 5 sNOT_FOUND;
   (kError, B "[req.Parse]:[logicerr]:invalid http request"); resp_entry 6 sBAD_REQUEST; req_entry 5 mGET (B "/b"); resp_entry 5 sNOT_FOUND;
   leave_entry 5 (B "10.0.0.1:4000"); (kError, B "[syserr]:Too many open files"); accept_entry 5 (B "10.0.0.1:4000");
   accept_entry 7 (B "10.0.0.1:4000"); req_entry 5 mGET (B "/c"); resp_entry 5 sNOT_FOUND; (kError, B "[syserr]:Too many open files")].
Example long_runs : seen_of (run_of long_run) = Some (long_log, TFree, [2], Some 5%Z, Some 6%Z) /\ changes long_log = 2%Z /\ errors long_run = 1 /\
  since 5 long_log = [resp_entry 5 sNOT_FOUND] /\ here 5 long_log = true /\ here 7 long_log = true.
Proof. split_and!; by vm_compute. Qed.
Example entries_as_text : accept_entry 5 (B "10.0.0.1:4000") = (kInfo, B "accept from 10.0.0.1:4000 soc: 5") /\
  resp_entry 5 sNOT_FOUND = (kInfo, B "resp: Not Found soc:5" ++ [LF]).
Proof. done. Qed.
