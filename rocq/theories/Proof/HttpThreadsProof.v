(** Facts about an HTTP server with worker threads (HttpThreads.v). *)
From Verif.Spec Require Import ServerSpec.
From Verif.Proof Require Import ServerProof SocketProof HttpSystemProof.
From Verif.Model Require Import HttpThreads.

(** ** One byte at a time, or HandleRead as a whole *)

Section reading.
Context {U : Type}.
Implicit Types (ro : router U).

Lemma until_loop_unfold d l t ch buf :
  until_loop d l t ch buf =
    (go ← until_goes_on d buf ch;
     if go : bool then
       match l with
       | Byte c :: l' => until_loop d l' t c (buf ++ [c])
       | Gap :: l' => Ok ((-1)%Z, buf, Stream l' t)
       | [] => match t with
               | Eof => Ok (0%Z, buf, Stream [] t)
               | Err => Ok ((-1)%Z, buf, Stream [] t)
               | Wait => Blocked
               end
       end
     else Ok (to_int32 (Z.of_N (size buf)), buf, Stream l t)).
Proof. by destruct l as [|[]]. Qed.

(** HandleRead after ReadUntil, and after Read of the body. *)
Definition from_body hit wr ro e (w : world U) (r : req) (b : Z * bytes * stream) : outcome (served U) :=
  let '(rc, body, s2) := b in
  if (rc <=? 0)%Z then Ok (Served w s2 [] [] true) else answer hit wr ro (with_body r body) e w s2.
Definition from_head hit wr ro e (w : world U) (u : Z * bytes * stream) : outcome (served U) :=
  let '(len, buf, s1) := u in
  if (len <=? 0)%Z then Ok (Served w s1 [] [] true)
  else
  pr ← req_parse req_new buf;
  let '(rc, r) := pr in
  if negb (rc =? kSuccess)%Z then
    let '(_, _, resp_buf) := resp_build hit (resp_bad_request resp_new e) [] in
    o ← sock_write wr resp_buf;
    Ok (Served w s1 [resp_buf] o.2 true)
  else
  let content_size := header_get_content_length (rq_header r) in
  if (0 <? content_size)%Z then
    b ← read_string true 0 (Z.to_nat content_size) s1; from_body hit wr ro e w r b
  else answer hit wr ro r e w s1.

Lemma handle_read_parts hit wr ro e w s :
  handle_read hit wr ro e w s = (u ← until_loop CRLFCRLF (sm_items s) (sm_tail s) NUL []; from_head hit wr ro e w u).
Proof.
  unfold handle_read, read_until. cbn [CRLFCRLF]. destruct (until_loop _ _ _ _ _) as [[[len buf] s1]| | | | |]; try done.
Qed.

(** What a worker that has got to [st] does with the rest of the stream. *)
Definition resume hit wr ro e (w : world U) (st : rst) (s : stream) : outcome (served U) :=
  match st with
  | RHead buf => u ← until_loop CRLFCRLF (sm_items s) (sm_tail s) (lastch buf) buf; from_head hit wr ro e w u
  | RBody r n got =>
      b ← read_string true 0 n (Stream (map Byte got ++ sm_items s) (sm_tail s)); from_body hit wr ro e w r b
  | RRun r => answer hit wr ro r e w s
  | RBad =>
      let '(_, _, resp_buf) := resp_build hit (resp_bad_request resp_new e) [] in
      o ← sock_write wr resp_buf; Ok (Served w s [resp_buf] o.2 true)
  | REnd => Ok (Served w s [] [] true)
  end.

(** A state the code can be in. *)
Definition live (st : rst) : Prop :=
  match st with
  | RHead buf => until_goes_on CRLFCRLF buf (lastch buf) = Ok true
  | RBody _ n got => length got < n
  | _ => True
  end.

Lemma live_start : live (RHead []).
Proof. by vm_compute. Qed.

Lemma after_head_resume hit wr ro e w buf s :
  from_head hit wr ro e w (to_int32 (Z.of_N (size buf)), buf, s) =
    (st ← after_head buf; resume hit wr ro e w st s).
Proof.
  unfold from_head, after_head. destruct (_ <=? 0)%Z; [done|].
  destruct (req_parse req_new buf) as [[rc r]| | | | |]; cbn [mbind outcome_bind]; try done.
  destruct (negb (rc =? kSuccess)%Z); [done|].
  destruct (0 <? _)%Z; [|done]. cbn [mbind outcome_bind resume map app]. by destruct s.
Qed.

Lemma after_head_live buf st : after_head buf = Ok st -> live st.
Proof.
  unfold after_head. destruct (_ <=? 0)%Z; [by intros [= <-]|].
  destruct (req_parse req_new buf) as [[rc r]| | | | |]; cbn [mbind outcome_bind]; try done.
  destruct (negb (rc =? kSuccess)%Z); [by intros [= <-]|].
  destruct (Z.ltb_spec 0 (header_get_content_length (rq_header r))); intros [= <-]; [|done]. cbn. lia.
Qed.

Lemma lastch_snoc buf c : lastch (buf ++ [c]) = c.
Proof. unfold lastch. by rewrite last_snoc. Qed.

(** A byte that is received is the next byte of the stream HandleRead reads. *)
Lemma resume_byte hit wr ro e w st c l t :
  live st -> finishing st = false ->
  resume hit wr ro e w st (Stream (Byte c :: l) t) = (st' ← got_byte st c; resume hit wr ro e w st' (Stream l t)).
Proof.
  intros Hl Hf. destruct st as [buf|r n got| | |]; try done; cbn [live resume got_byte sm_items sm_tail] in *.
  - rewrite until_loop_unfold, Hl. cbn [mbind outcome_bind]. rewrite until_loop_unfold.
    destruct (until_goes_on CRLFCRLF (buf ++ [c]) c) as [[]| | | | |] eqn:E; cbn [mbind outcome_bind]; try done.
    + cbn [resume sm_items sm_tail]. rewrite lastch_snoc.
      rewrite (until_loop_unfold _ l t c (buf ++ [c])), E. done.
    + apply after_head_resume.
  - destruct (Nat.eqb_spec (length (got ++ [c])) n) as [Hn|Hn].
    + cbn [mbind outcome_bind resume]. unfold read_string.
      replace (map Byte got ++ Byte c :: l) with (map Byte (got ++ [c]) ++ l) by (rewrite map_app, <- app_assoc; done).
      rewrite (recv_all_enough n (got ++ [c]) l t Hn). cbn [mbind outcome_bind from_body].
      destruct (Z.leb_spec (Z.of_nat n) 0); [|done]. rewrite app_length in Hn. simpl in Hn. lia.
    + cbn [mbind outcome_bind resume sm_items sm_tail].
      replace (map Byte (got ++ [c]) ++ l) with (map Byte got ++ Byte c :: l) by (rewrite map_app, <- app_assoc; done). done.
Qed.

Lemma got_byte_live st c st' : live st -> finishing st = false -> got_byte st c = Ok st' -> live st'.
Proof.
  intros Hl Hf. destruct st as [buf|r n got| | |]; try done; cbn [live got_byte] in *.
  - destruct (until_goes_on CRLFCRLF (buf ++ [c]) c) as [[]| | | | |] eqn:E; cbn [mbind outcome_bind]; try done.
    + intros [= <-]. cbn [live]. by rewrite lastch_snoc.
    + apply after_head_live.
  - destruct (Nat.eqb_spec (length (got ++ [c])) n) as [Hn|Hn]; intros [= <-]; [done|].
    cbn [live]. rewrite app_length in *. simpl in *. lia.
Qed.

(** The end of the stream, and a call of recv(2) that fails. *)
Lemma resume_eof hit wr ro e w st :
  live st -> finishing st = false ->
  resume hit wr ro e w st (Stream [] Eof) = resume hit wr ro e w (got_none st) (Stream [] Eof).
Proof.
  intros Hl Hf. destruct st as [buf|r n got| | |]; try done; cbn [live resume got_none sm_items sm_tail] in *.
  - rewrite until_loop_unfold, Hl. done.
  - unfold read_string. rewrite app_nil_r. unfold recv_all. cbn [sm_items sm_tail].
    rewrite (grab_end got n Hl). destruct (Nat.eqb_spec (length got) n); [lia|].
    destruct got as [|c got]; [done|]. done.
Qed.

Lemma grab_gap_end (got : bytes) n l : length got < n -> grab n (map Byte got ++ Gap :: l) = (got, l, true).
Proof.
  revert n. induction got as [|c got IH]; intros n Hn; (destruct n as [|n]; [simpl in Hn; lia|]); [done|].
  cbn [map app grab]. rewrite IH by (simpl in Hn; lia). done.
Qed.

Lemma resume_gap hit wr ro e w st l t :
  live st -> finishing st = false ->
  resume hit wr ro e w st (Stream (Gap :: l) t) = resume hit wr ro e w (got_none st) (Stream l t).
Proof.
  intros Hl Hf. destruct st as [buf|r n got| | |]; try done; cbn [live resume got_none sm_items sm_tail] in *.
  - rewrite until_loop_unfold, Hl. done.
  - unfold read_string, recv_all. cbn [sm_items sm_tail].
    rewrite (grab_gap_end got n l Hl). destruct (Nat.eqb_spec (length got) n); [lia|].
    destruct got as [|c got]; done.
Qed.

Lemma resume_waits hit wr ro e w st : live st -> finishing st = false -> resume hit wr ro e w st (Stream [] Wait) = Blocked.
Proof.
  intros Hl Hf. destruct st as [buf|r n got| | |]; try done; cbn [live resume sm_items sm_tail] in *.
  - rewrite until_loop_unfold, Hl. done.
  - unfold read_string, recv_all. rewrite app_nil_r. cbn [sm_items sm_tail].
    rewrite (grab_end got n Hl). destruct (Nat.eqb_spec (length got) n); [lia|]. done.
Qed.

Lemma answer_any hit wr ro r e w s s' :
  answer hit wr ro r e w s = ofmap (fun v => Served (sv_world v) s (sv_wrote v) (sv_sent v) (sv_closed v)) (answer hit wr ro r e w s').
Proof.
  unfold answer. destruct (dispatch _ _ _ _) as [cw| | | | |]; cbn [mbind outcome_bind ofmap]; try done.
  unfold respond. destruct (resp_build hit _ []) as [[rc p2] buf].
  destruct (negb (rc =? kSuccess)%Z).
  - destruct (resp_build hit _ buf) as [[rc' p3] buf3].
    by destruct (sock_write wr buf3) as [[len sent]| | | | |].
  - by destruct (sock_write wr buf) as [[len sent]| | | | |].
Qed.

(** What is left to do when all has been read. *)
Lemma resume_finish hit wr ro e w st s : finishing st = true ->
  resume hit wr ro e w st s =
    ofmap (fun o => match o with (wo, texts, sent, cl) => Served wo s texts sent cl end) (finish hit wr ro e st w).
Proof.
  intros Hf. destruct st; try done; cbn [resume finish].
  - rewrite (answer_any _ _ _ _ _ _ s (Stream [] Eof)). by destruct (answer _ _ _ _ _ _ _).
  - destruct (resp_build hit _ []) as [[? ?] rb]. by destruct (sock_write wr rb).
Qed.
End reading.

(** ** Who uses a number *)

Definition wcount (f : nat) (ws : list wst) : nat := length (filter (fun x => wst_fd x = Some f) ws).
Definition qcount (f : nat) (q : list task) : nat := length (filter (fun k => task_fd k = f) q).
Definition on (f : nat) (x : wst) : nat := if decide (wst_fd x = Some f) then 1 else 0.

Lemma on_free f : on f WFree = 0.
Proof. done. Qed.
Lemma on_peek f : on f (WPeek f) = 1.
Proof. unfold on. by rewrite decide_True. Qed.
Lemma on_read f th st : on f (WRead th f st) = 1.
Proof. unfold on. by rewrite decide_True. Qed.
Lemma on_other f x : wst_fd x <> Some f -> on f x = 0.
Proof. intros H. unfold on. by rewrite decide_False. Qed.
Lemma on_le f x : on f x <= 1.
Proof. unfold on. destruct (decide _); lia. Qed.

Lemma wcount_cons f x ws : wcount f (x :: ws) = on f x + wcount f ws.
Proof. unfold wcount, on. rewrite filter_cons. destruct (decide _); done. Qed.
Lemma wcount_insert f ws w x y : ws !! w = Some x -> wcount f (<[w := y]> ws) + on f x = wcount f ws + on f y.
Proof.
  revert w. induction ws as [|z ws IH]; intros [|w] H; try done; cbn in H.
  - injection H as ->. change (<[0 := y]> (x :: ws)) with (y :: ws). rewrite !wcount_cons. lia.
  - change (<[S w := y]> (z :: ws)) with (z :: <[w := y]> ws). rewrite !wcount_cons. specialize (IH w H). lia.
Qed.
Lemma wcount_lookup f ws w x : ws !! w = Some x -> on f x <= wcount f ws.
Proof.
  revert w. induction ws as [|z ws IH]; intros [|w] H; try done; cbn in H; rewrite wcount_cons.
  - injection H as ->. lia.
  - specialize (IH w H). lia.
Qed.
Lemma wcount_two f ws w w' x x' : ws !! w = Some x -> ws !! w' = Some x' -> w <> w' -> on f x + on f x' <= wcount f ws.
Proof.
  revert w w'. induction ws as [|z ws IH]; intros [|w] [|w'] H H' Hne; try done; cbn in H, H'; rewrite wcount_cons.
  - injection H as ->. pose proof (wcount_lookup f _ _ _ H'). lia.
  - injection H' as ->. pose proof (wcount_lookup f _ _ _ H). lia.
  - assert (w <> w') by congruence. specialize (IH w w' H H' ltac:(done)). lia.
Qed.
Lemma qcount_cons f k q : qcount f (k :: q) = (if decide (task_fd k = f) then 1 else 0) + qcount f q.
Proof. unfold qcount. rewrite filter_cons. destruct (decide _); done. Qed.
Lemma qcount_app f q q' : qcount f (q ++ q') = qcount f q + qcount f q'.
Proof. unfold qcount. rewrite filter_app, app_length. done. Qed.
Lemma qcount_in f k q : k ∈ q -> task_fd k = f -> 1 <= qcount f q.
Proof.
  intros H Hf. induction H as [k q|k k' q _ IH]; rewrite qcount_cons; [rewrite decide_True by done; lia|].
  specialize (IH Hf). lia.
Qed.

Section runs.
Context {U : Type}.
Implicit Types (ro : router U) (s : tsys U).

Definition users (f : nat) s : nat := qcount f (ts_queue s) + wcount f (ts_workers s).

Lemma t_run_app mixed hit ro e s a b :
  t_run mixed hit ro e s (a ++ b) = (s' ← t_run mixed hit ro e s a; t_run mixed hit ro e s' b).
Proof.
  revert s. induction a as [|l a IH]; intros s; [done|]. simpl.
  destruct (t_step mixed hit ro e s l) as [s1|]; [|done]. simpl. apply IH.
Qed.
Lemma t_run_snoc mixed hit ro e s s' ls l :
  t_run mixed hit ro e s (ls ++ [l]) = Some s' ->
  exists s1, t_run mixed hit ro e s ls = Some s1 /\ t_step mixed hit ro e s1 l = Some s'.
Proof.
  rewrite t_run_app. destruct (t_run mixed hit ro e s ls) as [s1|]; [|done]. simpl. intros H.
  exists s1. split; [done|]. by destruct (t_step mixed hit ro e s1 l).
Qed.

(** What is always so: a number in the table stands for one connection, which has no
    other number; tasks are those of the mode. *)
Record sane (mixed : bool) s : Prop := {
  sa_conn : forall f i, ts_fds s !! f = Some i -> is_Some (ts_conns s !! i);
  sa_inj : forall f g i, ts_fds s !! f = Some i -> ts_fds s !! g = Some i -> f = g;
  sa_queue : forall k, k ∈ ts_queue s -> match k with KConn _ _ => mixed = false | KRead _ => mixed = true end;
  sa_work : forall w x, ts_workers s !! w = Some x ->
    match x with WFree => True | WPeek _ => mixed = false | WRead th _ _ => mixed = negb th end }.

Lemma sane_new mixed n w : sane mixed (t_new n w : tsys U).
Proof.
  split; cbn.
  - intros f i H. by rewrite lookup_empty in H.
  - intros f g i H. by rewrite lookup_empty in H.
  - intros k H. by apply elem_of_nil in H.
  - intros k x H. apply lookup_replicate in H as [-> _]. done.
Qed.

Lemma sane_close mixed s f : sane mixed s -> sane mixed (close_fd s f).
Proof.
  intros [H1 H2 H3 H4]. split; cbn; try done.
  - intros g i H. apply lookup_delete_Some in H as [_ H]. by eapply H1.
  - intros g g' i H H'. apply lookup_delete_Some in H as [_ H]. apply lookup_delete_Some in H' as [_ H']. by eapply H2.
Qed.
Lemma sane_conn mixed s i c : sane mixed s -> sane mixed (set_tconn s i c).
Proof.
  intros [H1 H2 H3 H4]. split; cbn; try done. intros f j Hj. destruct (decide (i = j)) as [->|].
  - rewrite lookup_insert. by eexists.
  - rewrite lookup_insert_ne by done. by eapply H1.
Qed.
Lemma sane_worker mixed s w x : sane mixed s ->
  match x with WFree => True | WPeek _ => mixed = false | WRead th _ _ => mixed = negb th end ->
  sane mixed (set_worker s w x).
Proof.
  intros [H1 H2 H3 H4] Hx. split; cbn; try done. intros w' y Hy.
  destruct (decide (w = w')) as [->|].
  - apply list_lookup_insert_Some in Hy as [(_ & <- & _)|[? _]]; done.
  - rewrite list_lookup_insert_ne in Hy by done. by eapply H4.
Qed.
Lemma sane_ext mixed s s' : sane mixed s -> ts_fds s' = ts_fds s -> ts_conns s' = ts_conns s -> ts_queue s' = ts_queue s ->
  ts_workers s' = ts_workers s -> sane mixed s'.
Proof. intros [H1 H2 H3 H4] E1 E2 E3 E4. split; rewrite ?E1, ?E2, ?E3, ?E4; done. Qed.
Lemma sane_add mixed s k : sane mixed s -> match k with KConn _ _ => mixed = false | KRead _ => mixed = true end ->
  sane mixed (add_task s k).
Proof.
  intros [H1 H2 H3 H4] Hk. split; cbn; try done. intros k' H.
  apply elem_of_app in H as [H|H]; [by apply H3|]. by apply elem_of_list_singleton in H as ->.
Qed.
Lemma sane_recv mixed s w x r : sane mixed s -> ts_workers s !! w = Some x -> sane mixed (recv_step s w x r).
Proof.
  intros H Hx. pose proof (sa_work _ _ H w x Hx) as Hm. unfold recv_step. destruct x as [|f|th f st], r as [c|]; try done.
  - by apply sane_worker.
  - by apply sane_worker.
  - destruct (got_byte st c); try (by apply sane_worker); by eapply sane_ext.
  - by apply sane_worker.
Qed.

Lemma sane_step mixed hit ro e s l s' : sane mixed s -> t_step mixed hit ro e s l = Some s' -> sane mixed s'.
Proof.
  intros H Hs. unfold t_step in Hs. destruct (ts_down s); [done|].
  destruct l as [i f ok|i bs|i|f|f|w|w|w i|w wr].
  - destruct (decide _) as [[Hi Hf]|]; [|done]. injection Hs as <-.
    assert (Hbase : sane mixed (set_tconn (TSys (ts_world s) (<[f := i]> (ts_fds s)) (ts_conns s) (ts_queue s) (ts_workers s) false) i tconn_new)).
    { destruct H as [H1 H2 H3 H4]. split; cbn; try done.
      - intros g j Hg. destruct (decide (i = j)) as [->|Hne]; [rewrite lookup_insert; by eexists|].
        rewrite lookup_insert_ne by done. apply lookup_insert_Some in Hg as [[_ ?]|[_ Hg]]; [done|]. by eapply H1.
      - intros g g' j Hg Hg'. apply lookup_insert_Some in Hg as [[<- <-]|[Hn Hg]], Hg' as [[<- Hx]|[Hn' Hg']]; try done.
        + apply H1 in Hg'. rewrite Hi in Hg'. by destruct Hg'.
        + subst j. apply H1 in Hg. rewrite Hi in Hg. by destruct Hg.
        + by eapply H2. }
    destruct mixed; [destruct ok; [done|by apply sane_close]|by apply sane_add].
  - destruct (ts_conns s !! i) as [c|]; [|done]. cbn [mbind option_bind] in Hs. destruct (tn_fin c); [done|].
    injection Hs as <-. by apply sane_conn.
  - destruct (ts_conns s !! i) as [c|]; [|done]. injection Hs as <-. by apply sane_conn.
  - destruct (conn_of s f) as [ic|]; [|done]. cbn [mbind option_bind] in Hs.
    destruct mixed; [|done]. destruct (_ || _); [|done]. injection Hs as <-. by apply sane_add.
  - destruct (conn_of s f) as [ic|]; [|done]. cbn [mbind option_bind] in Hs.
    destruct (_ && _); [|done]. injection Hs as <-. by apply sane_close.
  - destruct (ts_workers s !! w) as [[]|]; try done. destruct (ts_queue s) as [|k q] eqn:Eq; [done|]. injection Hs as <-.
    assert (Hb : sane mixed (TSys (ts_world s) (ts_fds s) (ts_conns s) q (ts_workers s) false)).
    { destruct H as [H1 H2 H3 H4]. split; cbn; try done. intros k' Hk'. apply H3. rewrite Eq. by apply elem_of_cons; right. }
    pose proof (sa_queue _ _ H k ltac:(rewrite Eq; left)) as Hk.
    destruct k as [f []|f]; [|apply sane_close|]; apply sane_worker; done.
  - destruct (ts_workers s !! w) as [x|] eqn:Ex; [|done]. cbn [mbind option_bind] in Hs.
    destruct (wst_fd x) as [f|]; [|done]. cbn [mbind option_bind] in Hs. destruct (receiving x); [|done].
    destruct (conn_of s f) as [[i c]|].
    + destruct (tn_in c) as [|ch rest].
      * destruct (tn_fin c); [|done]. injection Hs as <-. by apply sane_recv.
      * injection Hs as <-. apply sane_recv; [|by destruct (takes x)]. destruct (takes x); [by apply sane_conn|done].
    + injection Hs as <-. by apply sane_recv.
  - destruct (ts_workers s !! w) as [x|] eqn:Ex; [|done]. cbn [mbind option_bind] in Hs.
    destruct (wst_fd x) as [f|]; [|done]. cbn [mbind option_bind] in Hs. destruct (_ && _); [|done].
    injection Hs as <-. by apply sane_recv.
  - destruct (ts_workers s !! w) as [[|g|th f st]|] eqn:Ex; try done. destruct (finishing st); [|done].
    destruct (finish _ _ _ _ _ _) as [[[[wo texts] sent] cl]| | | | |]; try done;
      try (injection Hs as <-; by eapply sane_ext). injection Hs as <-.
    pose proof (sa_work _ _ H _ _ Ex) as Hm. cbn in Hm.
    assert (Hb : sane mixed (TSys wo (ts_fds s) (ts_conns s) (ts_queue s) (<[w := after_read th f]> (ts_workers s)) false)).
    { apply (sane_ext _ (set_worker s w (after_read th f))); try done. apply sane_worker; [done|].
      subst mixed. by destruct th. }
    assert (Hb2 : sane mixed (match conn_of s f with
      | Some (i, c) => set_tconn (TSys wo (ts_fds s) (ts_conns s) (ts_queue s) (<[w := after_read th f]> (ts_workers s)) false) i
                         (TConn (tn_in c) (tn_fin c) (tn_out c ++ texts) (tn_sent c ++ sent))
      | None => TSys wo (ts_fds s) (ts_conns s) (ts_queue s) (<[w := after_read th f]> (ts_workers s)) false end)).
    { destruct (conn_of s f) as [[i c]|]; [by apply sane_conn|done]. }
    destruct cl; [by apply sane_close|done].
Qed.

Lemma sane_run mixed hit ro e n w ls s : t_run mixed hit ro e (t_new n w) ls = Some s -> sane mixed s.
Proof.
  revert s. induction ls as [|l ls IH] using rev_ind; intros s H; [injection H as <-; apply sane_new|].
  apply t_run_snoc in H as (s1 & H1 & Hl). by eapply sane_step; [apply IH|].
Qed.

(** ** A connection whose number nobody else uses *)

Definition tsent_by (i : nat) (ls : list tlab) : bytes :=
  concat (map (fun l => match l with TSend j bs => if decide (j = i) then bs else [] | _ => [] end) ls).
Lemma tsent_by_snoc i ls l : tsent_by i (ls ++ [l]) =
  tsent_by i ls ++ match l with TSend j bs => if decide (j = i) then bs else [] | _ => [] end.
Proof. unfold tsent_by. rewrite map_app, concat_app. simpl. by rewrite app_nil_r. Qed.

(** [st] is where HandleRead gets to by reading [eaten]. *)
Definition reached ro (st : rst) (eaten : bytes) : Prop := live st /\
  forall hit wr e w l t, resume hit wr ro e w st (Stream l t) = handle_read hit wr ro e w (Stream (map Byte eaten ++ l) t).

Lemma reached_start ro : reached ro (RHead []) [].
Proof. split; [exact live_start|]. intros. by rewrite handle_read_parts. Qed.
Lemma reached_byte ro st eaten c st' :
  reached ro st eaten -> finishing st = false -> got_byte st c = Ok st' -> reached ro st' (eaten ++ [c]).
Proof.
  intros [Hl H] Hf Hg. split; [by eapply got_byte_live|]. intros.
  rewrite map_app, <- app_assoc. change (map Byte [c] ++ l) with (Byte c :: l). rewrite <- H.
  rewrite resume_byte by done. by rewrite Hg.
Qed.

(** [text] is a request that the handlers can answer. *)
Definition good_text ro (text : bytes) (r : req) : Prop :=
  short text /\ request_text exact_name text r /\ NUL ∉ rq_body r /\ tame ro r.

Lemma byte_prefix (a b : bytes) (l : list item) : map Byte a ++ l = map Byte b -> exists q, b = a ++ q /\ l = map Byte q.
Proof.
  revert b. induction a as [|c a IH]; intros b H; [by exists b|]. destruct b as [|d b]; [done|].
  injection H as -> H. destruct (IH b H) as (q & -> & ->). by exists q.
Qed.

(** A worker that is not done has not read the whole request. *)
Lemma reached_unfinished ro hit (e : bytes) (wo : world U) st eaten text r rest :
  valid_order hit ->
  reached ro st eaten -> finishing st = false -> good_text ro text r -> eaten `prefix_of` text ++ rest ->
  exists q, text = eaten ++ q /\ q <> [].
Proof.
  intros Hit [Hl H] Hf (Hs & Hr & Hn & Ht) Hp.
  assert (Hno : forall q, eaten <> text ++ q).
  { intros q ->. specialize (H hit (WTake 0) e wo [] Wait). rewrite resume_waits in H by done.
    rewrite map_app, <- app_assoc in H.
    destruct (handle_read_whole hit 0 ro e wo text r (map Byte q ++ []) Wait Hit Hs Hr Hn Ht) as (w' & out & E & _).
    by rewrite E in H. }
  destruct (prefix_weak_total eaten text (text ++ rest)) as [[q Hq]|[q Hq]]; [done|by exists rest| |by destruct (Hno q)].
  exists q. split; [done|]. intros ->. apply (Hno []). by rewrite Hq, !app_nil_r.
Qed.

(** A byte of the request does not bring it down. *)
Lemma reached_next ro hit (e : bytes) (wo : world U) st eaten text r c rest more :
  valid_order hit ->
  reached ro st eaten -> finishing st = false -> good_text ro text r -> eaten ++ c :: rest `prefix_of` text ++ more ->
  exists st', got_byte st c = Ok st'.
Proof.
  intros Hit Hre Hf Hg Hp.
  destruct (reached_unfinished ro hit e wo st eaten text r more Hit Hre Hf Hg) as (q & -> & Hq).
  { etrans; [|exact Hp]. by eexists. }
  rewrite <- app_assoc in Hp. apply prefix_app_inv in Hp. destruct q as [|d q]; [done|].
  apply prefix_cons_inv_1 in Hp as ->.
  destruct Hre as [Hl H], Hg as (Hs & Hr & Hn & Ht). specialize (H hit (WTake 0) e wo (Byte d :: map Byte q) Wait).
  destruct (handle_read_whole hit 0 ro e wo (eaten ++ d :: q) r [] Wait Hit Hs Hr Hn Ht) as (w' & out & E & _).
  rewrite map_app, <- app_assoc, app_nil_r in E. cbn [map] in E. rewrite E in H. rewrite resume_byte in H by done.
  destruct (got_byte st d) as [st'| | | | |]; try done. by exists st'.
Qed.

(** A worker that is done has read exactly the request, and answers it. *)
Lemma reached_finished ro hit (e : bytes) (wo : world U) st eaten text r rest n :
  valid_order hit ->
  reached ro st eaten -> finishing st = true -> good_text ro text r -> eaten `prefix_of` text ++ rest ->
  eaten = text /\ exists w' out, finish hit (WTake n) ro e st wo = Ok (w', [out], take n out, false) /\ answers ro r out.
Proof.
  intros Hit [Hl H] Hf (Hs & Hr & Hn & Ht) Hp.
  destruct (prefix_weak_total eaten text (text ++ rest)) as [[q Hq]|[q Hq]]; [done|by exists rest| |].
  - (* a piece *)
    assert (Hq0 : q = []).
    { destruct (decide (q = [])) as [|Hq0]; [done|exfalso].
      pose proof (H hit (WTake n) e wo [] Wait) as Hb. rewrite app_nil_r in Hb.
      rewrite (handle_read_piece_blocks hit n ro e wo text r eaten) in Hb; try done.
      2: by exists q.
      2: { intros ->. apply Hq0. rewrite <- (app_nil_r text) in Hq at 1. by apply app_inv_head in Hq. }
      rewrite resume_finish in Hb by done.
      specialize (H hit (WTake n) e wo (map Byte q) Wait). rewrite <- map_app, <- Hq in H.
      destruct (handle_read_whole hit n ro e wo text r [] Wait Hit Hs Hr Hn Ht) as (w' & out & E & _).
      rewrite app_nil_r in E. rewrite E, resume_finish in H by done.
      destruct (finish hit (WTake n) ro e st wo) as [[[[? ?] ?] ?]| | | | |]; done. }
    subst q. rewrite app_nil_r in Hq. subst eaten. split; [done|].
    specialize (H hit (WTake n) e wo [] Wait).
    destruct (handle_read_whole hit n ro e wo text r [] Wait Hit Hs Hr Hn Ht) as (w' & out & E & Ha).
    rewrite E, resume_finish in H by done. exists w', out.
    destruct (finish hit (WTake n) ro e st wo) as [[[[wo' texts] sent] cl]| | | | |]; try done.
    injection H as -> -> -> ->. done.
  - (* more than one *)
    subst eaten. specialize (H hit (WTake n) e wo [] Wait). rewrite map_app, <- app_assoc in H.
    destruct (handle_read_whole hit n ro e wo text r (map Byte q ++ []) Wait Hit Hs Hr Hn Ht) as (w' & out & E & Ha).
    rewrite E, resume_finish in H by done.
    destruct (finish hit (WTake n) ro e st wo) as [[[[wo' texts] sent] cl]| | | | |]; try done.
    injection H as -> Hr0 -> -> ->. rewrite app_nil_r in Hr0. symmetry in Hr0. apply map_Byte_nil in Hr0 as ->.
    rewrite app_nil_r. split; [done|]. by exists w', out.
Qed.

(** Where connection [i] is, which has the number [f]: [k] requests are answered, and
    a worker has read [eaten] of the next one. *)
Record holds (mixed : bool) ro (i : nat) (texts : list bytes) (rs : list req) (ls : list tlab) s
    (f : nat) (c : tconn) (k : nat) (eaten : bytes) : Prop := {
  ho_fd : ts_fds s !! f = Some i;
  ho_conn : ts_conns s !! i = Some c;
  ho_users : users f s <= 1;
  ho_some : mixed = false -> users f s = 1 \/ (tn_fin c = true /\ tn_in c = [] /\ eaten = []);
  ho_ok : forall ok, KConn f ok ∈ ts_queue s -> ok = true;
  ho_task : KRead f ∈ ts_queue s -> tn_in c <> [];
  ho_fin : tn_fin c = true -> mixed = false /\ tsent_by i ls = concat texts;
  ho_len : length (tn_out c) = k /\ k <= length texts;
  ho_in : tsent_by i ls = concat (take k texts) ++ eaten ++ tn_in c;
  ho_out : Forall2 (answers ro) (take k rs) (tn_out c);
  ho_read : forall w th st, ts_workers s !! w = Some (WRead th f st) -> reached ro st eaten /\ eaten ++ tn_in c <> [];
  ho_eaten : (forall w th st, ts_workers s !! w <> Some (WRead th f st)) -> eaten = [] }.

(** Nothing happens to the connection but data, and its number is not used by two. *)
Definition fine (mixed : bool) (i : nat) (texts : list bytes) s (ls : list tlab) (l : tlab) : Prop :=
  match l with
  | TAccept j f ok => j = i -> ok = true /\ users f s = 0
  | TFin j => j = i -> mixed = false /\ tsent_by i ls = concat texts
  | TNotify f => ts_fds s !! f = Some i -> users f s = 0
  | TTimeout _ j => j <> i
  | TRun _ wr => exists n, wr = WTake n
  | _ => True
  end.

(** Steps that change neither the connection, nor its number, nor who uses it. *)
Lemma holds_same mixed ro i texts rs ls l s s' f c k eaten :
  holds mixed ro i texts rs ls s f c k eaten ->
  (forall bs, l <> TSend i bs) ->
  ts_fds s' !! f = Some i -> ts_conns s' !! i = Some c ->
  (forall x, task_fd x = f -> x ∈ ts_queue s' -> x ∈ ts_queue s) -> qcount f (ts_queue s') = qcount f (ts_queue s) ->
  wcount f (ts_workers s') = wcount f (ts_workers s) ->
  (forall w th st, ts_workers s' !! w = Some (WRead th f st) <-> ts_workers s !! w = Some (WRead th f st)) ->
  holds mixed ro i texts rs (ls ++ [l]) s' f c k eaten.
Proof.
  intros [] Hl Hfd Hc Hq Hqc Hwc Hr.
  assert (Hsent : tsent_by i (ls ++ [l]) = tsent_by i ls).
  { rewrite tsent_by_snoc. destruct l; rewrite ?app_nil_r; try done.
    destruct (decide (i0 = i)) as [->|]; [by destruct (Hl bs)|by rewrite app_nil_r]. }
  assert (Hu : users f s' = users f s) by (unfold users; congruence).
  split; rewrite ?Hsent, ?Hu; try done.
  - intros ok Hok. apply ho_ok0. by apply Hq.
  - intros Ht. apply ho_task0. by apply Hq.
  - intros w th st H. apply Hr in H. by apply ho_read0 in H.
  - intros H. apply ho_eaten0. intros w th st Hw. by apply Hr, H in Hw.
Qed.

Lemma conn_of_Some s f i c : conn_of s f = Some (i, c) -> ts_fds s !! f = Some i /\ ts_conns s !! i = Some c.
Proof.
  unfold conn_of. destruct (ts_fds s !! f) as [j|]; [|done]. cbn [mbind option_bind].
  destruct (ts_conns s !! j) as [d|] eqn:E; [|done]. cbn. intros [= <- <-]. done.
Qed.
Lemma conn_of_eq s f i c : ts_fds s !! f = Some i -> ts_conns s !! i = Some c -> conn_of s f = Some (i, c).
Proof. intros H1 H2. unfold conn_of. rewrite H1. cbn. by rewrite H2. Qed.

(** Replacing the state of a worker that is not on [f] by one that is not. *)
Lemma other_worker f ws w x y : ws !! w = Some x -> wst_fd x <> Some f -> wst_fd y <> Some f ->
  wcount f (<[w := y]> ws) = wcount f ws /\
  (forall w' th st, <[w := y]> ws !! w' = Some (WRead th f st) <-> ws !! w' = Some (WRead th f st)).
Proof.
  intros Hx Hnx Hny. pose proof (wcount_insert f ws w x y Hx) as Hc. rewrite !on_other in Hc by done. split; [lia|].
  intros w' th st. destruct (decide (w = w')) as [->|Hne]; [|by rewrite list_lookup_insert_ne].
  rewrite list_lookup_insert by (by eapply lookup_lt_Some). rewrite Hx. split; intros [= ->]; done.
Qed.

(** Only one worker is on [f]. *)
Lemma only_reader f s w x w' x' : users f s <= 1 -> ts_workers s !! w = Some x -> wst_fd x = Some f ->
  ts_workers s !! w' = Some x' -> wst_fd x' = Some f -> w' = w.
Proof.
  intros Hu Hx Hf Hx' Hf'. destruct (decide (w' = w)) as [|Hne]; [done|].
  pose proof (wcount_two f _ _ _ _ _ Hx' Hx Hne) as H. unfold on in H. rewrite !decide_True in H by done. unfold users in Hu. lia.
Qed.
Lemma no_task f s w x : users f s <= 1 -> ts_workers s !! w = Some x -> wst_fd x = Some f -> qcount f (ts_queue s) = 0.
Proof.
  intros Hu Hx Hf. pose proof (wcount_lookup f _ _ _ Hx) as H. unfold on in H. rewrite decide_True in H by done. unfold users in Hu. lia.
Qed.
Lemma no_task_in f s x : qcount f (ts_queue s) = 0 -> x ∈ ts_queue s -> task_fd x <> f.
Proof. intros H Hx Hf. pose proof (qcount_in f x _ Hx Hf). lia. Qed.

Lemma recv_step_fd s w x r f : ts_workers s !! w = Some x -> wst_fd x <> Some f ->
  ts_fds (recv_step s w x r) = ts_fds s /\ ts_conns (recv_step s w x r) = ts_conns s /\
  ts_queue (recv_step s w x r) = ts_queue s /\
  wcount f (ts_workers (recv_step s w x r)) = wcount f (ts_workers s) /\
  (forall w' th st, ts_workers (recv_step s w x r) !! w' = Some (WRead th f st) <-> ts_workers s !! w' = Some (WRead th f st)).
Proof.
  intros Hx Hf.
  assert (Hset : forall y, wst_fd y <> Some f ->
    wcount f (<[w := y]> (ts_workers s)) = wcount f (ts_workers s) /\
    (forall w' th st, <[w := y]> (ts_workers s) !! w' = Some (WRead th f st) <-> ts_workers s !! w' = Some (WRead th f st))).
  { intros y Hy. by apply (other_worker f _ w x). }
  destruct x as [|g|th g st], r as [ch|]; cbn [recv_step].
  - done.
  - done.
  - destruct (Hset (WRead true g (RHead []))); [done|]. done.
  - destruct (Hset WFree); [done|]. done.
  - destruct (got_byte st ch) as [st'| | | | |]; try done. destruct (Hset (WRead th g st')); [done|]. done.
  - destruct (Hset (WRead th g (got_none st))); [done|]. done.
Qed.

(** The request that is being read, or that is next. *)
Lemma next_text mixed ro i texts rs ls s f c k eaten :
  requests texts rs -> Forall (tame ro) rs -> holds mixed ro i texts rs ls s f c k eaten ->
  tsent_by i ls `prefix_of` concat texts -> eaten ++ tn_in c <> [] ->
  exists text r, texts !! k = Some text /\ rs !! k = Some r /\ good_text ro text r /\
    eaten ++ tn_in c `prefix_of` text ++ concat (drop (S k) texts).
Proof.
  intros (HF & Hsh & Hnul) Htame [] Hp Hne. rewrite ho_in0 in Hp.
  assert (E : concat texts = concat (take k texts) ++ concat (drop k texts)) by (by rewrite <- concat_app, take_drop).
  rewrite E in Hp. apply prefix_app_inv in Hp.
  destruct (texts !! k) as [text|] eqn:Htk.
  - destruct (Forall2_lookup_l _ _ _ _ _ HF Htk) as (r & Hrk & Hr).
    exists text, r. rewrite (drop_S _ _ _ Htk) in Hp. split; [done|]. split; [done|]. split; [|done].
    split; [exact (Forall_lookup_1 _ _ _ _ Hsh Htk)|]. split; [done|].
    split; [exact (Forall_lookup_1 _ _ _ _ Hnul Hrk)|exact (Forall_lookup_1 _ _ _ _ Htame Hrk)].
  - apply lookup_ge_None in Htk. rewrite drop_ge in Hp by done. destruct Hp as [q Hq]. symmetry in Hq.
    by apply app_eq_nil in Hq as [? _].
Qed.

Lemma holds_step mixed hit ro e s l s' i texts rs ls f c k eaten :
  valid_order hit -> requests texts rs -> Forall (tame ro) rs -> sane mixed s ->
  holds mixed ro i texts rs ls s f c k eaten -> fine mixed i texts s ls l ->
  tsent_by i (ls ++ [l]) `prefix_of` concat texts -> t_step mixed hit ro e s l = Some s' ->
  exists c' k' eaten', holds mixed ro i texts rs (ls ++ [l]) s' f c' k' eaten'.
Proof.
  intros Hit Hreq Htame Hsane H Hfine Hp Hs.
  assert (Hp0 : tsent_by i ls `prefix_of` concat texts).
  { etrans; [|exact Hp]. rewrite tsent_by_snoc. by eexists. }
  pose proof (ho_fd _ _ _ _ _ _ _ _ _ _ _ H) as Hfd. pose proof (ho_conn _ _ _ _ _ _ _ _ _ _ _ H) as Hc.
  unfold t_step in Hs. destruct (ts_down s); [done|].
  destruct l as [j g ok|j bs|j|g|g|w|w|w j|w wr]; cbn [fine] in Hfine.
  - (* TAccept *)
    destruct (decide _) as [[Hj Hg]|]; [|done]. injection Hs as <-.
    assert (Hji : j <> i) by congruence. assert (Hgf : g <> f) by congruence.
    exists c, k, eaten. apply (holds_same _ _ _ _ _ _ _ s); [done|done|..];
      (destruct mixed; [destruct ok|]; cbn [set_tconn close_fd add_task ts_fds ts_conns ts_queue ts_workers]).
    all: try (by rewrite ?lookup_delete_ne, lookup_insert_ne by done).
    all: try done.
    + intros x Hx Hin. apply elem_of_app in Hin as [?|Hin]; [done|]. apply elem_of_list_singleton in Hin as ->. by cbn in Hx.
    + rewrite qcount_app, qcount_cons, decide_False by done. cbn. lia.
  - (* TSend *)
    destruct (ts_conns s !! j) as [cj|] eqn:Ej; [|done]. cbn [mbind option_bind] in Hs.
    destruct (tn_fin cj) eqn:Efin; [done|]. injection Hs as <-. destruct (decide (j = i)) as [->|Hji].
    + rewrite Hc in Ej. injection Ej as <-.
      exists (TConn (tn_in c ++ bs) false (tn_out c) (tn_sent c)), k, eaten.
      destruct H. split; cbn [set_tconn ts_fds ts_conns ts_queue ts_workers tn_in tn_fin tn_out users]; try done.
      * by rewrite lookup_insert.
      * intros Hm. destruct (ho_some0 Hm) as [?|[? _]]; [by left|congruence].
      * intros Ht. specialize (ho_task0 Ht). by destruct (tn_in c).
      * rewrite tsent_by_snoc, decide_True by done. by rewrite ho_in0, !app_assoc.
      * intros w th st Hw. destruct (ho_read0 w th st Hw) as [? Hne]. split; [done|]. rewrite app_assoc.
        intros Hx. by apply app_eq_nil in Hx as [? _].
    + exists c, k, eaten. apply (holds_same _ _ _ _ _ _ _ s); try done; [congruence|]. cbn. by rewrite lookup_insert_ne.
  - (* TFin *)
    destruct (ts_conns s !! j) as [cj|] eqn:Ej; [|done]. cbn [mbind option_bind] in Hs. injection Hs as <-.
    destruct (decide (j = i)) as [->|Hji].
    + rewrite Hc in Ej. injection Ej as <-. destruct (Hfine eq_refl) as [Hm Hall].
      exists (TConn (tn_in c) true (tn_out c) (tn_sent c)), k, eaten.
      destruct H. split; cbn [set_tconn ts_fds ts_conns ts_queue ts_workers tn_in tn_fin tn_out users]; try done.
      * by rewrite lookup_insert.
      * intros _. destruct (ho_some0 Hm) as [?|(? & ? & ?)]; [by left|by right].
      * intros _. split; [done|]. by rewrite tsent_by_snoc, app_nil_r.
      * by rewrite tsent_by_snoc, app_nil_r.
    + exists c, k, eaten. apply (holds_same _ _ _ _ _ _ _ s); try done. cbn. by rewrite lookup_insert_ne.
  - (* TNotify *)
    destruct (conn_of s g) as [[j cj]|] eqn:Eg; [|done]. cbn [mbind option_bind snd] in Hs.
    destruct mixed; [|done]. destruct (bool_decide (tn_in cj ≠ []) || tn_fin cj) eqn:Eb; [|done]. injection Hs as <-.
    apply conn_of_Some in Eg as [Eg Ej]. destruct (decide (g = f)) as [->|Hgf].
    + rewrite Hfd in Eg. injection Eg as <-. rewrite Hc in Ej. injection Ej as <-. specialize (Hfine Hfd).
      assert (Hfin : tn_fin c = false).
      { destruct (tn_fin c) eqn:Ef; [|done]. by destruct (ho_fin _ _ _ _ _ _ _ _ _ _ _ H Ef). }
      rewrite Hfin, orb_false_r in Eb. apply bool_decide_eq_true in Eb.
      exists c, k, eaten. destruct H. split; cbn [add_task ts_fds ts_conns ts_queue ts_workers]; try done.
      * unfold users in *. cbn [add_task ts_queue ts_workers]. rewrite qcount_app, qcount_cons, decide_True by done. cbn. lia.
      * intros ok Hin. apply elem_of_app in Hin as [?|Hin]; [by apply ho_ok0|]. by apply elem_of_list_singleton in Hin.
      * by rewrite Hfin.
      * by rewrite tsent_by_snoc, app_nil_r.
    + exists c, k, eaten. apply (holds_same _ _ _ _ _ _ _ s); try done; cbn [add_task ts_queue].
      * intros x Hx Hin. apply elem_of_app in Hin as [?|Hin]; [done|]. apply elem_of_list_singleton in Hin as ->. by cbn in Hx.
      * rewrite qcount_app, qcount_cons, decide_False by done. cbn. lia.
  - (* TLeave *)
    destruct (conn_of s g) as [[j cj]|] eqn:Eg; [|done]. cbn [mbind option_bind snd] in Hs.
    destruct mixed; [|done]. destruct (tn_fin cj) eqn:Eb; [|done]. injection Hs as <-.
    apply conn_of_Some in Eg as [Eg Ej]. destruct (decide (g = f)) as [->|Hgf].
    + rewrite Hfd in Eg. injection Eg as <-. rewrite Hc in Ej. injection Ej as <-.
      by destruct (ho_fin _ _ _ _ _ _ _ _ _ _ _ H Eb).
    + exists c, k, eaten. apply (holds_same _ _ _ _ _ _ _ s); try done. cbn. by rewrite lookup_delete_ne.
  - (* TPop *)
    destruct (ts_workers s !! w) as [[]|] eqn:Ew; try done. destruct (ts_queue s) as [|t q] eqn:Eq; [done|]. injection Hs as <-.
    destruct (decide (task_fd t = f)) as [Htf|Htf].
    + assert (Hu : qcount f q = 0 /\ wcount f (ts_workers s) = 0).
      { pose proof (ho_users _ _ _ _ _ _ _ _ _ _ _ H) as Hu. unfold users in Hu. rewrite Eq, qcount_cons, decide_True in Hu by done. lia. }
      destruct Hu as [Hq0 Hw0].
      assert (Hnone : forall w th st, ts_workers s !! w <> Some (WRead th f st)).
      { intros w' th st Hw. pose proof (wcount_lookup f _ _ _ Hw) as Hx. rewrite on_read in Hx. lia. }
      assert (He : eaten = []) by (by apply (ho_eaten _ _ _ _ _ _ _ _ _ _ _ H)). subst eaten.
      assert (Hqf : forall x, x ∈ q -> task_fd x <> f).
      { intros x Hx Hxf. pose proof (qcount_in f x q Hx Hxf). lia. }
      pose proof (wcount_insert f _ _ _ (WPeek f) Ew) as Hc1. pose proof (wcount_insert f _ _ _ (WRead false f (RHead [])) Ew) as Hc2.
      rewrite on_free, on_peek in Hc1. rewrite on_free, on_read in Hc2.
      exists c, k, [].
      destruct t as [g ok|g]; cbn [task_fd] in Htf; subst g.
      * assert (ok = true) as -> by (apply (ho_ok _ _ _ _ _ _ _ _ _ _ _ H); rewrite Eq; left).
        destruct H. split; cbn [set_worker ts_fds ts_conns ts_queue ts_workers]; try done;
          unfold users in *; cbn [set_worker ts_fds ts_conns ts_queue ts_workers].
        -- lia.
        -- intros _. left. lia.
        -- intros ok Hok. by destruct (Hqf _ Hok).
        -- intros Hok. by destruct (Hqf _ Hok).
        -- by rewrite tsent_by_snoc, app_nil_r.
        -- by rewrite tsent_by_snoc, app_nil_r.
        -- intros w' th st Hw. apply list_lookup_insert_Some in Hw as [(_ & ? & _)|[_ Hw]]; [done|]. by apply Hnone in Hw.
      * assert (Hm : mixed = true) by (apply (sa_queue _ _ Hsane (KRead f)); rewrite Eq; left).
        assert (Hin : tn_in c <> []) by (apply (ho_task _ _ _ _ _ _ _ _ _ _ _ H); rewrite Eq; left).
        destruct H. split; cbn [set_worker ts_fds ts_conns ts_queue ts_workers]; try done;
          unfold users in *; cbn [set_worker ts_fds ts_conns ts_queue ts_workers].
        -- lia.
        -- intros _. left. lia.
        -- intros ok Hok. by destruct (Hqf _ Hok).
        -- by rewrite tsent_by_snoc, app_nil_r.
        -- by rewrite tsent_by_snoc, app_nil_r.
        -- intros w' th st Hw. apply list_lookup_insert_Some in Hw as [(_ & [= <- <-] & _)|[_ Hw]]; [|by apply Hnone in Hw].
           split; [apply reached_start|done].
    + assert (Hoth : forall y, wst_fd y <> Some f ->
        wcount f (<[w := y]> (ts_workers s)) = wcount f (ts_workers s) /\
        (forall w' th st, <[w := y]> (ts_workers s) !! w' = Some (WRead th f st) <-> ts_workers s !! w' = Some (WRead th f st))).
      { intros y Hy. by apply (other_worker f _ w WFree). }
      exists c, k, eaten. destruct t as [g []|g]; cbn [task_fd] in Htf.
      1: destruct (Hoth (WPeek g)); [cbn; congruence|]. 2: destruct (Hoth (WPeek g)); [cbn; congruence|].
      3: destruct (Hoth (WRead false g (RHead []))); [cbn; congruence|].
      all: apply (holds_same _ _ _ _ _ _ _ s); try done; cbn [set_worker close_fd ts_fds ts_conns ts_queue ts_workers];
        rewrite ?Eq, ?qcount_cons, ?decide_False by (cbn; done); try done.
      all: try (intros x _ Hx; by apply elem_of_cons; right).
      by rewrite lookup_delete_ne.
  - (* TRecv *)
    destruct (ts_workers s !! w) as [x|] eqn:Ew; [|done]. cbn [mbind option_bind] in Hs.
    destruct (wst_fd x) as [g|] eqn:Eg; [|done]. cbn [mbind option_bind] in Hs.
    destruct (receiving x) eqn:Er; [|done]. destruct (decide (g = f)) as [->|Hgf].
    + rewrite (conn_of_eq _ _ _ _ Hfd Hc) in Hs.
      pose proof (ho_users _ _ _ _ _ _ _ _ _ _ _ H) as Hu.
      pose proof (no_task f s w x Hu Ew Eg) as Hq0.
      assert (Hqn : forall y, y ∈ ts_queue s -> task_fd y <> f) by (intros y; by apply no_task_in).
      assert (Hw1 : wcount f (ts_workers s) = 1).
      { pose proof (wcount_lookup f _ _ _ Ew) as Hx. unfold on in Hx. rewrite decide_True in Hx by done. unfold users in Hu. lia. }
      assert (Hcnt : forall y, wcount f (<[w := y]> (ts_workers s)) = on f y).
      { intros y. pose proof (wcount_insert f _ _ _ y Ew) as Hx. unfold on in Hx at 1. rewrite decide_True in Hx by done. lia. }
      assert (Hoth : forall w' th st, w' <> w -> ts_workers s !! w' <> Some (WRead th f st)).
      { intros w' th st Hne Hw'. apply Hne. by eapply only_reader. }
      destruct x as [|g|th g st]; [done|..]; cbn [wst_fd] in Eg; injection Eg as ->; cbn [takes] in Hs.
      * (* peek *)
        assert (He : eaten = []).
        { apply (ho_eaten _ _ _ _ _ _ _ _ _ _ _ H). intros w' th st Hw'. destruct (decide (w' = w)) as [->|Hne]; [congruence|].
          by apply (Hoth w' th st). }
        subst eaten. exists c, k, [].
        destruct (tn_in c) as [|ch rest] eqn:Ein.
        -- destruct (tn_fin c) eqn:Efin; [|done]. injection Hs as <-. cbn [recv_step].
           destruct H. split; cbn [set_worker ts_fds ts_conns ts_queue ts_workers]; try done;
             unfold users in *; cbn [set_worker ts_fds ts_conns ts_queue ts_workers]; rewrite ?Hcnt, ?on_free, ?Hq0; try done.
           ++ lia.
           ++ by intros _; right.
           ++ by rewrite tsent_by_snoc, app_nil_r.
           ++ by rewrite tsent_by_snoc, app_nil_r.
           ++ intros w' th st Hw. apply list_lookup_insert_Some in Hw as [(_ & ? & _)|[? Hw]]; [done|].
              by destruct (Hoth w' th st ltac:(congruence)).
        -- injection Hs as <-. cbn [recv_step].
           destruct H. split; cbn [set_worker ts_fds ts_conns ts_queue ts_workers]; try done;
             unfold users in *; cbn [set_worker ts_fds ts_conns ts_queue ts_workers]; rewrite ?Hcnt, ?on_read, ?Hq0; try done.
           ++ intros _. by left.
           ++ intros Hx. by rewrite tsent_by_snoc, app_nil_r; apply ho_fin0.
           ++ by rewrite tsent_by_snoc, app_nil_r.
           ++ intros w' th st Hw. apply list_lookup_insert_Some in Hw as [(_ & [= <- <-] & _)|[? Hw]].
              ** split; [apply reached_start|]. by rewrite Ein.
              ** by destruct (Hoth w' th st ltac:(congruence)).
      * (* reading *)
        cbn [receiving] in Er. apply negb_true_iff in Er.
        destruct (ho_read _ _ _ _ _ _ _ _ _ _ _ H w th st Ew) as [Hre Hne].
        destruct (next_text _ _ _ _ _ _ _ _ _ _ _ Hreq Htame H Hp0 Hne) as (text & r & Htk & Hrk & Hg & Hpre).
        destruct (tn_in c) as [|ch rest] eqn:Ein.
        -- (* the peer has closed: all was sent, so nothing is missing *)
           destruct (tn_fin c) eqn:Efin; [|done]. exfalso.
           destruct (ho_fin _ _ _ _ _ _ _ _ _ _ _ H Efin) as [_ Hall].
           rewrite app_nil_r in Hpre.
           destruct (reached_unfinished ro hit e (ts_world s) st eaten text r _ Hit Hre Er Hg Hpre) as (q' & Hq' & Hq'n).
           pose proof (ho_in _ _ _ _ _ _ _ _ _ _ _ H) as Hin. rewrite Hall, Ein, app_nil_r in Hin.
           assert (E : concat texts = concat (take k texts) ++ concat (drop k texts)) by (by rewrite <- concat_app, take_drop).
           rewrite E in Hin. apply app_inv_head in Hin. rewrite (drop_S _ _ _ Htk) in Hin. cbn in Hin. rewrite Hq', <- app_assoc in Hin.
           rewrite <- (app_nil_r eaten) in Hin at 2. apply app_inv_head in Hin. by apply app_eq_nil in Hin as [? _].
        -- destruct (reached_next ro hit e (ts_world s) st eaten text r ch rest _ Hit Hre Er Hg Hpre) as [st' Hst'].
           injection Hs as <-. cbn [recv_step]. rewrite Hst'.
           exists (TConn rest (tn_fin c) (tn_out c) (tn_sent c)), k, (eaten ++ [ch]).
           destruct H. split; cbn [set_tconn set_worker ts_fds ts_conns ts_queue ts_workers tn_in tn_fin tn_out]; try done;
             unfold users in *; cbn [set_tconn set_worker ts_fds ts_conns ts_queue ts_workers tn_in tn_fin tn_out];
             rewrite ?Hcnt, ?on_read, ?Hq0; try done.
           ++ by rewrite lookup_insert.
           ++ intros _. by left.
           ++ intros Ht. by apply Hqn in Ht.
           ++ intros Hx. by rewrite tsent_by_snoc, app_nil_r; apply ho_fin0.
           ++ rewrite tsent_by_snoc, app_nil_r, ho_in0, Ein, <- (app_assoc eaten). done.
           ++ intros w' th' st0 Hw. apply list_lookup_insert_Some in Hw as [(_ & [= <- <-] & _)|[? Hw]].
              ** split; [by eapply reached_byte|]. rewrite <- app_assoc. done.
              ** by destruct (Hoth w' th' st0 ltac:(congruence)).
           ++ intros Hx. destruct (Hx w th st'). apply list_lookup_insert. by eapply lookup_lt_Some.
    + (* another number *)
      assert (Hxf : wst_fd x <> Some f) by congruence.
      exists c, k, eaten. destruct (conn_of s g) as [[j cj]|] eqn:Ecg.
      * apply conn_of_Some in Ecg as [Egj Ej].
        assert (Hji : j <> i) by (intros ->; apply Hgf; by eapply (sa_inj _ _ Hsane)).
        destruct (tn_in cj) as [|ch rest].
        -- destruct (tn_fin cj); [|done]. injection Hs as <-.
           destruct (recv_step_fd s w x None f Ew Hxf) as (E1 & E2 & E3 & E4 & E5).
           apply (holds_same _ _ _ _ _ _ _ s); rewrite ?E1, ?E2, ?E3; try done.
        -- injection Hs as <-.
           set (s1 := if takes x then set_tconn s j (TConn rest (tn_fin cj) (tn_out cj) (tn_sent cj)) else s).
           assert (Hs1 : ts_fds s1 = ts_fds s /\ ts_conns s1 !! i = ts_conns s !! i /\ ts_queue s1 = ts_queue s /\ ts_workers s1 = ts_workers s).
           { unfold s1. destruct (takes x); [|done]. cbn. by rewrite lookup_insert_ne. }
           destruct Hs1 as (F1 & F2 & F3 & F4).
           destruct (recv_step_fd s1 w x (Some ch) f ltac:(by rewrite F4) Hxf) as (E1 & E2 & E3 & E4 & E5).
           apply (holds_same _ _ _ _ _ _ _ s); rewrite ?E1, ?E2, ?E3, ?E4, ?F1, ?F2, ?F3, ?F4; try done.
           intros w' th st. by rewrite E5, F4.
      * injection Hs as <-.
        destruct (recv_step_fd s w x None f Ew Hxf) as (E1 & E2 & E3 & E4 & E5).
        apply (holds_same _ _ _ _ _ _ _ s); rewrite ?E1, ?E2, ?E3; try done.
  - (* TTimeout *)
    destruct (ts_workers s !! w) as [x|] eqn:Ew; [|done]. cbn [mbind option_bind] in Hs.
    destruct (wst_fd x) as [g|] eqn:Eg; [|done]. cbn [mbind option_bind] in Hs.
    destruct (receiving x); [|done]. destruct (bool_decide (ts_fds s !! g = Some j)) eqn:Eb; [|done].
    apply bool_decide_eq_true in Eb. injection Hs as <-.
    assert (Hgf : g <> f) by congruence.
    destruct (recv_step_fd s w x None f Ew ltac:(congruence)) as (E1 & E2 & E3 & E4 & E5).
    exists c, k, eaten. apply (holds_same _ _ _ _ _ _ _ s); rewrite ?E1, ?E2, ?E3; try done.
  - (* TRun *)
    destruct Hfine as [n ->].
    destruct (ts_workers s !! w) as [[|g|th g st]|] eqn:Ew; try done. destruct (finishing st) eqn:Efs; [|done].
    destruct (decide (g = f)) as [->|Hgf].
    + rewrite Hfd in Hs. rewrite (conn_of_eq _ _ _ _ Hfd Hc) in Hs.
      destruct (ho_read _ _ _ _ _ _ _ _ _ _ _ H w th st Ew) as [Hre Hne].
      destruct (next_text _ _ _ _ _ _ _ _ _ _ _ Hreq Htame H Hp0 Hne) as (text & r & Htk & Hrk & Hg & Hpre).
      destruct (reached_finished ro hit e (ts_world s) st eaten text r (concat (drop (S k) texts)) n Hit Hre Efs Hg) as (-> & w' & out & Hfi & Ha).
      { etrans; [|exact Hpre]. by eexists. }
      rewrite Hfi in Hs. injection Hs as <-.
      pose proof (ho_users _ _ _ _ _ _ _ _ _ _ _ H) as Hu.
      pose proof (no_task f s w _ Hu Ew eq_refl) as Hq0.
      assert (Hqn : forall y, y ∈ ts_queue s -> task_fd y <> f) by (intros y; by apply no_task_in).
      assert (Hcnt : forall y, wcount f (<[w := y]> (ts_workers s)) = on f y).
      { intros y. pose proof (wcount_insert f _ _ _ y Ew) as Hx. rewrite on_read in Hx.
        pose proof (wcount_lookup f _ _ _ Ew) as Hx2. rewrite on_read in Hx2. unfold users in Hu. lia. }
      assert (Hoth : forall w' th' st', w' <> w -> ts_workers s !! w' <> Some (WRead th' f st')).
      { intros w1 th' st' Hn1 Hw1. apply Hn1. by eapply (only_reader f s w _ w1); [..|exact Hw1|]. }
      assert (Hnone : forall w' th' st', <[w := after_read th f]> (ts_workers s) !! w' <> Some (WRead th' f st')).
      { intros w1 th' st' Hw1. apply list_lookup_insert_Some in Hw1 as [(_ & E & _)|[? Hw1]]; [by destruct th|].
        by destruct (Hoth w1 th' st' ltac:(congruence)). }
      exists (TConn (tn_in c) (tn_fin c) (tn_out c ++ [out]) (tn_sent c ++ take n out)), (S k), [].
      pose proof (sa_work _ _ Hsane _ _ Ew) as Hmode. cbn in Hmode.
      destruct H. split; cbn [set_tconn ts_fds ts_conns ts_queue ts_workers tn_in tn_fin tn_out]; try done;
        unfold users in *; cbn [set_tconn ts_fds ts_conns ts_queue ts_workers tn_in tn_fin tn_out];
        rewrite ?Hcnt, ?Hq0; try done.
      * by rewrite lookup_insert.
      * pose proof (on_le f (after_read th f)). lia.
      * intros ->. destruct th; [|done]. cbn [after_read]. rewrite on_peek. by left.
      * intros Hx. by rewrite tsent_by_snoc, app_nil_r; apply ho_fin0.
      * rewrite app_length. simpl. apply lookup_lt_Some in Htk. lia.
      * rewrite tsent_by_snoc, app_nil_r, ho_in0, (take_S_r _ _ _ Htk), concat_app. simpl. by rewrite app_nil_r, app_assoc.
      * rewrite (take_S_r _ _ _ Hrk). apply Forall2_app; [done|]. by repeat constructor.
      * intros w1 th' st' Hw1. by apply Hnone in Hw1.
    + exists c, k, eaten.
      destruct (finish _ _ _ _ _ _) as [[[[wo texts'] sent] cl]| | | | |]; try done;
        try (injection Hs as <-; by apply (holds_same _ _ _ _ _ _ _ s)).
      injection Hs as <-.
      destruct (other_worker f _ w (WRead th g st) (after_read th g) Ew) as [Hwc Hww];
        [cbn; congruence|destruct th; cbn; congruence|].
      destruct (conn_of s g) as [[j cj]|] eqn:Ecg.
      * apply conn_of_Some in Ecg as [Egj Ej].
        assert (Hji : j <> i) by (intros ->; apply Hgf; by eapply (sa_inj _ _ Hsane)).
        destruct cl; apply (holds_same _ _ _ _ _ _ _ s); cbn [set_tconn close_fd ts_fds ts_conns ts_queue ts_workers];
          rewrite ?lookup_delete_ne, ?lookup_insert_ne by done; try done.
      * destruct cl; apply (holds_same _ _ _ _ _ _ _ s); cbn [set_tconn close_fd ts_fds ts_conns ts_queue ts_workers];
          rewrite ?lookup_delete_ne, ?lookup_insert_ne by done; try done.
Qed.

(** Before it is accepted, nothing is sent on a connection. *)
Lemma conns_grow mixed hit ro e s l s' i : t_step mixed hit ro e s l = Some s' ->
  (is_Some (ts_conns s !! i) -> is_Some (ts_conns s' !! i)) /\
  (ts_conns s !! i = None -> is_Some (ts_conns s' !! i) -> exists f ok, l = TAccept i f ok) /\
  (ts_conns s !! i = None -> forall bs, l <> TSend i bs).
Proof.
  intros Hs. unfold t_step in Hs. destruct (ts_down s); [done|].
  assert (Hset : forall (t : tsys U) j d, ts_conns t = ts_conns s -> is_Some (ts_conns s !! j) ->
    (is_Some (ts_conns s !! i) -> is_Some (ts_conns (set_tconn t j d) !! i)) /\
    (ts_conns s !! i = None -> is_Some (ts_conns (set_tconn t j d) !! i) -> exists f ok, l = TAccept i f ok)).
  { intros t j d E Hj. cbn. rewrite E. destruct (decide (j = i)) as [->|].
    - rewrite lookup_insert. split; [by eexists|]. intros Hn. rewrite Hn in Hj. by destruct Hj.
    - rewrite lookup_insert_ne by done. split; [done|]. intros -> [? ?]. done. }
  assert (Hrec : forall (t : tsys U) w x r, ts_conns (recv_step t w x r) = ts_conns t).
  { intros t w [] []; cbn; try done. by destruct (got_byte st a). }
  destruct l as [j g ok|j bs|j|g|g|w|w|w j|w wr].
  - destruct (decide _) as [[Hj Hg]|]; [|done]. injection Hs as <-. split; [|split; [|done]].
    + intros Hi. destruct mixed; [destruct ok|]; cbn; (destruct (decide (j = i)) as [->|]; [rewrite lookup_insert; by eexists|by rewrite lookup_insert_ne]).
    + intros Hi Hs. destruct (decide (j = i)) as [->|Hne]; [by do 2 eexists|exfalso].
      destruct mixed; [destruct ok|]; cbn in Hs; rewrite lookup_insert_ne in Hs by done; rewrite Hi in Hs; by destruct Hs.
  - destruct (ts_conns s !! j) as [c|] eqn:Ej; [|done]. cbn [mbind option_bind] in Hs. destruct (tn_fin c); [done|]. injection Hs as <-.
    destruct (Hset s j (TConn (tn_in c ++ bs) false (tn_out c) (tn_sent c)) eq_refl) as [H1 H2]; [by eexists|]. split; [done|]. split; [done|]. intros Hi bs' [= -> _]. congruence.
  - destruct (ts_conns s !! j) as [c|] eqn:Ej; [|done]. injection Hs as <-.
    destruct (Hset s j (TConn (tn_in c) true (tn_out c) (tn_sent c)) eq_refl) as [H1 H2]; [by eexists|]. done.
  - destruct (conn_of s g) as [ic|]; [|done]. cbn [mbind option_bind] in Hs. destruct (_ && _); [|done]. injection Hs as <-.
    split; [done|]. split; [|done]. intros Hn Hs. cbn in Hs. rewrite Hn in Hs. by destruct Hs.
  - destruct (conn_of s g) as [ic|]; [|done]. cbn [mbind option_bind] in Hs. destruct (_ && _); [|done]. injection Hs as <-.
    split; [done|]. split; [|done]. intros Hn Hs. cbn in Hs. rewrite Hn in Hs. by destruct Hs.
  - destruct (ts_workers s !! w) as [[]|]; try done. destruct (ts_queue s) as [|k q]; [done|]. injection Hs as <-.
    destruct k as [f []|f]; cbn; (split; [done|]; split; [|done]; intros Hn Hs; rewrite Hn in Hs; by destruct Hs).
  - destruct (ts_workers s !! w) as [x|]; [|done]. cbn [mbind option_bind] in Hs.
    destruct (wst_fd x) as [f|]; [|done]. cbn [mbind option_bind] in Hs. destruct (receiving x); [|done].
    assert (Hsame : forall t : tsys U, ts_conns t = ts_conns s ->
      (is_Some (ts_conns s !! i) -> is_Some (ts_conns t !! i)) /\
      (ts_conns s !! i = None -> is_Some (ts_conns t !! i) -> exists f ok, TRecv w = TAccept i f ok) /\
      (ts_conns s !! i = None -> forall bs, TRecv w <> TSend i bs)).
    { intros t ->. split; [done|]. split; [|done]. intros Hn Hs'. rewrite Hn in Hs'. by destruct Hs'. }
    destruct (conn_of s f) as [[j c]|] eqn:Ec.
    + apply conn_of_Some in Ec as [_ Ec].
      destruct (tn_in c) as [|ch rest].
      * destruct (tn_fin c); [|done]. injection Hs as <-. apply Hsame, Hrec.
      * injection Hs as <-. destruct (takes x); [|apply Hsame, Hrec]. rewrite Hrec.
        destruct (Hset s j (TConn rest (tn_fin c) (tn_out c) (tn_sent c)) eq_refl) as [H1 H2]; [by eexists|]. done.
    + injection Hs as <-. apply Hsame, Hrec.
  - destruct (ts_workers s !! w) as [x|]; [|done]. cbn [mbind option_bind] in Hs.
    destruct (wst_fd x) as [f|]; [|done]. cbn [mbind option_bind] in Hs. destruct (_ && _); [|done]. injection Hs as <-.
    rewrite Hrec. split; [done|]. split; [|done]. intros Hn Hs. rewrite Hn in Hs. by destruct Hs.
  - destruct (ts_workers s !! w) as [[|g|th g st]|]; try done. destruct (finishing st); [|done].
    assert (Hsame : forall t : tsys U, ts_conns t = ts_conns s ->
      (is_Some (ts_conns s !! i) -> is_Some (ts_conns t !! i)) /\
      (ts_conns s !! i = None -> is_Some (ts_conns t !! i) -> exists f ok, TRun w wr = TAccept i f ok) /\
      (ts_conns s !! i = None -> forall bs, TRun w wr <> TSend i bs)).
    { intros t ->. split; [done|]. split; [|done]. intros Hn Hs'. rewrite Hn in Hs'. by destruct Hs'. }
    destruct (finish _ _ _ _ _ _) as [[[[wo texts] sent] cl]| | | | |]; try done; try (injection Hs as <-; by apply Hsame).
    injection Hs as <-. destruct (conn_of s g) as [[j c]|] eqn:Ec; [|destruct cl; by apply Hsame].
    apply conn_of_Some in Ec as [_ Ec].
    destruct (Hset (TSys wo (ts_fds s) (ts_conns s) (ts_queue s) (<[w := after_read th g]> (ts_workers s)) false) j
      (TConn (tn_in c) (tn_fin c) (tn_out c ++ texts) (tn_sent c ++ sent)) eq_refl) as [H1 H2]; [by eexists|].
    by destruct cl.
Qed.

Lemma not_sent mixed hit ro e n w ls s i :
  t_run mixed hit ro e (t_new n w) ls = Some s -> ts_conns s !! i = None -> tsent_by i ls = [].
Proof.
  revert s. induction ls as [|l ls IH] using rev_ind; intros s H Hi; [done|].
  apply t_run_snoc in H as (s1 & H1 & Hl). destruct (conns_grow _ _ _ _ _ _ _ i Hl) as (Hg & _ & Hns).
  assert (Hn : ts_conns s1 !! i = None).
  { destruct (ts_conns s1 !! i) as [c|] eqn:E; [|done]. destruct Hg as [d Hd]; [by eexists|]. congruence. }
  rewrite tsent_by_snoc, (IH s1 H1 Hn). destruct l; try done. destruct (decide (i0 = i)) as [->|]; [|done].
  by destruct (Hns Hn bs).
Qed.

(** A connection that is accepted under a number nobody uses. *)
Lemma holds_accept mixed hit ro e n w ls s i f s' texts rs :
  t_run mixed hit ro e (t_new n w) ls = Some s -> t_step mixed hit ro e s (TAccept i f true) = Some s' -> users f s = 0 ->
  holds mixed ro i texts rs (ls ++ [TAccept i f true]) s' f tconn_new 0 [].
Proof.
  intros Hrun Hs Hu. unfold t_step in Hs. destruct (ts_down s); [done|]. destruct (decide _) as [[Hi Hf]|]; [|done].
  assert (Hsent : tsent_by i (ls ++ [TAccept i f true]) = []).
  { rewrite tsent_by_snoc, app_nil_r. by eapply not_sent. }
  injection Hs as <-.
  assert (Hq : forall x, x ∈ ts_queue s -> task_fd x <> f) by (intros x; apply no_task_in; unfold users in Hu; lia).
  assert (Hw : forall w th st, ts_workers s !! w <> Some (WRead th f st)).
  { intros w' th st Hw. pose proof (wcount_lookup f _ _ _ Hw) as Hx. rewrite on_read in Hx. unfold users in Hu. lia. }
  destruct mixed; split; rewrite ?Hsent; cbn [set_tconn add_task ts_fds ts_conns ts_queue ts_workers tconn_new tn_in tn_fin tn_out];
    try done; try (by rewrite lookup_insert); unfold users in *; cbn [set_tconn add_task ts_queue ts_workers];
    rewrite ?qcount_app, ?qcount_cons, ?decide_True by done; cbn [qcount filter length list_filter].
  - lia.
  - intros ok Hok. by apply Hq in Hok.
  - intros Hok. by apply Hq in Hok.
  - split; [done|lia].
  - constructor.
  - intros w' th st Hx. by apply Hw in Hx.
  - lia.
  - intros _. left. lia.
  - intros ok Hok. apply elem_of_app in Hok as [Hok|Hok]; [by apply Hq in Hok|]. by apply elem_of_list_singleton in Hok as [= ->].
  - intros Hok. apply elem_of_app in Hok as [Hok|Hok]; [by apply Hq in Hok|]. by apply elem_of_list_singleton in Hok.
  - split; [done|lia].
  - constructor.
  - intros w' th st Hx. by apply Hw in Hx.
Qed.

(** [fine] at each step of the run. *)
Definition fine_run mixed hit ro e (s0 : tsys U) (i : nat) (texts : list bytes) (ls : list tlab) : Prop :=
  forall pre l post s, ls = pre ++ l :: post -> t_run mixed hit ro e s0 pre = Some s -> fine mixed i texts s pre l.

Lemma holds_run mixed hit ro e n w ls s i texts rs c :
  valid_order hit -> requests texts rs -> Forall (tame ro) rs ->
  t_run mixed hit ro e (t_new n w) ls = Some s -> fine_run mixed hit ro e (t_new n w) i texts ls ->
  tsent_by i ls `prefix_of` concat texts -> ts_conns s !! i = Some c ->
  exists f k eaten, holds mixed ro i texts rs ls s f c k eaten.
Proof.
  intros Hit Hreq Htame. revert s c. induction ls as [|l ls IH] using rev_ind; intros s c Hrun Hfine Hp Hc.
  { injection Hrun as <-. cbn in Hc. by rewrite lookup_empty in Hc. }
  apply t_run_snoc in Hrun as (s1 & H1 & Hl).
  assert (Hf1 : fine mixed i texts s1 ls l) by (by eapply Hfine).
  destruct (ts_conns s1 !! i) as [c1|] eqn:Ec.
  - destruct (IH s1 c1 H1) as (f & k & eaten & Hh); [| |done|].
    + intros pre l' post s' -> Hpre. eapply Hfine; [|exact Hpre]. by rewrite <- app_assoc.
    + etrans; [|exact Hp]. rewrite tsent_by_snoc. by eexists.
    + destruct (holds_step _ _ _ _ _ _ _ _ _ _ _ _ _ _ _ Hit Hreq Htame (sane_run _ _ _ _ _ _ _ _ H1) Hh Hf1 Hp Hl)
        as (c' & k' & eaten' & Hh').
      assert (c' = c) as -> by (apply ho_conn in Hh'; congruence). by exists f, k', eaten'.
  - destruct (conns_grow _ _ _ _ _ _ _ i Hl) as (_ & Hnew & _). destruct (Hnew Ec) as (f & ok & ->); [by eexists|].
    destruct (Hf1 eq_refl) as [-> Hu].
    pose proof (holds_accept mixed hit ro e n w ls s1 i f s texts rs H1 Hl Hu) as Hh.
    assert (tconn_new = c) as <- by (apply ho_conn in Hh; congruence). by exists f, 0, [].
Qed.

(** Who uses a number. *)
Lemma users_step mixed hit ro e s l s' f : t_step mixed hit ro e s l = Some s' ->
  users f s' <= users f s \/ (exists i ok, l = TAccept i f ok) \/ l = TNotify f.
Proof.
  intros Hs. unfold t_step in Hs. destruct (ts_down s); [done|].
  assert (Hrec : forall (t : tsys U) w x r, ts_workers t !! w = Some x -> users f (recv_step t w x r) <= users f t).
  { intros t w x r Hx. unfold users.
    assert (Hset : forall y, on f y <= on f x -> wcount f (<[w := y]> (ts_workers t)) <= wcount f (ts_workers t)).
    { intros y Hy. pose proof (wcount_insert f _ _ _ y Hx). lia. }
    destruct x as [|g|th g st], r as [ch|]; cbn [recv_step set_worker ts_queue ts_workers]; try lia.
    - specialize (Hset (WRead true g (RHead []))). unfold on in Hset. cbn [wst_fd] in Hset. specialize (Hset ltac:(lia)). lia.
    - specialize (Hset WFree). rewrite on_free in Hset. specialize (Hset ltac:(lia)). lia.
    - destruct (got_byte st ch) as [st'| | | | |]; cbn [set_worker go_down ts_queue ts_workers]; try lia.
      specialize (Hset (WRead th g st')). unfold on in Hset. cbn [wst_fd] in Hset. specialize (Hset ltac:(lia)). lia.
    - specialize (Hset (WRead th g (got_none st))). unfold on in Hset. cbn [wst_fd] in Hset. specialize (Hset ltac:(lia)). lia. }
  destruct l as [j g ok|j bs|j|g|g|w|w|w j|w wr].
  - destruct (decide _) as [[Hj Hg]|]; [|done]. injection Hs as <-.
    destruct (decide (g = f)) as [->|Hne]; [right; left; by do 2 eexists|left].
    destruct mixed; [by destruct ok|]. unfold users. cbn [add_task set_tconn ts_queue ts_workers].
    rewrite qcount_app, qcount_cons, decide_False by done. unfold qcount at 2. cbn. lia.
  - destruct (ts_conns s !! j) as [c|]; [|done]. cbn [mbind option_bind] in Hs. destruct (tn_fin c); [done|]. injection Hs as <-. by left.
  - destruct (ts_conns s !! j) as [c|]; [|done]. injection Hs as <-. by left.
  - destruct (conn_of s g) as [ic|]; [|done]. cbn [mbind option_bind] in Hs. destruct (_ && _); [|done]. injection Hs as <-.
    destruct (decide (g = f)) as [->|Hne]; [by right; right|left]. unfold users. cbn [add_task ts_queue ts_workers].
    rewrite qcount_app, qcount_cons, decide_False by done. unfold qcount at 2. cbn. lia.
  - destruct (conn_of s g) as [ic|]; [|done]. cbn [mbind option_bind] in Hs. destruct (_ && _); [|done]. injection Hs as <-. by left.
  - destruct (ts_workers s !! w) as [[]|] eqn:Ew; try done. destruct (ts_queue s) as [|k q] eqn:Eq; [done|]. injection Hs as <-. left.
    assert (Hset : forall y, wst_fd y = Some (task_fd k) ->
      qcount f q + wcount f (<[w := y]> (ts_workers s)) <= users f s).
    { intros y Hy. pose proof (wcount_insert f _ _ _ y Ew) as Hc. rewrite on_free in Hc. unfold users. rewrite Eq, qcount_cons.
      unfold on in Hc. rewrite Hy in Hc. destruct (decide (task_fd k = f)) as [Hk|Hne].
      - rewrite decide_True in Hc by congruence. lia.
      - rewrite decide_False in Hc by congruence. lia. }
    destruct k as [g []|g]; unfold users; cbn [set_worker close_fd ts_queue ts_workers]; by apply Hset.
  - destruct (ts_workers s !! w) as [x|] eqn:Ew; [|done]. cbn [mbind option_bind] in Hs.
    destruct (wst_fd x) as [g|]; [|done]. cbn [mbind option_bind] in Hs. destruct (receiving x); [|done]. left.
    destruct (conn_of s g) as [[j c]|].
    + destruct (tn_in c) as [|ch rest].
      * destruct (tn_fin c); [|done]. injection Hs as <-. by apply Hrec.
      * injection Hs as <-. destruct (takes x); [|by apply Hrec]. etrans; [by apply Hrec|done].
    + injection Hs as <-. by apply Hrec.
  - destruct (ts_workers s !! w) as [x|] eqn:Ew; [|done]. cbn [mbind option_bind] in Hs.
    destruct (wst_fd x) as [g|]; [|done]. cbn [mbind option_bind] in Hs. destruct (_ && _); [|done]. injection Hs as <-.
    left. by apply Hrec.
  - destruct (ts_workers s !! w) as [[|g|th g st]|] eqn:Ew; try done. destruct (finishing st); [|done]. left.
    destruct (finish _ _ _ _ _ _) as [[[[wo texts] sent] cl]| | | | |]; try done; try (by injection Hs as <-).
    injection Hs as <-.
    assert (Hset : qcount f (ts_queue s) + wcount f (<[w := after_read th g]> (ts_workers s)) <= users f s).
    { pose proof (wcount_insert f _ _ _ (after_read th g) Ew) as Hc. unfold users.
      assert (on f (after_read th g) <= on f (WRead th g st)); [|lia].
      destruct th; cbn [after_read]; [done|]. rewrite on_free. lia. }
    destruct (conn_of s g) as [[j c]|]; by destruct cl.
Qed.

(** ** A connection nobody works for, in mode kMultiThread *)
Lemma abandoned_step hit ro e s l s' f i c :
  sane false s -> t_step false hit ro e s l = Some s' ->
  ts_fds s !! f = Some i -> ts_conns s !! i = Some c -> users f s = 0 ->
  ts_fds s' !! f = Some i /\ users f s' = 0 /\
  exists c', ts_conns s' !! i = Some c' /\ tn_out c' = tn_out c /\ tn_in c `prefix_of` tn_in c'.
Proof.
  intros Hsane Hs Hf Hc Hu.
  assert (Hu' : users f s' = 0).
  { destruct (users_step _ _ _ _ _ _ _ f Hs) as [?|[(j & ok & ->)| ->]]; [lia| |].
    - unfold t_step in Hs. destruct (ts_down s); [done|]. destruct (decide _) as [[_ ?]|]; [congruence|done].
    - unfold t_step in Hs. destruct (ts_down s); [done|]. cbn [andb] in Hs. by destruct (conn_of s f). }
  assert (Hwf : forall w x, ts_workers s !! w = Some x -> wst_fd x <> Some f).
  { intros w x Hx Hxf. pose proof (wcount_lookup f _ _ _ Hx) as Hz. unfold on in Hz. rewrite decide_True in Hz by done. unfold users in Hu. lia. }
  assert (Hqf : forall x, x ∈ ts_queue s -> task_fd x <> f) by (intros x; apply no_task_in; unfold users in Hu; lia).
  enough (H : ts_fds s' !! f = Some i /\ exists c', ts_conns s' !! i = Some c' /\ tn_out c' = tn_out c /\ tn_in c `prefix_of` tn_in c') by naive_solver.
  clear Hu Hu'. unfold t_step in Hs. destruct (ts_down s); [done|].
  assert (Hsame : ts_conns s' !! i = ts_conns s !! i ->
    exists c', ts_conns s' !! i = Some c' /\ tn_out c' = tn_out c /\ tn_in c `prefix_of` tn_in c').
  { intros E. exists c. rewrite E. done. }
  assert (Hrf : forall (t : tsys U) w x r, ts_fds (recv_step t w x r) = ts_fds t).
  { intros t w [] []; cbn; try done. by destruct (got_byte st a). }
  assert (Hrec : forall (t : tsys U) w x r, ts_conns (recv_step t w x r) = ts_conns t).
  { intros t w [] []; cbn; try done. by destruct (got_byte st a). }
  destruct l as [j g ok|j bs|j|g|g|w|w|w j|w wr]; cbn [andb] in Hs.
  - destruct (decide _) as [[Hj Hg]|]; [|done]. injection Hs as <-. cbn in *.
    split; [by rewrite lookup_insert_ne by congruence|]. apply Hsame. by rewrite lookup_insert_ne by congruence.
  - destruct (ts_conns s !! j) as [cj|] eqn:Ej; [|done]. cbn [mbind option_bind] in Hs. destruct (tn_fin cj); [done|]. injection Hs as <-.
    split; [done|]. destruct (decide (j = i)) as [->|Hne]; [|apply Hsame; cbn; by rewrite lookup_insert_ne].
    eexists. cbn. rewrite lookup_insert. split; [done|]. rewrite Hc in Ej. injection Ej as <-. cbn. split; [done|by eexists].
  - destruct (ts_conns s !! j) as [cj|] eqn:Ej; [|done]. cbn [mbind option_bind] in Hs. injection Hs as <-.
    split; [done|]. destruct (decide (j = i)) as [->|Hne]; [|apply Hsame; cbn; by rewrite lookup_insert_ne].
    eexists. cbn. rewrite lookup_insert. split; [done|]. rewrite Hc in Ej. injection Ej as <-. done.
  - by destruct (conn_of s g).
  - by destruct (conn_of s g).
  - destruct (ts_workers s !! w) as [[]|] eqn:Ew; try done. destruct (ts_queue s) as [|k q] eqn:Eq; [done|].
    assert (Hkf : task_fd k <> f) by (apply Hqf; left). injection Hs as <-.
    destruct k as [g []|g]; cbn in *; try (split; [done|by apply Hsame]).
    split; [by rewrite lookup_delete_ne|by apply Hsame].
  - destruct (ts_workers s !! w) as [x|] eqn:Ew; [|done]. cbn [mbind option_bind] in Hs.
    pose proof (Hwf _ _ Ew) as Hxf.
    destruct (wst_fd x) as [g|]; [|done]. cbn [mbind option_bind] in Hs. destruct (receiving x); [|done].
    destruct (conn_of s g) as [[j cj]|] eqn:Ecg.
    + apply conn_of_Some in Ecg as [Egj Ej].
      assert (Hji : j <> i) by (intros ->; apply Hxf; f_equal; by eapply (sa_inj _ _ Hsane)).
      destruct (tn_in cj) as [|ch rest].
      * destruct (tn_fin cj); [|done]. injection Hs as <-. rewrite Hrf. split; [done|]. apply Hsame. by rewrite Hrec.
      * injection Hs as <-. rewrite Hrf. split; [by destruct (takes x)|]. apply Hsame. rewrite Hrec.
        destruct (takes x); [cbn; by rewrite lookup_insert_ne|done].
    + injection Hs as <-. rewrite Hrf. split; [done|]. apply Hsame. by rewrite Hrec.
  - destruct (ts_workers s !! w) as [x|] eqn:Ew; [|done]. cbn [mbind option_bind] in Hs.
    destruct (wst_fd x) as [g|]; [|done]. cbn [mbind option_bind] in Hs. destruct (_ && _); [|done]. injection Hs as <-.
    rewrite Hrf. split; [done|]. apply Hsame. by rewrite Hrec.
  - destruct (ts_workers s !! w) as [[|g|th g st]|] eqn:Ew; try done. destruct (finishing st); [|done].
    pose proof (Hwf _ _ Ew) as Hgf. cbn in Hgf.
    destruct (finish _ _ _ _ _ _) as [[[[wo texts] sent] cl]| | | | |]; try done;
      try (injection Hs as <-; split; [done|by apply Hsame]).
    injection Hs as <-. destruct (conn_of s g) as [[j cj]|] eqn:Ecg.
    + apply conn_of_Some in Ecg as [Egj Ej].
      assert (Hji : j <> i) by (intros ->; apply Hgf; f_equal; by eapply (sa_inj _ _ Hsane)).
      destruct cl; cbn in *; (split; [by rewrite ?lookup_delete_ne by congruence|apply Hsame; by rewrite lookup_insert_ne]).
    + destruct cl; cbn in *; (split; [by rewrite ?lookup_delete_ne by congruence|by apply Hsame]).
Qed.

(** ** When all peers send whole requests, no number is ever closed *)

(** Connection [j] is sent the requests [texts], and closed by its peer only after
    the last one. *)
Definition whole ro (j : nat) (ls : list tlab) (texts : list bytes) (rs : list req) : Prop :=
  requests texts rs /\ Forall (tame ro) rs /\ tsent_by j ls `prefix_of` concat texts /\
  forall pre post, ls = pre ++ TFin j :: post -> tsent_by j pre = concat texts.
(** Nothing fails and nothing times out. *)
Definition smooth (l : tlab) : Prop :=
  match l with
  | TAccept _ _ ok => ok = true
  | TTimeout _ _ => False
  | TRun _ wr => exists n, wr = WTake n
  | _ => True
  end.

Lemma good_run hit ro e n w ls :
  valid_order hit -> Forall smooth ls -> (forall j, exists texts rs, whole ro j ls texts rs) ->
  forall pre post s, ls = pre ++ post -> t_run false hit ro e (t_new n w) pre = Some s ->
    (forall j texts rs c, whole ro j ls texts rs -> ts_conns s !! j = Some c ->
       exists f k eaten, holds false ro j texts rs pre s f c k eaten) /\
    (forall f, ts_fds s !! f = None -> users f s = 0).
Proof.
  intros Hit Hsm Hgood. induction pre as [|l pre IH] using rev_ind; intros post s Hls Hrun.
  { injection Hrun as <-. split.
    - intros j texts rs c _ Hc. cbn in Hc. by rewrite lookup_empty in Hc.
    - intros f _. unfold users. cbn [t_new ts_queue ts_workers]. unfold qcount. cbn [filter list_filter length]. clear.
      induction n as [|n IHn]; [done|]. cbn [replicate]. rewrite wcount_cons, on_free. done. }
  rewrite <- app_assoc in Hls. cbn [app] in Hls.
  apply t_run_snoc in Hrun as (s1 & H1 & Hl). destruct (IH _ _ Hls H1) as [IHh IHu].
  pose proof (sane_run _ _ _ _ _ _ _ _ H1) as Hsane.
  assert (Hl0 : smooth l) by (eapply Forall_forall; [exact Hsm|]; rewrite Hls; apply elem_of_app; right; left).
  assert (Hfine : forall j texts rs, whole ro j ls texts rs -> fine false j texts s1 pre l).
  { intros j texts rs (_ & _ & _ & Hfin). destruct l as [i g ok|i bs|i|g|g|w0|w0|w0 i|w0 wr]; cbn [fine]; try done.
    - intros _. split; [done|]. apply IHu. unfold t_step in Hl. destruct (ts_down s1); [done|]. destruct (decide _) as [[_ ?]|]; done.
    - intros ->. split; [done|]. by eapply Hfin.
    - unfold t_step in Hl. destruct (ts_down s1); [done|]. by destruct (conn_of s1 g). }
  assert (Hp : forall j texts rs, whole ro j ls texts rs -> tsent_by j (pre ++ [l]) `prefix_of` concat texts).
  { intros j texts rs (_ & _ & Hp & _). etrans; [|exact Hp]. exists (tsent_by j post). rewrite Hls.
    rewrite (cons_middle l pre post), app_assoc. unfold tsent_by. by rewrite map_app, concat_app. }
  assert (Hhold : forall j texts rs c, whole ro j ls texts rs -> ts_conns s1 !! j = Some c ->
    exists f c' k eaten, ts_fds s1 !! f = Some j /\ holds false ro j texts rs (pre ++ [l]) s f c' k eaten).
  { intros j texts rs c Hw Hc. destruct (IHh _ _ _ _ Hw Hc) as (f & k & eaten & Hh).
    pose proof Hw as (Hreq & Htame & _ & _).
    destruct (holds_step _ _ _ _ _ _ _ _ _ _ _ _ _ _ _ Hit Hreq Htame Hsane Hh (Hfine _ _ _ Hw) (Hp _ _ _ Hw) Hl)
      as (c' & k' & eaten' & Hh'). exists f, c', k', eaten'. split; [by apply ho_fd in Hh|done]. }
  split.
  - intros j texts rs c Hw Hc. destruct (ts_conns s1 !! j) as [c1|] eqn:Ec.
    + destruct (Hhold _ _ _ _ Hw Ec) as (f & c' & k & eaten & _ & Hh).
      assert (c' = c) as -> by (apply ho_conn in Hh; congruence). by exists f, k, eaten.
    + destruct (conns_grow _ _ _ _ _ _ _ j Hl) as (_ & Hnew & _). destruct (Hnew Ec) as (f & ok & ->); [by eexists|].
      cbn in Hl0. subst ok. destruct (Hfine _ _ _ Hw eq_refl) as [_ Hu].
      pose proof (holds_accept false hit ro e n w pre s1 j f s texts rs H1 Hl Hu) as Hh.
      assert (tconn_new = c) as <- by (apply ho_conn in Hh; congruence). by exists f, 0, [].
  - intros f Hf. destruct (ts_fds s1 !! f) as [j|] eqn:Ef.
    { exfalso. destruct (sa_conn _ _ Hsane f j Ef) as [c Hc]. destruct (Hgood j) as (texts & rs & Hw).
      destruct (Hhold _ _ _ _ Hw Hc) as (g & c' & k & eaten & Hg & Hh).
      assert (g = f) as -> by (by eapply (sa_inj _ _ Hsane)). apply ho_fd in Hh. congruence. }
    specialize (IHu f Ef). destruct (users_step _ _ _ _ _ _ _ f Hl) as [?|[(j & ok & ->)| ->]]; [lia| |].
    + exfalso. unfold t_step in Hl. destruct (ts_down s1); [done|]. destruct (decide _) as [[_ _]|]; [|done].
      injection Hl as <-. cbn in Hf. by rewrite lookup_insert in Hf.
    + exfalso. unfold t_step in Hl. destruct (ts_down s1); [done|]. unfold conn_of in Hl. by rewrite Ef in Hl.
Qed.

(** ** Enough workers *)

Definition busy (x : wst) : nat := match x with WFree => 0 | _ => 1 end.
Definition nbusy (ws : list wst) : nat := sum_list_with busy ws.
Lemma nbusy_cons x ws : nbusy (x :: ws) = busy x + nbusy ws.
Proof. done. Qed.
Lemma nbusy_insert ws w x y : ws !! w = Some x -> nbusy (<[w := y]> ws) + busy x = nbusy ws + busy y.
Proof.
  revert w. induction ws as [|z ws IH]; intros [|w] H; try done; cbn in H.
  - injection H as ->. change (<[0 := y]> (x :: ws)) with (y :: ws). rewrite !nbusy_cons. lia.
  - change (<[S w := y]> (z :: ws)) with (z :: <[w := y]> ws). rewrite !nbusy_cons. specialize (IH w H). lia.
Qed.
Lemma nbusy_free ws : nbusy ws < length ws -> exists w, ws !! w = Some WFree.
Proof.
  induction ws as [|x ws IH]; [cbn; lia|]. rewrite nbusy_cons. cbn [length]. intros H. destruct x; [by exists 0| |];
    (destruct IH as [w Hw]; [cbn [busy] in H; lia|by exists (S w)]).
Qed.
Definition accepted (l : tlab) : bool := match l with TAccept _ _ _ => true | _ => false end.
Definition naccepted (ls : list tlab) : nat := length (List.filter accepted ls).

Definition load s : nat := length (ts_queue s) + nbusy (ts_workers s).

Lemma load_step hit ro e s l s' : t_step false hit ro e s l = Some s' ->
  load s' <= load s + (if accepted l then 1 else 0) /\ length (ts_workers s') = length (ts_workers s).
Proof.
  intros Hs. unfold t_step in Hs. destruct (ts_down s); [done|]. unfold load.
  assert (Hrec : forall (t : tsys U) w x r, ts_workers t !! w = Some x -> x <> WFree -> 
    length (ts_queue (recv_step t w x r)) + nbusy (ts_workers (recv_step t w x r)) <= length (ts_queue t) + nbusy (ts_workers t) /\
    length (ts_workers (recv_step t w x r)) = length (ts_workers t)).
  { intros t w x r Hx Hne.
    assert (Hset : forall y, nbusy (<[w := y]> (ts_workers t)) <= nbusy (ts_workers t) /\ length (<[w := y]> (ts_workers t)) = length (ts_workers t)).
    { intros y. split; [|by rewrite insert_length]. pose proof (nbusy_insert _ _ _ y Hx) as H. destruct x, y; try done; cbn in H; lia. }
    destruct x as [|g|th g st], r as [ch|]; cbn [recv_step set_worker ts_queue ts_workers]; try done.
    - destruct (Hset (WRead true g (RHead []))); lia.
    - destruct (Hset WFree); lia.
    - destruct (got_byte st ch) as [st'| | | | |]; cbn [set_worker go_down ts_queue ts_workers]; try lia.
      destruct (Hset (WRead th g st')); lia.
    - destruct (Hset (WRead th g (got_none st))); lia. }
  destruct l as [j g ok|j bs|j|g|g|w|w|w j|w wr]; cbn [accepted andb] in *.
  - destruct (decide _); [|done]. injection Hs as <-. cbn [add_task set_tconn ts_queue ts_workers]. rewrite app_length. cbn. lia.
  - destruct (ts_conns s !! j) as [c|]; [|done]. cbn [mbind option_bind] in Hs. destruct (tn_fin c); [done|]. injection Hs as <-. cbn [set_tconn ts_queue ts_workers]. lia.
  - destruct (ts_conns s !! j) as [c|]; [|done]. injection Hs as <-. cbn [set_tconn ts_queue ts_workers]. lia.
  - by destruct (conn_of s g).
  - by destruct (conn_of s g).
  - destruct (ts_workers s !! w) as [[]|] eqn:Ew; try done. destruct (ts_queue s) as [|k q]; [done|]. injection Hs as <-.
    assert (Hset : forall y, nbusy (<[w := y]> (ts_workers s)) <= nbusy (ts_workers s) + 1 /\ length (<[w := y]> (ts_workers s)) = length (ts_workers s)).
    { intros y. split; [|by rewrite insert_length]. pose proof (nbusy_insert _ _ _ y Ew) as H. destruct y; cbn in H; lia. }
    destruct k as [g []|g]; cbn [set_worker close_fd ts_queue ts_workers length].
    + destruct (Hset (WPeek g)); lia.
    + destruct (Hset (WPeek g)); lia.
    + destruct (Hset (WRead false g (RHead []))); lia.
  - destruct (ts_workers s !! w) as [x|] eqn:Ew; [|done]. cbn [mbind option_bind] in Hs.
    destruct (wst_fd x) as [g|] eqn:Eg; [|done]. cbn [mbind option_bind] in Hs. destruct (receiving x); [|done].
    assert (Hne : x <> WFree) by (by intros ->).
    destruct (conn_of s g) as [[j c]|].
    + destruct (tn_in c) as [|ch rest].
      * destruct (tn_fin c); [|done]. injection Hs as <-. pose proof (Hrec s w x None Ew Hne). lia.
      * injection Hs as <-. destruct (takes x); [|pose proof (Hrec s w x (Some ch) Ew Hne); lia].
        pose proof (Hrec (set_tconn s j (TConn rest (tn_fin c) (tn_out c) (tn_sent c))) w x (Some ch) Ew Hne) as H. cbn [set_tconn ts_queue ts_workers] in H. lia.
    + injection Hs as <-. pose proof (Hrec s w x None Ew Hne). lia.
  - destruct (ts_workers s !! w) as [x|] eqn:Ew; [|done]. cbn [mbind option_bind] in Hs.
    destruct (wst_fd x) as [g|] eqn:Eg; [|done]. cbn [mbind option_bind] in Hs. destruct (_ && _); [|done]. injection Hs as <-.
    assert (Hne : x <> WFree) by (by intros ->). pose proof (Hrec s w x None Ew Hne). lia.
  - destruct (ts_workers s !! w) as [[|g|th g st]|] eqn:Ew; try done. destruct (finishing st); [|done].
    destruct (finish _ _ _ _ _ _) as [[[[wo texts] sent] cl]| | | | |]; try done; try (injection Hs as <-; cbn [go_down ts_queue ts_workers]; lia).
    injection Hs as <-.
    assert (Hset : nbusy (<[w := after_read th g]> (ts_workers s)) <= nbusy (ts_workers s) /\ length (<[w := after_read th g]> (ts_workers s)) = length (ts_workers s)).
    { split; [|by rewrite insert_length]. pose proof (nbusy_insert _ _ _ (after_read th g) Ew) as H. destruct th; cbn [after_read busy] in H |- *; lia. }
    destruct (conn_of s g) as [[j c]|]; destruct cl; cbn [close_fd set_tconn ts_queue ts_workers]; lia.
Qed.

Lemma load_run hit ro e n w ls s : t_run false hit ro e (t_new n w) ls = Some s ->
  load s <= naccepted ls /\ length (ts_workers s) = n.
Proof.
  revert s. induction ls as [|l ls IH] using rev_ind; intros s H.
  - injection H as <-. unfold load. cbn [t_new ts_queue ts_workers length]. rewrite replicate_length. split; [|done]. clear. induction n as [|n IHn]; [done|]. cbn [replicate]. rewrite nbusy_cons. done.
  - apply t_run_snoc in H as (s1 & H1 & Hl). destruct (IH s1 H1) as [IH1 IH2]. destruct (load_step _ _ _ _ _ _ Hl) as [L1 L2].
    unfold naccepted in *. rewrite List.filter_app, app_length. cbn. destruct (accepted l); cbn in *; lia.
Qed.

(** ** The server gets on with a connection *)

Definition by_server (l : tlab) : Prop :=
  match l with TNotify _ | TLeave _ | TPop _ | TRecv _ => True | TRun _ wr => exists n, wr = WTake n | _ => False end.

(** A worker that waits for the rest of a request, all of which was sent, has it. *)
Lemma no_starve mixed hit ro (e : bytes) i texts rs ls s f c k eaten w th st :
  valid_order hit -> requests texts rs -> Forall (tame ro) rs ->
  holds mixed ro i texts rs ls s f c k eaten -> tsent_by i ls = concat texts ->
  ts_workers s !! w = Some (WRead th f st) -> finishing st = false -> tn_in c <> [].
Proof.
  intros Hit Hreq Htame H Hall Ew Er Ein.
  destruct (ho_read _ _ _ _ _ _ _ _ _ _ _ H w th st Ew) as [Hre Hne].
  destruct (next_text _ _ _ _ _ _ _ _ _ _ _ Hreq Htame H ltac:(by rewrite Hall) Hne) as (text & r & Htk & Hrk & Hg & Hpre).
  rewrite Ein, app_nil_r in Hpre.
  destruct (reached_unfinished ro hit e (ts_world s) st eaten text r _ Hit Hre Er Hg Hpre) as (q' & Hq' & Hq'n).
  pose proof (ho_in _ _ _ _ _ _ _ _ _ _ _ H) as Hin. rewrite Hall, Ein, app_nil_r in Hin.
  assert (E : concat texts = concat (take k texts) ++ concat (drop k texts)) by (by rewrite <- concat_app, take_drop).
  rewrite E in Hin. apply app_inv_head in Hin. rewrite (drop_S _ _ _ Htk) in Hin. cbn in Hin. rewrite Hq', <- app_assoc in Hin.
  rewrite <- (app_nil_r eaten) in Hin at 2. apply app_inv_head in Hin. by apply app_eq_nil in Hin as [? _].
Qed.

Definition mu (c : tconn) (x : wst) : nat :=
  3 * length (tn_in c) + match x with WFree => 0 | WPeek _ => 1 | WRead _ _ st => if finishing st then 2 else 0 end.

Lemma next_step hit ro e i texts rs ls s f c k eaten w x n :
  valid_order hit -> requests texts rs -> Forall (tame ro) rs -> sane false s ->
  holds false ro i texts rs ls s f c k eaten -> tsent_by i ls = concat texts -> ts_down s = false ->
  ts_workers s !! w = Some x -> wst_fd x = Some f -> eaten ++ tn_in c <> [] ->
  exists l s' x' c', (l = TRecv w \/ l = TRun w (WTake n)) /\ by_server l /\ fine false i texts s ls l /\ t_step false hit ro e s l = Some s' /\ ts_down s' = false /\
    ts_workers s' !! w = Some x' /\ wst_fd x' = Some f /\ ts_conns s' !! i = Some c' /\ mu c' x' < mu c x.
Proof.
  intros Hit Hreq Htame Hsane H Hall Hd Ew Hxf Hne.
  pose proof (ho_fd _ _ _ _ _ _ _ _ _ _ _ H) as Hfd. pose proof (ho_conn _ _ _ _ _ _ _ _ _ _ _ H) as Hc.
  pose proof (ho_users _ _ _ _ _ _ _ _ _ _ _ H) as Hu.
  assert (Hlen : w < length (ts_workers s)) by (by eapply lookup_lt_Some).
  destruct x as [|g|th g st]; cbn in Hxf; [done|injection Hxf as ->..].
  - assert (He : eaten = []).
    { apply (ho_eaten _ _ _ _ _ _ _ _ _ _ _ H). intros w' th st Hw'.
      assert (w' = w) as -> by (by eapply (only_reader f s w)). congruence. }
    subst eaten. cbn [app] in Hne. destruct (tn_in c) as [|ch rest] eqn:Ein; [done|].
    exists (TRecv w). do 3 eexists. split; [by left|]. split; [done|]. split; [done|]. split.
    { unfold t_step. rewrite Hd, Ew. cbn [mbind option_bind wst_fd receiving]. rewrite (conn_of_eq _ _ _ _ Hfd Hc), Ein.
      cbn [takes recv_step]. done. }
    cbn [set_worker ts_down ts_workers ts_conns]. split; [done|]. split; [by apply list_lookup_insert|]. split; [done|].
    split; [exact Hc|]. unfold mu. cbn [finishing]. lia.
  - destruct (finishing st) eqn:Ef.
    + destruct (ho_read _ _ _ _ _ _ _ _ _ _ _ H w th st Ew) as [Hre _].
      destruct (next_text _ _ _ _ _ _ _ _ _ _ _ Hreq Htame H ltac:(by rewrite Hall) Hne) as (text & r & Htk & Hrk & Hg & Hpre).
      destruct (reached_finished ro hit e (ts_world s) st eaten text r (concat (drop (S k) texts)) n Hit Hre Ef Hg) as (-> & w' & out & Hfi & _).
      { etrans; [|exact Hpre]. by eexists. }
      pose proof (sa_work _ _ Hsane _ _ Ew) as Hth. cbn in Hth. destruct th; [|done].
      exists (TRun w (WTake n)). do 3 eexists. split; [by right|]. split; [by eexists|]. split; [by eexists|]. split.
      { unfold t_step. rewrite Hd, Ew, Ef, Hfd, Hfi, (conn_of_eq _ _ _ _ Hfd Hc). done. }
      cbn [set_tconn ts_down ts_workers ts_conns after_read]. split; [done|]. split; [by apply list_lookup_insert|]. split; [done|].
      split; [by rewrite lookup_insert|]. unfold mu. rewrite Ef. cbn [tn_in]. lia.
    + pose proof (no_starve _ hit _ e _ _ _ _ _ _ _ _ _ _ _ _ Hit Hreq Htame H Hall Ew Ef) as Hin.
      destruct (ho_read _ _ _ _ _ _ _ _ _ _ _ H w th st Ew) as [Hre _].
      destruct (next_text _ _ _ _ _ _ _ _ _ _ _ Hreq Htame H ltac:(by rewrite Hall) Hne) as (text & r & Htk & Hrk & Hg & Hpre).
      destruct (tn_in c) as [|ch rest] eqn:Ein; [done|].
      destruct (reached_next ro hit e (ts_world s) st eaten text r ch rest _ Hit Hre Ef Hg Hpre) as [st' Hst'].
      exists (TRecv w). do 3 eexists. split; [by left|]. split; [done|]. split; [done|]. split.
      { unfold t_step. rewrite Hd, Ew. cbn [mbind option_bind wst_fd receiving]. rewrite Ef, (conn_of_eq _ _ _ _ Hfd Hc), Ein.
        cbn [takes recv_step negb]. rewrite Hst'. done. }
      cbn [set_worker set_tconn ts_down ts_workers ts_conns]. split; [done|]. split; [by apply list_lookup_insert|]. split; [done|].
      split; [by rewrite lookup_insert|]. unfold mu. rewrite Ef, Ein. cbn [tn_in length]. destruct (finishing st'); lia.
Qed.

Lemma sent_server i ls l : by_server l -> tsent_by i (ls ++ [l]) = tsent_by i ls.
Proof. intros H. rewrite tsent_by_snoc. destruct l; try done; by rewrite app_nil_r. Qed.

(** With everything read, everything is answered. *)
Lemma all_done mixed ro i texts rs ls s f c k :
  requests texts rs -> holds mixed ro i texts rs ls s f c k [] -> tsent_by i ls = concat texts -> tn_in c = [] ->
  Forall2 (answers ro) rs (tn_out c).
Proof.
  intros Hreq [] Hall Hin. rewrite Hin, !app_nil_r, Hall in ho_in0.
  assert (Hk : length texts <= k).
  { destruct (decide (length texts <= k)) as [|Hlt]; [done|exfalso].
    assert (E : concat texts = concat (take k texts) ++ concat (drop k texts)) by (by rewrite <- concat_app, take_drop).
    rewrite ho_in0 in E at 1. rewrite <- (app_nil_r (concat (take k texts))) in E at 1. apply app_inv_head in E.
    destruct (lookup_lt_is_Some_2 texts k ltac:(lia)) as [t Ht]. rewrite (drop_S _ _ _ Ht) in E. cbn in E.
    symmetry in E. apply app_eq_nil in E as [-> _]. destruct Hreq as (HF & _).
    destruct (Forall2_lookup_l _ _ _ _ _ HF Ht) as (r & _ & Hr). by eapply request_text_nonempty. }
  destruct Hreq as (HF & _). rewrite take_ge in ho_out0; [done|]. by rewrite <- (Forall2_length _ _ _ HF).
Qed.

Lemma finish_worker hit ro e i texts rs f w :
  valid_order hit -> requests texts rs -> Forall (tame ro) rs -> forall m ls s c k eaten x, mu c x < m ->
  sane false s -> holds false ro i texts rs ls s f c k eaten -> tsent_by i ls = concat texts -> ts_down s = false ->
  ts_workers s !! w = Some x -> wst_fd x = Some f ->
  exists ls' s' c', Forall by_server ls' /\ t_run false hit ro e s ls' = Some s' /\ ts_down s' = false /\
    ts_conns s' !! i = Some c' /\ Forall2 (answers ro) rs (tn_out c').
Proof.
  intros Hit Hreq Htame. induction m as [|m IH]; intros ls s c k eaten x Hm Hsane H Hall Hd Ew Hxf; [lia|].
  destruct (decide (eaten ++ tn_in c = [])) as [Hnil|Hne].
  - apply app_eq_nil in Hnil as [-> Hin]. exists [], s, c. split; [constructor|]. split; [done|]. split; [done|].
    split; [by apply ho_conn in H|]. by eapply all_done.
  - destruct (next_step hit ro e i texts rs ls s f c k eaten w x 0 Hit Hreq Htame Hsane H Hall Hd Ew Hxf Hne)
      as (l & s1 & x1 & c1 & _ & Hby & Hfi & Hs & Hd1 & Ew1 & Hxf1 & Hc1 & Hmu).
    assert (Hall1 : tsent_by i (ls ++ [l]) = concat texts) by (by rewrite sent_server).
    destruct (holds_step _ _ _ _ _ _ _ _ _ _ _ _ _ _ _ Hit Hreq Htame Hsane H Hfi ltac:(by rewrite Hall1) Hs) as (c1' & k1 & eaten1 & H1).
    assert (c1' = c1) as -> by (apply ho_conn in H1; congruence).
    destruct (IH (ls ++ [l]) s1 c1 k1 eaten1 x1) as (ls' & s' & c' & HF & Hrun & Hd' & Hc' & Ha); try done; [lia|by eapply sane_step|].
    exists (l :: ls'), s', c'. split; [by constructor|]. split; [|done]. cbn [t_run]. rewrite Hs. done.
Qed.

Lemma wcount_pos f ws : 0 < wcount f ws -> exists w x, ws !! w = Some x /\ wst_fd x = Some f.
Proof.
  induction ws as [|x ws IH]; [unfold wcount; cbn; lia|]. rewrite wcount_cons. intros H.
  destruct (decide (wst_fd x = Some f)) as [Hx|Hx]; [by exists 0, x|]. rewrite on_other in H by done.
  destruct IH as (w & y & Hw & Hy); [lia|]. by exists (S w), y.
Qed.

Lemma finish_conn hit ro e i texts rs f :
  valid_order hit -> requests texts rs -> Forall (tame ro) rs -> forall m ls s c k eaten, length (ts_queue s) < m ->
  sane false s -> holds false ro i texts rs ls s f c k eaten -> tsent_by i ls = concat texts -> ts_down s = false ->
  load s <= length (ts_workers s) ->
  exists ls' s' c', Forall by_server ls' /\ t_run false hit ro e s ls' = Some s' /\ ts_down s' = false /\
    ts_conns s' !! i = Some c' /\ Forall2 (answers ro) rs (tn_out c').
Proof.
  intros Hit Hreq Htame. induction m as [|m IH]; intros ls s c k eaten Hm Hsane H Hall Hd Hload; [lia|].
  destruct (decide (0 < wcount f (ts_workers s))) as [Hw|Hw].
  { apply wcount_pos in Hw as (w & x & Ew & Hxf). by eapply (finish_worker hit ro e i texts rs f w Hit Hreq Htame (S (mu c x))); [|done..]; lia. }
  destruct (ho_some _ _ _ _ _ _ _ _ _ _ _ H eq_refl) as [Hu|(Hfin & Hin & ->)].
  2: { exists [], s, c. split; [constructor|]. split; [done|]. split; [done|]. split; [by apply ho_conn in H|]. by eapply all_done. }
  destruct (ts_queue s) as [|t q] eqn:Eq.
  { unfold users in Hu. rewrite Eq in Hu. unfold qcount in Hu. cbn in Hu. lia. }
  destruct (nbusy_free (ts_workers s)) as [w Ew]; [unfold load in Hload; rewrite Eq in Hload; cbn in Hload; lia|].
  destruct (t_step false hit ro e s (TPop w)) as [s1|] eqn:Hs.
  2: { unfold t_step in Hs. by rewrite Hd, Ew, Eq in Hs. }
  assert (Hall1 : tsent_by i (ls ++ [TPop w]) = concat texts) by (by rewrite sent_server).
  destruct (holds_step _ _ _ _ _ (TPop w) _ _ _ _ _ _ _ _ _ Hit Hreq Htame Hsane H I ltac:(by rewrite Hall1) Hs) as (c1 & k1 & eaten1 & H1).
  destruct (load_step _ _ _ _ _ _ Hs) as [L1 L2]. cbn [accepted] in L1.
  assert (Hq1 : ts_queue s1 = q /\ ts_down s1 = false).
  { unfold t_step in Hs. rewrite Hd, Ew, Eq in Hs. injection Hs as <-. by destruct t as [g []|g]. }
  destruct Hq1 as [Hq1 Hd1]. cbn in Hm.
  destruct (IH (ls ++ [TPop w]) s1 c1 k1 eaten1) as (ls' & s' & c' & HF & Hrun & Hd' & Hc' & Ha); try done;
    [rewrite Hq1; lia|by eapply sane_step|lia|].
  exists (TPop w :: ls'), s', c'. split; [by constructor|]. split; [|done]. cbn [t_run]. rewrite Hs. done.
Qed.

(** ** At rest *)
Definition at_rest (mixed : bool) hit ro e s : Prop :=
  ts_down s = false /\ forall l, by_server l -> t_step mixed hit ro e s l = None.

Lemma rest_read mixed hit ro e i texts rs ls s f c k eaten :
  valid_order hit -> requests texts rs -> Forall (tame ro) rs ->
  holds mixed ro i texts rs ls s f c k eaten -> tsent_by i ls = concat texts -> at_rest mixed hit ro e s -> ts_queue s = [] ->
  eaten = [] /\ tn_in c = [].
Proof.
  intros Hit Hreq Htame H Hall [Hd Hrest] Hq.
  pose proof (ho_fd _ _ _ _ _ _ _ _ _ _ _ H) as Hfd. pose proof (ho_conn _ _ _ _ _ _ _ _ _ _ _ H) as Hc.
  assert (Hno : forall w th st, ts_workers s !! w <> Some (WRead th f st)).
  { intros w th st Ew. destruct (finishing st) eqn:Ef.
    - destruct (ho_read _ _ _ _ _ _ _ _ _ _ _ H w th st Ew) as [Hre Hne].
      destruct (next_text _ _ _ _ _ _ _ _ _ _ _ Hreq Htame H ltac:(by rewrite Hall) Hne) as (text & r & Htk & Hrk & Hg & Hpre).
      destruct (reached_finished ro hit e (ts_world s) st eaten text r (concat (drop (S k) texts)) 0 Hit Hre Ef Hg) as (-> & w' & out & Hfi & _).
      { etrans; [|exact Hpre]. by eexists. }
      specialize (Hrest (TRun w (WTake 0)) ltac:(by eexists)). unfold t_step in Hrest.
      by rewrite Hd, Ew, Ef, Hfd, Hfi, (conn_of_eq _ _ _ _ Hfd Hc) in Hrest.
    - pose proof (no_starve _ hit _ e _ _ _ _ _ _ _ _ _ _ _ _ Hit Hreq Htame H Hall Ew Ef) as Hin.
      specialize (Hrest (TRecv w) I). unfold t_step in Hrest. rewrite Hd, Ew in Hrest. cbn [mbind option_bind wst_fd receiving] in Hrest.
      rewrite Ef, (conn_of_eq _ _ _ _ Hfd Hc) in Hrest. by destruct (tn_in c). }
  split; [by apply (ho_eaten _ _ _ _ _ _ _ _ _ _ _ H)|]. destruct mixed.
  - specialize (Hrest (TNotify f) I). unfold t_step in Hrest. rewrite Hd, (conn_of_eq _ _ _ _ Hfd Hc) in Hrest.
    cbn [mbind option_bind snd andb] in Hrest. destruct (decide (tn_in c = [])) as [|Hin]; [done|]. by rewrite bool_decide_eq_true_2 in Hrest.
  - destruct (ho_some _ _ _ _ _ _ _ _ _ _ _ H eq_refl) as [Hu|(_ & ? & _)]; [|done].
    unfold users in Hu. rewrite Hq in Hu. unfold qcount in Hu. cbn [filter list_filter length] in Hu.
    destruct (wcount_pos f (ts_workers s)) as (w & x & Ew & Hx); [lia|].
    destruct x as [|g|th g st]; cbn in Hx; [done| |injection Hx as ->; by apply Hno in Ew]. injection Hx as ->.
    specialize (Hrest (TRecv w) I). unfold t_step in Hrest. rewrite Hd, Ew in Hrest. cbn [mbind option_bind wst_fd receiving] in Hrest.
    rewrite (conn_of_eq _ _ _ _ Hfd Hc) in Hrest. by destruct (tn_in c).
Qed.
End runs.
