(** Two runs of the handlers side by side, in related worlds (used for C174). *)
From Verif.Lib Require Import CxxStringFacts.
From Verif.Model Require Import Server Https HttpSystem.
From Verif.Spec Require Import SslSpec.
From Verif.Proof Require Import HttpSystemProof.

(** ** Dispatch *)
Section relate.
Context {U : Type} (R : world U -> world U -> Prop) (P : ctx -> Prop).
Context (R_running : forall w1 w2, R w1 w2 -> w_running w1 = w_running w2).

Definition rel_answer (o1 o2 : outcome (ctx * world U)) : Prop :=
  match o1, o2 with
  | Ok (c1, w1), Ok (c2, w2) => c1 = c2 /\ P c1 /\ R w1 w2
  | Throw e1, Throw e2 => e1 = e2
  | UB, UB | Diverge, Diverge | Blocked, Blocked | Terminate, Terminate => True
  | _, _ => False
  end.
Definition rel_entry (x : entry U) : Prop := forall h c w1 w2,
  e_callback x = Some h -> P c -> R w1 w2 -> rel_answer (h c w1) (h c w2).
Definition rel_step (o1 o2 : outcome (ctx * world U * bool)) : Prop :=
  rel_answer (ofmap fst o1) (ofmap fst o2) /\ ofmap snd o1 = ofmap snd o2.

Lemma run_vector_rel (v : list (entry U)) is_end : Forall rel_entry v ->
  forall c w1 w2, P c -> R w1 w2 -> rel_step (run_vector v is_end (c, w1)) (run_vector v is_end (c, w2)).
Proof.
  induction 1 as [|x v Hx HF IH]; intros c w1 w2 Hp Hr; [done|]. cbn [run_vector fst snd].
  destruct (negb is_end && e_exact x); [by apply IH|].
  destruct (accepts x (cx_req c)); [|by apply IH].
  destruct (e_callback x) as [h|] eqn:E; [|by apply IH].
  specialize (Hx h c w1 w2 E Hp Hr). unfold rel_answer in Hx.
  destruct (h c w1) as [[c1 x1]| | | | |], (h c w2) as [[c2 x2]| | | | |]; try done; cbn [mbind outcome_bind].
  - destruct Hx as (<- & Hp' & Hr'). cbn [fst snd]. rewrite (R_running _ _ Hr').
    destruct (w_running x2); [by apply IH|done].
  - subst. done.
Qed.
Lemma dispatch_cb_rel (heap : list (list (entry U))) i is_end c w1 w2 :
  Forall (Forall rel_entry) heap -> P c -> R w1 w2 ->
  rel_step (dispatch_cb heap (c, w1) i is_end) (dispatch_cb heap (c, w2) i is_end).
Proof.
  intros H H1 H2. unfold dispatch_cb. destruct (heap !! i) as [v|] eqn:E; [|done].
  apply run_vector_rel; [|done..]. by eapply Forall_lookup_1 in E.
Qed.

Lemma dispatch_rel (ro : router U) : Forall (Forall rel_entry) (ro_heap ro) -> forall p c w1 w2,
  P c -> R w1 w2 -> rel_answer (dispatch ro p c w1) (dispatch ro p c w2).
Proof.
  intros H.
  assert (Hv : forall nd is_end (f g : ctx * world U -> outcome (ctx * world U)) c w1 w2,
    P c -> R w1 w2 ->
    (forall c w1 w2, P c -> R w1 w2 -> rel_answer (f (c, w1)) (f (c, w2))) ->
    (forall c w1 w2, P c -> R w1 w2 -> rel_answer (g (c, w1)) (g (c, w2))) ->
    rel_answer (r ← visit (dispatch_cb (ro_heap ro)) (c, w1) nd is_end; if r.2 : bool then f r.1 else g r.1)
               (r ← visit (dispatch_cb (ro_heap ro)) (c, w2) nd is_end; if r.2 : bool then f r.1 else g r.1)).
  { intros nd is_end f g c w1 w2 H1 H2 Hf Hg. unfold visit.
    destruct (n_data nd) as [i|]; [|done].
    pose proof (dispatch_cb_rel (ro_heap ro) i is_end c w1 w2 H H1 H2) as [Ha Hb].
    destruct (dispatch_cb (ro_heap ro) (c, w1) i is_end) as [[[c1 x1] b1]| | | | |],
             (dispatch_cb (ro_heap ro) (c, w2) i is_end) as [[[c2 x2] b2]| | | | |];
      cbn [ofmap mbind outcome_bind fst snd rel_answer] in *; try done.
    destruct Ha as (-> & Hr1 & Hr2). injection Hb as ->. destruct b2; [by apply Hf|by apply Hg]. }
  assert (Hok : forall c (w1 w2 : world U), P c -> R w1 w2 -> rel_answer (Ok (c, w1)) (Ok (c, w2))) by done.
  assert (Hloop : forall k nd pos c w1 w2, P c -> R w1 w2 ->
    rel_answer (search_loop (dispatch_cb (ro_heap ro)) k nd pos (c, w1))
               (search_loop (dispatch_cb (ro_heap ro)) k nd pos (c, w2))).
  { induction k as [|ch k IH]; intros nd pos c w1 w2 H1 H2; cbn [search_loop].
    - destruct (n_stop nd && (pos =? length (n_key nd))); [|done].
      pose proof (Hv nd true (fun x => Ok x) (fun x => Ok x) c w1 w2 H1 H2 Hok Hok) as Hx.
      destruct (visit _ (c, w1) nd true) as [[? []]| | | | |], (visit _ (c, w2) nd true) as [[? []]| | | | |]; exact Hx.
    - destruct (pos <? length (n_key nd)).
      + destruct (n_key nd !! pos) as [d|]; [|done]. destruct (Ascii.eqb d ch); [by apply IH|done].
      + assert (Hdesc : forall c w1 w2, P c -> R w1 w2 ->
          rel_answer (s ← slot nd ch; match s with None => Ok (c, w1) | Some x => search_loop (dispatch_cb (ro_heap ro)) k x 1 (c, w1) end)
                     (s ← slot nd ch; match s with None => Ok (c, w2) | Some x => search_loop (dispatch_cb (ro_heap ro)) k x 1 (c, w2) end)).
        { intros c' x1 x2 Hx1 Hx2. destruct (slot nd ch) as [[x|]| | | | |]; cbn [mbind outcome_bind]; try done. by apply IH. }
        destruct (n_stop nd); [|by apply Hdesc].
        apply (Hv nd false (fun st => s ← slot nd ch; match s with None => Ok st | Some x => search_loop (dispatch_cb (ro_heap ro)) k x 1 st end)
                  (fun st => Ok st)); done. }
  intros p c w1 w2 H1 H2. unfold dispatch, search_node.
  assert (Hrest : forall c w1 w2, P c -> R w1 w2 ->
    rel_answer (match p with [] => Ok (c, w1) | ch :: _ => s ← slot (ro_trie ro) ch;
                   match s with None => Ok (c, w1) | Some x => search_loop (dispatch_cb (ro_heap ro)) p x 0 (c, w1) end end)
               (match p with [] => Ok (c, w2) | ch :: _ => s ← slot (ro_trie ro) ch;
                   match s with None => Ok (c, w2) | Some x => search_loop (dispatch_cb (ro_heap ro)) p x 0 (c, w2) end end)).
  { intros c' x1 x2 Hx1 Hx2. destruct p as [|ch p]; [done|].
    destruct (slot (ro_trie ro) ch) as [[x|]| | | | |]; cbn [mbind outcome_bind]; try done. by apply Hloop. }
  destruct (n_stop (ro_trie ro)); [|by apply Hrest].
  apply (Hv (ro_trie ro) _ (fun st => match p with [] => Ok st | ch :: _ => s ← slot (ro_trie ro) ch;
            match s with None => Ok st | Some x => search_loop (dispatch_cb (ro_heap ro)) p x 0 st end end) (fun st => Ok st)); done.
Qed.

(** ** HandleRead *)
Definition rel_served (v1 v2 : served U) : Prop :=
  sv_rest v1 = sv_rest v2 /\ sv_wrote v1 = sv_wrote v2 /\ sv_sent v1 = sv_sent v2 /\
  sv_closed v1 = sv_closed v2 /\ R (sv_world v1) (sv_world v2).
Definition rel_out {A} (Q : A -> A -> Prop) (o1 o2 : outcome A) : Prop :=
  match o1, o2 with
  | Ok v1, Ok v2 => Q v1 v2
  | Throw e1, Throw e2 => e1 = e2
  | UB, UB | Diverge, Diverge | Blocked, Blocked | Terminate, Terminate => True
  | _, _ => False
  end.

Lemma answer_rel hit wr (ro : router U) r e w1 w2 s : Forall (Forall rel_entry) (ro_heap ro) ->
  P (ctx_new r resp_new) -> R w1 w2 ->
  rel_out rel_served (answer hit wr ro r e w1 s) (answer hit wr ro r e w2 s).
Proof.
  intros H H1 H2. unfold answer. pose proof (dispatch_rel ro H (rt_path (rq_route r)) (ctx_new r resp_new) w1 w2 H1 H2) as Hd.
  destruct (dispatch _ _ _ w1) as [[c1 x1]| | | | |], (dispatch _ _ _ w2) as [[c2 x2]| | | | |];
    cbn [mbind outcome_bind fst snd rel_answer] in *; try done.
  destruct Hd as (<- & _ & Hr). unfold respond. destruct (resp_build hit _ []) as [[rc p2] buf].
  destruct (negb (rc =? kSuccess)%Z).
  - destruct (resp_build hit _ buf) as [[rc' p3] buf3]. by destruct (sock_write wr buf3) as [[len sent]| | | | |].
  - by destruct (sock_write wr buf) as [[len sent]| | | | |].
Qed.

Lemma handle_read_rel hit wr (ro : router U) e w1 w2 s : Forall (Forall rel_entry) (ro_heap ro) ->
  (forall len buf s1 rc r body, read_until [] CRLFCRLF s = Ok (len, buf, s1) -> req_parse req_new buf = Ok (rc, r) ->
     P (ctx_new (Req (rq_method r) (rq_version r) (rq_header r) (rq_route r) body) resp_new)) -> R w1 w2 ->
  rel_out rel_served (handle_read hit wr ro e w1 s) (handle_read hit wr ro e w2 s).
Proof.
  intros H Hp Hr. unfold handle_read.
  destruct (read_until [] CRLFCRLF s) as [[[len buf] s1]| | | | |]; cbn [mbind outcome_bind]; try done.
  specialize (Hp len buf s1).
  destruct (len <=? 0)%Z; [done|].
  destruct (req_parse req_new buf) as [[rc r]| | | | |] eqn:Er; cbn [mbind outcome_bind]; try done.
  destruct (negb (rc =? kSuccess)%Z).
  { destruct (resp_build hit _ []) as [[rc' p] rb]. by destruct (sock_write wr rb) as [[z sent]| | | | |]. }
  destruct (0 <? header_get_content_length (rq_header r))%Z.
  2: { apply answer_rel; [done| |done]. specialize (Hp rc r (rq_body r) eq_refl eq_refl). by destruct r. }
  destruct (read_string _ _ _ _) as [[[rc' b] s2]| | | | |]; cbn [mbind outcome_bind]; try done.
  destruct (rc' <=? 0)%Z; [done|]. apply answer_rel; [done| |done]. by eapply Hp.
Qed.

Lemma handle_read_tls_rel hit wr (ro : router U) e w1 w2 s : Forall (Forall rel_entry) (ro_heap ro) ->
  (forall len buf s1 rc r body, ssl_read_until [] CRLFCRLF s = Ok (len, buf, s1) -> req_parse req_new buf = Ok (rc, r) ->
     P (ctx_new (Req (rq_method r) (rq_version r) (rq_header r) (rq_route r) body) resp_new)) -> R w1 w2 ->
  rel_out (fun x y => rel_served x.1 y.1 /\ x.2 = y.2) (handle_read_tls hit wr ro e w1 s) (handle_read_tls hit wr ro e w2 s).
Proof.
  intros H Hp Hr. unfold handle_read_tls.
  destruct (ssl_read_until [] CRLFCRLF s) as [[[len buf] s1]| | | | |]; cbn [mbind outcome_bind]; try done.
  specialize (Hp len buf s1).
  destruct (len <=? 0)%Z; [done|].
  destruct (req_parse req_new buf) as [[rc r]| | | | |] eqn:Er; cbn [mbind outcome_bind]; try done.
  destruct (negb (rc =? kSuccess)%Z).
  { destruct (resp_build hit _ []) as [[rc' p] rb]. by destruct (sock_write wr rb) as [[z sent]| | | | |]. }
  assert (Ha : forall r' s0 (t : tls), P (ctx_new r' resp_new) ->
    rel_out (fun x y => rel_served x.1 y.1 /\ x.2 = y.2) (v ← answer hit wr ro r' e w1 s0; Ok (v, t))
      (v ← answer hit wr ro r' e w2 s0; Ok (v, t))).
  { intros r' s0 t Hpr. pose proof (answer_rel hit wr ro r' e w1 w2 s0 H Hpr Hr) as Hx.
    destruct (answer _ _ _ _ _ w1 _), (answer _ _ _ _ _ w2 _); done. }
  destruct (0 <? header_get_content_length (rq_header r))%Z.
  2: { apply Ha. specialize (Hp rc r (rq_body r) eq_refl eq_refl). by destruct r. }
  destruct (ssl_read_string _ _ _) as [[[rc' b] s2]| | | | |]; cbn [mbind outcome_bind]; try done.
  destruct (rc' <=? 0)%Z; [done|]. apply Ha. by eapply Hp.
Qed.
End relate.

(** Entries of a router come from its registrations. *)
Lemma register_Forall {U} (Q : entry U -> Prop) g path e ro rc ro' :
  register g path e ro = Ok (rc, ro') -> Q e -> Forall (Forall Q) (ro_heap ro) -> Forall (Forall Q) (ro_heap ro').
Proof.
  unfold register. intros H Hq HF. destruct (trie_get (ro_trie ro) path) as [[i|]| | | | |]; cbn [mbind outcome_bind] in H; try done.
  - destruct (ro_heap ro !! i) as [v|] eqn:E; [|done]. injection H as <- <-. cbn [ro_heap].
    apply Forall_insert; [done|]. apply Forall_app. split; [by eapply Forall_lookup_1 in E|]. by constructor.
  - destruct (set_node _ _ _); try done. injection H as <- <-. cbn [ro_heap]. apply Forall_app. split; [done|].
    by repeat constructor.
Qed.

(** ** How long a path can be *)
Lemma substr_length s p n x : substr s p n = Ok x -> (length x <= length s)%nat.
Proof.
  unfold substr. destruct (_ <? _)%N; [done|]. intros H. injection H as <-. rewrite take_length, drop_length. lia.
Qed.

Lemma split_loop_length s d keep fuel : forall arr pos out,
  split_loop fuel s d keep arr pos = Ok out -> Forall (fun x => length x <= length s) arr ->
  Forall (fun x => length x <= length s) out.
Proof.
  induction fuel as [|f IH]; intros arr pos out H HF; [done|]. cbn [split_loop] in H.
  destruct (str_find s d pos =? npos)%N.
  - unfold substr_from in H. destruct (substr s pos npos) as [x| | | | |] eqn:E; try done. injection H as <-.
    apply Forall_app. split; [done|]. repeat constructor. by eapply substr_length.
  - destruct (substr s pos _) as [x| | | | |] eqn:E; try done. cbn [mbind outcome_bind] in H. eapply IH; [exact H|].
    apply Forall_app. split; [done|]. repeat constructor. by eapply substr_length.
Qed.
Lemma route_parse_length r u rc r' : route_parse r u = Ok (rc, r') ->
  length (rt_path r') <= max (length (rt_path r)) (length u).
Proof.
  unfold route_parse. destruct u as [|ch u]; [intros H; injection H as <- <-; lia|].
  destruct (_ =? npos)%N; [intros H; injection H as <- <-; cbn [rt_path]; lia|].
  destruct (int_succ _) as [p1| | | | |]; cbn [mbind outcome_bind]; try done.
  destruct (substr_from _ _) as [op| | | | |]; cbn [mbind outcome_bind]; try done.
  destruct (str_split _ _ _ _) as [sg| | | | |]; cbn [mbind outcome_bind]; try done.
  destruct (route_params _ _) as [m| | | | |]; cbn [mbind outcome_bind]; try done.
  destruct (substr _ _ _) as [path| | | | |] eqn:E; cbn [mbind outcome_bind]; try done.
  intros H. injection H as <- <-. apply substr_length in E. cbn [rt_path]. lia.
Qed.
Lemma req_parse_length s rc r : req_parse req_new s = Ok (rc, r) -> length (rt_path (rq_route r)) <= length s.
Proof.
  assert (H0 : length (rt_path (rq_route req_new)) = 0) by done.
  unfold req_parse. destruct s as [|ch s]; [intros H; injection H as <- <-; lia|].
  set (t := ch :: s). clearbody t. clear ch s.
  destruct (_ =? npos)%N; [intros H; injection H as <- <-; lia|].
  destruct (str_find t CRLF 0 =? npos)%N; [intros H; injection H as <- <-; lia|].
  destruct (substr t (szadd (str_find t CRLF 0) 2) (str_find t CRLFCRLF 0)) as [block| | | | |]; cbn [mbind outcome_bind]; try done.
  destruct (header_parse (rq_header req_new) block) as [[hrc h]| | | | |]; cbn [mbind outcome_bind]; try done.
  destruct (hrc =? 0)%Z; [intros H; injection H as <- <-; simpl; lia|].
  destruct (substr_from t _) as [body| | | | |]; cbn [mbind outcome_bind]; try done.
  destruct (substr t 0 _) as [fl| | | | |] eqn:Ef; cbn [mbind outcome_bind]; try done.
  destruct (str_split _ _ _ _) as [sg| | | | |] eqn:Es; cbn [mbind outcome_bind]; try done.
  unfold str_split in Es. apply split_loop_length in Es; [|constructor]. apply substr_length in Ef.
  destruct sg as [|m [|target [|v [|x sg]]]]; try (intros H; injection H as <- <-; simpl; lia).
  apply Forall_cons in Es as [_ Es]. apply Forall_cons in Es as [Et _].
  destruct (decide _); [intros H; injection H as <- <-; simpl; lia|].
  destruct (route_parse _ _) as [[rrc rt]| | | | |] eqn:Er; cbn [mbind outcome_bind]; try done.
  apply route_parse_length in Er. rewrite H0 in Er.
  destruct (negb _); [intros H; injection H as <- <-; simpl; lia|].
  destruct (decide _); intros H; injection H as <- <-; simpl; lia.
Qed.

Lemma until_loop_length d l : forall t ch buf rc b s',
  until_loop d l t ch buf = Ok (rc, b, s') ->
  length b + length (bytes_of (sm_items s')) <= length buf + length (bytes_of l).
Proof.
  induction l as [|[c|] l IH]; intros t ch buf rc b s' H; cbn [until_loop] in H;
    destruct (until_goes_on d buf ch) as [[]| | | | |]; cbn [mbind outcome_bind] in H; try done;
    try (injection H as <- <- <-; cbn [sm_items bytes_of]; cbn [length]; lia).
  - destruct t; try done; injection H as <- <- <-; cbn [sm_items]; lia.
  - apply IH in H. rewrite app_length in H. cbn [bytes_of length] in *. lia.
Qed.
Lemma grab_length n : forall l b r g, grab n l = (b, r, g) -> length (bytes_of r) <= length (bytes_of l).
Proof.
  induction n as [|n IH]; intros l b r g H; cbn [grab] in H; [injection H as <- <- <-; lia|].
  destruct l as [|[c|] l].
  - injection H as <- <- <-. lia.
  - destruct (grab n l) as [[b' r'] g'] eqn:E. injection H as <- <- <-. apply IH in E. cbn [bytes_of length]. lia.
  - injection H as <- <- <-. cbn [bytes_of]. lia.
Qed.
Lemma read_string_length n s rc b s' : read_string true 0 n s = Ok (rc, b, s') ->
  length (bytes_of (sm_items s')) <= length (bytes_of (sm_items s)).
Proof.
  unfold read_string, recv_all. intros H. destruct (grab n (sm_items s)) as [[b' r'] g'] eqn:E.
  apply grab_length in E.
  repeat (case_match; cbn [mbind outcome_bind] in H; try done); simplify_eq; done.
Qed.
Lemma handle_read_length {U} hit wr (ro : router U) e w s v : handle_read hit wr ro e w s = Ok v ->
  length (bytes_of (sm_items (sv_rest v))) <= length (bytes_of (sm_items s)).
Proof.
  unfold handle_read. intros H.
  destruct (read_until [] CRLFCRLF s) as [[[len buf] s1]| | | | |] eqn:Eu; cbn [mbind outcome_bind] in H; try done.
  assert (H1 : length (bytes_of (sm_items s1)) <= length (bytes_of (sm_items s))).
  { change (read_until [] CRLFCRLF s) with (until_loop CRLFCRLF (sm_items s) (sm_tail s) NUL []) in Eu.
    apply until_loop_length in Eu. cbn [length] in Eu. lia. }
  destruct (len <=? 0)%Z; [injection H as <-; done|].
  destruct (req_parse req_new buf) as [[rc r]| | | | |] eqn:Er; cbn [mbind outcome_bind] in H; try done.
  destruct (negb (rc =? kSuccess)%Z).
  { destruct (resp_build hit _ []) as [[rc' p] rb]. destruct (sock_write wr rb) as [[z sent]| | | | |]; try done.
    by injection H as <-. }
  destruct (0 <? header_get_content_length (rq_header r))%Z.
  2: { apply answer_rest in H. by rewrite H. }
  destruct (read_string _ _ _ _) as [[[rc' b] s2]| | | | |] eqn:Es; cbn [mbind outcome_bind] in H; try done.
  apply read_string_length in Es.
  destruct (rc' <=? 0)%Z; [injection H as <-; cbn [sv_rest]; lia|]. apply answer_rest in H. rewrite H. lia.
Qed.

Lemma next_record_length n l : forall t rc b s', next_record n l t = Ok (rc, b, s') ->
  length b + tl_size s' <= tl_size (Tls [] l t) /\ ((0 < rc)%Z -> b <> []).
Proof.
  induction l as [|[x|] l IH]; intros t rc b s' H; cbn [next_record] in H.
  - destruct t; try done; injection H as <- <- <-; (split; [unfold tl_size; simpl; lia|lia]).
  - destruct x as [|c x].
    + apply IH in H as [H1 H2]. split; [|done]. unfold tl_size in *. cbn in *. lia.
    + injection H as <- <- <-. split.
      * unfold tl_size. cbn [tl_buf tl_items]. rewrite fmap_cons. cbn [sum_list length].
        rewrite take_length, drop_length. cbn [length]. unfold id. lia.
      * unfold rc_of. destruct (take n (c :: x)); [cbn; lia|done].
  - injection H as <- <- <-. split; [|lia]. unfold tl_size. cbn. lia.
Qed.
Lemma ssl_read_length num s rc b s' : ssl_read num s = Ok (rc, b, s') ->
  length b + tl_size s' <= tl_size s /\ ((0 < rc)%Z -> b <> []).
Proof.
  unfold ssl_read. intros H. destruct (num <? 0)%Z; [injection H as <- <- <-; split; [cbn [length]; lia|lia]|].
  destruct (num =? 0)%Z; [injection H as <- <- <-; split; [cbn [length]; lia|lia]|].
  destruct (tl_buf s) as [|x y] eqn:Eb.
  - apply next_record_length in H as [H1 H2]. split; [|done]. unfold tl_size in *. rewrite Eb. cbn [tl_buf tl_items] in *. lia.
  - injection H as <- <- <-. split.
    + unfold tl_size. cbn [tl_buf tl_items]. rewrite Eb, take_length, drop_length. cbn [length]. lia.
    + unfold rc_of. destruct (take _ (x :: y)); [cbn; lia|done].
Qed.
Lemma wait_all_length fuel : forall len total acc s rc b s',
  wait_all fuel len total acc s = Ok (rc, b, s') -> tl_size s' <= tl_size s.
Proof.
  induction fuel as [|fuel IH]; intros len total acc s rc b s' E; [done|]. cbn [wait_all] in E.
  destruct (int_to_size total <? len)%N; [|injection E as _ _ <-; lia].
  destruct (ssl_read _ s) as [[[rc1 b1] s1]| | | | |] eqn:E1; cbn [mbind outcome_bind] in E; try done.
  apply ssl_read_length in E1 as [E1 _]. destruct (rc1 <=? 0)%Z; [injection E as _ _ <-; lia|].
  destruct (_ <=? int_max)%Z; [|done]. apply IH in E. lia.
Qed.
Lemma ssl_until_length fuel : forall d s ch buf rc b s',
  ssl_until_loop fuel d s ch buf = Ok (rc, b, s') -> length b + tl_size s' <= length buf + tl_size s.
Proof.
  induction fuel as [|fuel IH]; intros d s ch buf rc b s' E; [done|]. cbn [ssl_until_loop] in E.
  destruct (until_goes_on d buf ch) as [[]| | | | |]; cbn [mbind outcome_bind] in E; try done.
  - destruct (ssl_ioread FlNone 1 s) as [[[rc1 b1] s1]| | | | |] eqn:E1; cbn [mbind outcome_bind] in E; try done.
    unfold ssl_ioread in E1. apply ssl_read_length in E1 as [E1 E2].
    destruct (Z.leb_spec rc1 0); [injection E as _ <- <-; lia|].
    apply IH in E. rewrite app_length in E. cbn [length] in E. specialize (E2 ltac:(lia)).
    destruct b1; [done|]. cbn [length] in E1. lia.
  - injection E as _ <- <-. lia.
Qed.
Lemma ssl_read_until_length s rc b s' : ssl_read_until [] CRLFCRLF s = Ok (rc, b, s') -> length b + tl_size s' <= tl_size s.
Proof.
  unfold ssl_read_until. change CRLFCRLF with (CR :: drop 1 CRLFCRLF). cbv iota beta. intros E.
  apply ssl_until_length in E. done.
Qed.
Lemma handle_read_tls_length {U} hit wr (ro : router U) e w s v s' :
  handle_read_tls hit wr ro e w s = Ok (v, s') -> tl_size s' <= tl_size s.
Proof.
  intros E. unfold handle_read_tls in E.
  destruct (ssl_read_until [] CRLFCRLF s) as [[[len buf] s1]| | | | |] eqn:E1; cbn [mbind outcome_bind] in E; try done.
  apply ssl_read_until_length in E1.
  destruct (len <=? 0)%Z; [injection E as _ <-; lia|].
  destruct (req_parse req_new buf) as [[rc r]| | | | |]; cbn [mbind outcome_bind] in E; try done.
  destruct (negb (rc =? kSuccess)%Z).
  { destruct (resp_build hit _ []) as [[rc' p] rb].
    destruct (sock_write wr rb) as [[z sent]| | | | |]; cbn [mbind outcome_bind] in E; try done. injection E as _ <-. lia. }
  destruct (0 <? _)%Z.
  - unfold ssl_read_string, ssl_ioread in E.
    destruct (wait_all _ _ _ _ s1) as [[[rc' body] s2]| | | | |] eqn:E2; cbn [mbind outcome_bind] in E; try done.
    apply wait_all_length in E2. destruct (rc' <=? 0)%Z; [injection E as _ <-; lia|].
    destruct (answer _ _ _ _ _ _ _); cbn [mbind outcome_bind] in E; try done. injection E as _ <-. lia.
  - destruct (answer _ _ _ _ _ _ _); cbn [mbind outcome_bind] in E; try done. injection E as _ <-. lia.
Qed.
