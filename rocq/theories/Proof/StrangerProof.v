(** What HandleRead does with bytes of any kind (Server.v). *)
From Verif.Proof Require Import ServerProof HttpSystemProof.
From Verif.Model Require Import Server HttpSystem.

(** ** Parsing does not wait *)

Lemma bind_waits {A B} (m : outcome A) (k : A -> outcome B) : m <> Blocked -> (forall x, k x <> Blocked) -> (x ← m; k x) <> Blocked.
Proof. intros Hm Hk. destruct m; cbn [mbind outcome_bind]; try done. Qed.

Lemma substr_waits s p n : substr s p n <> Blocked.
Proof. unfold substr. by destruct (_ <? _)%N. Qed.
Lemma at_waits s p : str_at s p <> Blocked.
Proof. unfold str_at. destruct (_ <? _)%N; [by destruct (_ !! _)|by destruct (_ =? _)%N]. Qed.
Lemma split_waits s d arr keep : str_split s d arr keep <> Blocked.
Proof.
  unfold str_split. generalize (S (length s)), arr, 0%N. intros f. induction f as [|f IH]; intros a p; [done|]. cbn [split_loop].
  destruct (_ =? npos)%N; (apply bind_waits; [apply substr_waits|]); [done|]. intros x. apply IH.
Qed.
Lemma header_waits h s : header_parse h s <> Blocked.
Proof.
  unfold header_parse. destruct s; [done|]. apply bind_waits; [apply split_waits|]. intros l. revert h.
  induction l as [|it l IH]; intros h; [done|]. cbn [header_lines]. apply bind_waits; [|intros [[k v]|]; [apply IH|done]].
  unfold header_line. destruct (_ =? npos)%N; [done|]. repeat (apply bind_waits; [apply substr_waits|intros ?]). done.
Qed.
Lemma route_waits r u : route_parse r u <> Blocked.
Proof.
  unfold route_parse. destruct u; [done|]. destruct (_ =? npos)%N; [done|].
  apply bind_waits; [unfold int_succ; by destruct (_ =? _)%Z|]. intros p1.
  apply bind_waits; [apply substr_waits|]. intros o. apply bind_waits; [apply split_waits|]. intros l.
  apply bind_waits; [|intros m; apply bind_waits; [apply substr_waits|done]].
  generalize (rt_params r). induction l as [|it l IH]; intros m; [done|]. cbn [route_params]. apply bind_waits; [|intros kv; apply IH].
  unfold route_param. destruct (_ =? npos)%N; [done|]. repeat (apply bind_waits; [apply substr_waits|intros ?]). done.
Qed.
Lemma parse_waits r s : req_parse r s <> Blocked.
Proof.
  unfold req_parse. destruct s as [|ch s]; [done|]. cbv zeta. destruct (_ =? npos)%N; [done|]. destruct (_ =? npos)%N; [done|].
  apply bind_waits; [apply substr_waits|]. intros bl. apply bind_waits; [apply header_waits|]. intros [hrc h].
  destruct (hrc =? 0)%Z; [done|]. apply bind_waits; [apply substr_waits|]. intros body. apply bind_waits; [apply substr_waits|]. intros fl.
  apply bind_waits; [apply split_waits|]. intros [|m [|t [|v [|? ?]]]]; try done. case_decide; [done|].
  apply bind_waits; [apply route_waits|]. intros [rrc rt]. destruct (negb _); [done|]. by case_decide.
Qed.
Lemma goes_on_waits d buf ch : until_goes_on d buf ch <> Blocked.
Proof.
  unfold until_goes_on. apply bind_waits; [apply at_waits|]. intros l. destruct (negb _); [done|].
  apply bind_waits; [apply substr_waits|done].
Qed.

(** ** Reading *)

Lemma bytes_of_app l l' : bytes_of (l ++ l') = bytes_of l ++ bytes_of l'.
Proof. induction l as [|[c|] l IH]; [done| |done]; cbn [app bytes_of]; by rewrite IH. Qed.

Lemma until_loop_shorter d l t : forall ch buf len b s1, until_loop d l t ch buf = Ok (len, b, s1) ->
  length (bytes_of (sm_items s1)) <= length (bytes_of l).
Proof.
  induction l as [|[c|] l IH]; intros ch buf len b s1 E; cbn [until_loop] in E;
    destruct (until_goes_on d buf ch) as [[]| | | | |]; cbn [mbind outcome_bind] in E; try done;
    try (injection E as _ _ <-; cbn; lia).
  - destruct t; try done; injection E as _ _ <-; cbn; lia.
  - apply IH in E. cbn [bytes_of length]. lia.
Qed.
Lemma grab_shorter n l : length (bytes_of (grab n l).1.2) <= length (bytes_of l).
Proof.
  revert l. induction n as [|n IH]; intros l; [done|]. destruct l as [|[c|] l]; [done| |cbn; lia].
  cbn [grab]. specialize (IH l). destruct (grab n l) as [[b r] g]. cbn in *. lia.
Qed.
Lemma recv_all_shorter n s rc b s' : recv_all n s = Ok (rc, b, s') -> length (bytes_of (sm_items s')) <= length (bytes_of (sm_items s)).
Proof.
  unfold recv_all. pose proof (grab_shorter n (sm_items s)) as H. destruct (grab n (sm_items s)) as [[b0 r] g]. cbn [fst snd] in H.
  destruct (_ =? n); [intros E|destruct g; [intros E|destruct (sm_tail s); intros E]]; try done; by injection E as _ _ <-.
Qed.

Section any.
Context {U : Type}.
Implicit Types (ro : router U) (w : world U).

Lemma until_start l t : until_loop CRLFCRLF l t NUL [] =
  match l with
  | Byte c :: l' => until_loop CRLFCRLF l' t c [c]
  | Gap :: l' => Ok ((-1)%Z, [], Stream l' t)
  | [] => match t with Eof => Ok (0%Z, [], Stream [] t) | Err => Ok ((-1)%Z, [], Stream [] t) | Wait => Blocked end
  end.
Proof. by destruct l as [|[c|] l], t. Qed.

Lemma answer_what hit wr ro r e w s v : answer hit wr ro r e w s = Ok v ->
  sv_rest v = s /\ exists c', dispatch ro (rt_path (rq_route r)) (ctx_new r resp_new) w = Ok (c', sv_world v).
Proof.
  intros E. split; [by eapply answer_rest|]. unfold answer in E.
  destruct (dispatch _ _ _ w) as [[c' w']| | | | |]; cbn [mbind outcome_bind fst snd] in E; try done. exists c'.
  unfold respond in E. destruct (resp_build hit _ []) as [[rc p2] buf].
  assert (exists p3 buf3, (if negb (rc =? kSuccess)%Z then
      let '(_, p3, buf3) := resp_build hit (resp_internal_error p2 e) buf in (p3, buf3)
    else (p2, buf)) = (p3, buf3)) as (p3 & buf3 & E3).
  { destruct (negb _); [|by eexists _, _]. destruct (resp_build hit _ buf) as [[? ?] ?]. by eexists _, _. }
  rewrite E3 in E. destruct (sock_write wr buf3) as [[len sent]| | | | |]; cbn [mbind outcome_bind] in E; try done.
  by injection E as <-.
Qed.

(** Handlers have run for at most one request, and at least one byte was taken. *)
Lemma handle_read_what hit wr ro e w s v : handle_read hit wr ro e w s = Ok v ->
  (sv_world v = w \/ exists r c', dispatch ro (rt_path (rq_route r)) (ctx_new r resp_new) w = Ok (c', sv_world v)) /\
  length (bytes_of (sm_items (sv_rest v))) <= length (bytes_of (sm_items s)) - (match sm_items s with Byte _ :: _ => 1 | _ => 0 end).
Proof.
  intros E. unfold handle_read, read_until in E. change CRLFCRLF with (CR :: drop 1 CRLFCRLF) in E at 1. cbv iota in E.
  change (CR :: drop 1 CRLFCRLF) with CRLFCRLF in E. rewrite until_start in E.
  assert (Hu : forall len b s1, match sm_items s with
    | Byte c :: l' => until_loop CRLFCRLF l' (sm_tail s) c [c]
    | Gap :: l' => Ok ((-1)%Z, [], Stream l' (sm_tail s))
    | [] => match sm_tail s with Eof => Ok (0%Z, [], Stream [] (sm_tail s)) | Err => Ok ((-1)%Z, [], Stream [] (sm_tail s)) | Wait => Blocked end
    end = Ok (len, b, s1) -> length (bytes_of (sm_items s1)) <=
      length (bytes_of (sm_items s)) - (match sm_items s with Byte _ :: _ => 1 | _ => 0 end)).
  { intros len b s1 Eu. destruct (sm_items s) as [|[c|] l].
    - destruct (sm_tail s); try done; injection Eu as _ _ <-; cbn; lia.
    - apply until_loop_shorter in Eu. cbn [bytes_of length]. lia.
    - injection Eu as _ _ <-. cbn. lia. }
  match type of E with (u ← ?m; _) = _ => destruct m as [[[len buf] s1]| | | | |]; cbn [mbind outcome_bind] in E; try done end.
  specialize (Hu _ _ _ eq_refl).
  destruct (len <=? 0)%Z; [injection E as <-; cbn [sv_world sv_rest]; auto|].
  destruct (req_parse req_new buf) as [[rc r]| | | | |]; cbn [mbind outcome_bind] in E; try done.
  destruct (negb (rc =? kSuccess)%Z).
  { destruct (resp_build hit _ []) as [[? ?] rb]. destruct (sock_write wr rb) as [o| | | | |]; cbn [mbind outcome_bind] in E; try done.
    injection E as <-; cbn [sv_world sv_rest]; auto. }
  destruct (0 <? _)%Z.
  - unfold read_string in E. destruct (recv_all _ s1) as [[[rc' b] s2]| | | | |] eqn:Er; cbn [mbind outcome_bind] in E; try done.
    apply recv_all_shorter in Er. destruct (rc' <=? 0)%Z; [injection E as <-; cbn [sv_world sv_rest]; split; [auto|lia]|].
    apply answer_what in E as (-> & c' & Hd). split; [right; by eexists _, _|lia].
  - apply answer_what in E as (-> & c' & Hd). split; [right; by eexists _, _|lia].
Qed.

(** A read that gives up does not wait. *)
Lemma until_loop_gap d (b : bytes) t : forall ch buf, until_loop d (map Byte b ++ [Gap]) t ch buf <> Blocked /\
  forall len b' s1, until_loop d (map Byte b ++ [Gap]) t ch buf = Ok (len, b', s1) ->
    (exists q, sm_items s1 = map Byte q ++ [Gap]) \/ (len = (-1)%Z).
Proof.
  induction b as [|c b IH]; intros ch buf; cbn [map app until_loop].
  - pose proof (goes_on_waits d buf ch). destruct (until_goes_on d buf ch) as [[]| | | | |]; cbn [mbind outcome_bind]; try done; (split; [done|]).
    + intros len b' s1 [= <- _ _]. by right.
    + intros len b' s1 [= _ _ <-]. left. by exists [].
  - pose proof (goes_on_waits d buf ch). destruct (until_goes_on d buf ch) as [[]| | | | |]; cbn [mbind outcome_bind]; try done.
    split; [done|]. intros len b' s1 [= _ _ <-]. left. by exists (c :: b).
Qed.
Lemma grab_sees_gap n (q : bytes) : length (grab n (map Byte q ++ [Gap])).1.1 = n \/ (grab n (map Byte q ++ [Gap])).2 = true.
Proof.
  revert n. induction q as [|c q IH]; intros [|n]; try (by left); [by right|]. cbn [map app grab]. specialize (IH n).
  destruct (grab n _) as [[b r] g]. cbn [fst snd length] in *. destruct IH; [left; lia|by right].
Qed.
Lemma handle_read_gives_up hit wr ro e w b t :
  (forall r, dispatch ro (rt_path (rq_route r)) (ctx_new r resp_new) w <> Blocked) ->
  handle_read hit wr ro e w (Stream (map Byte b ++ [Gap]) t) <> Blocked.
Proof.
  intros Hd.
  assert (Hw : forall x, sock_write wr x <> Blocked) by (intros x; by destruct wr).
  assert (Ha : forall r s, answer hit wr ro r e w s <> Blocked).
  { intros r s. unfold answer. apply bind_waits; [apply Hd|]. intros [c' w']. unfold respond. destruct (resp_build hit _ []) as [[rc p2] buf].
    destruct (negb _); [destruct (resp_build hit _ buf) as [[? ?] ?]|]; (apply bind_waits; [apply Hw|]); by intros [? ?]. }
  unfold handle_read, read_until. change CRLFCRLF with (CR :: drop 1 CRLFCRLF) at 1. cbv iota. cbn [sm_items sm_tail].
  change (CR :: drop 1 CRLFCRLF) with CRLFCRLF. destruct (until_loop_gap CRLFCRLF b t NUL []) as [Hu1 Hu2].
  destruct (until_loop _ _ _ _ _) as [[[len buf] s1]| | | | |]; cbn [mbind outcome_bind]; try done.
  specialize (Hu2 _ _ _ eq_refl). destruct (Z.leb_spec len 0); [done|]. destruct Hu2 as [[q Hq]| ->]; [|lia].
  apply bind_waits; [apply parse_waits|]. intros [rc r]. destruct (negb _).
  { destruct (resp_build hit _ []) as [[? ?] rb]. apply bind_waits; [apply Hw|done]. }
  destruct (0 <? _)%Z; [|apply Ha]. unfold read_string. apply bind_waits.
  - apply bind_waits; [|by intros [[? ?] ?]]. unfold recv_all. rewrite Hq. destruct (grab_sees_gap (Z.to_nat (header_get_content_length (rq_header r))) q) as [Hg|Hg];
      destruct (grab _ _) as [[b0 r0] g]; cbn [fst snd] in Hg.
    + by rewrite (proj2 (Nat.eqb_eq _ _) Hg).
    + rewrite Hg. by destruct (_ =? _).
  - intros [[rc' b'] s2]. by destruct (rc' <=? 0)%Z.
Qed.
End any.

(** ** Handlers that keep a property of the world *)

Definition kept {U A} (W : world U -> Prop) (o : outcome (A * world U)) : Prop :=
  match o with Ok (_, w') => W w' | Blocked => False | _ => True end.
Definition entry_keeps {U} (W : world U -> Prop) (x : entry U) : Prop :=
  forall h, e_callback x = Some h -> forall c w, W w -> kept W (h c w).

Section keep.
Context {U : Type} (W : world U -> Prop).

Lemma run_vector_keeps (v : list (entry U)) is_end : Forall (entry_keeps W) v -> forall st, W st.2 ->
  match run_vector v is_end st with Ok (st', _) => W st'.2 | Blocked => False | _ => True end.
Proof.
  induction 1 as [|x v Hx _ IH]; intros [c w] Hw; [done|]. cbn [run_vector].
  destruct (negb is_end && e_exact x); [by apply IH|]. destruct (accepts x _); [|by apply IH].
  destruct (e_callback x) as [h|] eqn:E; [|by apply IH]. specialize (Hx h E c w Hw). unfold kept in Hx. cbn [fst snd].
  destruct (h c w) as [[c1 w1]| | | | |]; cbn [mbind outcome_bind]; try done.
  destruct (w_running _); [by apply IH|done].
Qed.

Lemma dispatch_keeps (ro : router U) : Forall (Forall (entry_keeps W)) (ro_heap ro) ->
  forall p c w, W w -> kept W (dispatch ro p c w).
Proof.
  intros H.
  assert (Hv : forall nd is_end (st : ctx * world U) (k : ctx * world U * bool -> outcome (ctx * world U)), W st.2 ->
    (forall r, W r.1.2 -> kept W (k r)) -> kept W (r ← visit (dispatch_cb (ro_heap ro)) st nd is_end; k r)).
  { intros nd is_end st k Hst Hk. unfold visit. destruct (n_data nd) as [i|]; [|done]. unfold dispatch_cb.
    destruct (ro_heap ro !! i) as [v|] eqn:E; [|done].
    pose proof (run_vector_keeps v is_end ltac:(by eapply Forall_lookup_1 in E) st Hst) as Hrun.
    destruct (run_vector v is_end st) as [[st' b]| | | | |]; cbn [mbind outcome_bind]; try done. by apply Hk. }
  assert (Hslot : forall (nd : node nat) ch (k : option (node nat) -> outcome (ctx * world U)), (forall x, kept W (k x)) ->
    kept W (x ← slot nd ch; k x)).
  { intros nd ch k Hk. unfold slot. destruct (is_ascii ch); cbn [mbind outcome_bind]; [apply Hk|done]. }
  assert (Hloop : forall k nd pos (st : ctx * world U), W st.2 -> kept W (search_loop (dispatch_cb (ro_heap ro)) k nd pos st)).
  { induction k as [|ch k IH]; intros nd pos st Hst; cbn [search_loop].
    - destruct (_ && _); [|by destruct st]. apply Hv; [done|]. intros [[c w] b]; cbn [fst snd]; done.
    - destruct (_ <? _); [destruct (_ !! _) as [d|]; [|done]; destruct (Ascii.eqb _ _); [by apply IH|by destruct st]|].
      assert (Hd : forall st : ctx * world U, W st.2 -> kept W (s ← slot nd ch; match s with None => Ok st | Some x => search_loop (dispatch_cb (ro_heap ro)) k x 1 st end)).
      { intros st1 H1. apply Hslot. intros [x|]; [by apply IH|by destruct st1]. }
      destruct (n_stop nd); [|by apply Hd]. apply Hv; [done|]. intros [st1 []] H1; cbn [fst snd] in *; [by apply Hd|by destruct st1]. }
  intros p c w Hw. unfold dispatch, search_node.
  assert (Hrest : forall st : ctx * world U, W st.2 -> kept W (match p with [] => Ok st | ch :: _ => s ← slot (ro_trie ro) ch;
    match s with None => Ok st | Some x => search_loop (dispatch_cb (ro_heap ro)) p x 0 st end end)).
  { intros st Hst. destruct p as [|ch p]; [by destruct st|]. apply Hslot. intros [x|]; [by apply Hloop|by destruct st]. }
  destruct (n_stop (ro_trie ro)); [|by apply Hrest]. apply Hv; [done|]. intros [st []] Hst; cbn [fst snd] in *; [by apply Hrest|by destruct st].
Qed.
End keep.

Lemma register_all_of {U} (P : entry U -> Prop) g path x (ro : router U) r :
  register g path x ro = Ok r -> P x -> Forall (Forall P) (ro_heap ro) -> Forall (Forall P) (ro_heap r.2).
Proof.
  unfold register. intros H Hx Hro. destruct (trie_get _ _) as [[i|]| | | | |]; cbn [mbind outcome_bind] in H; try done.
  - destruct (ro_heap ro !! i) as [v|] eqn:E; [|done]. injection H as <-. cbn [snd ro_heap].
    apply Forall_insert; [done|]. apply Forall_app. split; [by eapply Forall_lookup_1 in E|by repeat constructor].
  - destruct (set_node _ _ _); cbn [mbind outcome_bind] in H; try done. injection H as <-. cbn [snd ro_heap].
    apply Forall_app. split; [done|]. by repeat constructor.
Qed.
