(** C173: the host's name and address (utils/host.cpp). *)
From Verif.Model Require Import Host.
From Verif.Props Require Import AddressProps.

Local Open Scope nat_scope.

(** A host name as POSIX allows it: no NUL, at most 255 bytes. *)
Definition host_name (h : bytes) : Prop := NUL ∉ h ∧ length h <= 255.

Lemma cstr_pad h t : NUL ∉ h -> cstr (h ++ NUL :: t) = h.
Proof.
  induction h as [|c h IH]; intros H; [done|]. cbn [app cstr].
  destruct (Ascii.eqb_spec c NUL) as [->|]; [set_solver|]. rewrite IH by set_solver. done.
Qed.
Lemma name_ok h : host_name h -> get_local_name h = Ok h.
Proof.
  intros [Hn Hl]. unfold get_local_name, of_buffer, gethostname.
  assert (∃ n, take 512 (h ++ repeat NUL 512) = h ++ repeat NUL (S n)) as [n ->].
  { exists (511 - length h). rewrite take_app_ge by lia. f_equal.
    replace 512 with ((512 - length h) + length h) at 2 by lia. rewrite repeat_app.
    rewrite take_app_le by (rewrite repeat_length; lia).
    rewrite take_ge by (rewrite repeat_length; lia). f_equal. lia. }
  rewrite forallb_app. cbn [repeat forallb]. rewrite Ascii.eqb_refl. cbn [negb andb]. rewrite andb_false_r.
  by rewrite cstr_pad.
Qed.

(** GetLocalName gives the name of the host; GetLocalIP asks the resolver for exactly
    this name and gives the canonical text of the first address, from which [Address]
    gets the same address back; or the empty text if there is none. *)
Theorem local_host : forall resolve h, host_name h ->
  get_local_name h = Ok h ∧
  (resolve h = None -> get_local_ip resolve h = Ok []) ∧
  (forall a b c d rest port, resolve h = Some ((a, b, c, d), rest) -> octet a -> octet b -> octet c -> octet d ->
     exists t, get_local_ip resolve h = Ok t ∧ t = quad a b c d ∧ ad_ip (addr_init t port).2 = (a, b, c, d)).
Proof.
  intros resolve h Hh. pose proof (name_ok h Hh) as Hn. unfold get_local_name in Hn.
  split; [done|]. unfold get_local_ip. rewrite Hn. cbn [mbind outcome_bind]. split.
  - by intros ->.
  - intros a b c d rest port -> Ha Hb Hc Hd. exists (quad a b c d). rewrite quad_ntoa. split_and!; [done|done|].
    unfold addr_init. cbn [snd ad_ip]. by apply inet_round.
Qed.
Print Assumptions local_host.
Definition demo_resolve (n : bytes) : option (ip4 * list ip4) :=
  if bool_decide (n = B "box") then Some ((10, 0, 0, 7)%N, [(127, 0, 0, 1)%N]) else None.
Example local_host_ex : host_name (B "box") ∧ get_local_ip demo_resolve (B "box") = Ok (B "10.0.0.7") ∧
  get_local_ip demo_resolve (B "other") = Ok [].
Proof. split; [|by vm_compute]. split; [|vm_compute; lia]. intros H. apply elem_of_list_In in H. vm_compute in H. intuition discriminate. Qed.

(** The buffer's size: names of less than 512 bytes are returned, longer ones (no system
    has them) would be read past the buffer's end. *)
Theorem local_name_room : forall h, NUL ∉ h ->
  (length h < 512 -> get_local_name h = Ok h) ∧ (512 <= length h -> get_local_name h = UB).
Proof.
  intros h Hh. unfold get_local_name, of_buffer, gethostname. split; intros Hl.
  - rewrite take_app_ge by lia.
    assert (exists t, take (512 - length h) (repeat NUL 512) = NUL :: t) as [t ->].
    { destruct (512 - length h) as [|n] eqn:E; [lia|]. by eexists. }
    rewrite forallb_app. cbn [forallb]. change (Ascii.eqb NUL NUL) with true. cbn [negb andb]. rewrite andb_false_r. by rewrite cstr_pad.
  - rewrite take_app_le by lia.
    assert (forallb (fun c => negb (Ascii.eqb c NUL)) (take 512 h) = true) as ->; [|done].
    apply forallb_forall. intros c Hc%elem_of_list_In. apply negb_true_iff, Ascii.eqb_neq. intros ->. apply Hh.
    rewrite <- (take_drop 512 h). apply elem_of_app. by left.
Qed.
Example local_name_room_ex : get_local_name (repeat "a"%char 511) = Ok (repeat "a"%char 511) ∧ get_local_name (repeat "a"%char 512) = UB.
Proof. split; by vm_compute. Qed.
Print Assumptions local_name_room.
