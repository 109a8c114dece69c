(** Model of src/cppnet/utils/host.cpp.

    The operating system is the name of the host (without its final NUL) and a
    resolver; a resolver that succeeds gives at least one address.  gethostname
    copies the name with its NUL if there is room, else as many bytes as there is
    room for (glibc; its result is not looked at). *)
From Verif.Model Require Export Address.

Local Open Scope nat_scope.

(** [gethostname(name, len)] on a buffer of [len] zero bytes *)
Definition gethostname (len : nat) (host : bytes) : bytes :=
  take len (host ++ repeat NUL len).
(** [std::string(name)] from a buffer: without a NUL it reads past the end *)
Definition of_buffer (buf : bytes) : outcome bytes :=
  if forallb (fun c => negb (Ascii.eqb c NUL)) buf then UB else Ok (cstr buf).
(** host.cpp:13-17 [Host::GetLocalName] *)
Definition get_local_name (host : bytes) : outcome bytes := of_buffer (gethostname 512 host).
(** host.cpp:19-27 [Host::GetLocalIP]; [resolve] is gethostbyname: the first address
    and the others *)
Definition get_local_ip (resolve : bytes -> option (ip4 * list ip4)) (host : bytes) : outcome bytes :=
  ip ← of_buffer (gethostname 512 host);
  match resolve ip with
  | None => Ok []
  | Some (a, _) => Ok (inet_ntoa a)
  end.
