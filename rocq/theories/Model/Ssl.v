(** Model of src/cppnet/ssl/ssl_socket.cpp and ssl_context.cpp (compiled with
    CPPNET_OPENSSL).

    OpenSSL is modelled by what its manual says of the functions called: a TLS
    connection delivers records; SSL_read returns bytes of one record at a time
    and keeps the rest in a buffer of its own.  SSL_CTX, X509, BIO and SSL objects
    live in a heap until they are freed.  Simplifications: error texts are not
    modelled; SSL_load_error_strings, SSL_library_init, SSL_CTX_set_mode and
    SSL_CTX_set_options have no effect here; memory for the buffers of
    [Socket::Read] can be allocated; the size given to BIO_new_mem_buf fits an int. *)
From Verif.Model Require Export Socket.

Local Open Scope N_scope.

(** ** A TLS connection *)

(** What is still to come: records of application data, and [SGap] where a read
    gives up (timeout, EAGAIN, a signal). *)
Inductive sitem : Type := Rec (b : bytes) | SGap.
(** [tl_buf]: the part of the last record that was not asked for yet. *)
Record tls : Type := Tls { tl_buf : bytes; tl_items : list sitem; tl_tail : tail }.

(** Reading [n] > 0 bytes when the buffer is empty. *)
Fixpoint next_record (n : nat) (l : list sitem) (t : tail) : outcome (Z * bytes * tls) :=
  match l with
  | [] => match t with
          | Eof => Ok (0%Z, [], Tls [] [] t)
          | Err => Ok ((-1)%Z, [], Tls [] [] t)
          | Wait => Blocked
          end
  | SGap :: l' => Ok ((-1)%Z, [], Tls [] l' t)
  | Rec [] :: l' => next_record n l' t
  | Rec b :: l' => Ok (rc_of (take n b), take n b, Tls (drop n b) l' t)
  end.
(** SSL_read(3): [num] is an int. *)
Definition ssl_read (num : Z) (s : tls) : outcome (Z * bytes * tls) :=
  if (num <? 0)%Z then Ok ((-1)%Z, [], s)
  else if (num =? 0)%Z then Ok (0%Z, [], s)
  else match tl_buf s with
       | [] => next_record (Z.to_nat num) (tl_items s) (tl_tail s)
       | b => Ok (rc_of (take (Z.to_nat num) b), take (Z.to_nat num) b,
                  Tls (drop (Z.to_nat num) b) (tl_items s) (tl_tail s))
       end.

(** Bytes that the peer will send. *)
Definition tl_size (s : tls) : nat :=
  (length (tl_buf s) + sum_list ((λ i, match i with Rec b => length b | SGap => 0 end) <$> tl_items s))%nat.

(** ** SSLSocket: data *)

(** ssl_socket.cpp:65-76, the loop for MSG_WAITALL.  [total] is an int, [len] a
    size_t; adding is undefined when the sum is no int; line 68 converts the
    number of missing bytes to an int. *)
Fixpoint wait_all (fuel : nat) (len : N) (total : Z) (acc : bytes) (s : tls) : outcome (Z * bytes * tls) :=
  match fuel with
  | O => Diverge
  | S fuel' =>
      if int_to_size total <? len then
        r ← ssl_read (to_int32 (Z.of_N (szsub len (int_to_size total)))) s;
        let '(rc, b, s') := r in
        if (rc <=? 0)%Z then Ok (kSysErr, acc ++ b, s')
        else if (total + rc <=? int_max)%Z then wait_all fuel' len (total + rc)%Z (acc ++ b) s'
        else UB
      else Ok (total, acc, s)
  end.

(** ssl_socket.cpp:63-80 [IORead]; the three flags that Socket uses.  Return code,
    bytes stored in the buffer, the connection afterwards. *)
Inductive rflag : Type := FlNone | FlWaitAll | FlPeek.
Definition ssl_ioread (f : rflag) (len : N) (s : tls) : outcome (Z * bytes * tls) :=
  match f with
  | FlWaitAll => wait_all (S (S (tl_size s))) len 0 [] s
  | _ => ssl_read (to_int32 (Z.of_N len)) s
  end.

(** ssl_socket.cpp:82-84 [IOWrite], called at socket.cpp:197-202; SSL_write(3)
    without SSL_MODE_ENABLE_PARTIAL_WRITE writes all or fails with [fail] <= 0. *)
Definition ssl_iowrite (fail : option Z) (buf : bytes) : Z * bytes :=
  let num := to_int32 (Z.of_N (size buf)) in
  match fail with
  | Some rc => (rc, [])
  | None => if (num <? 0)%Z then ((-1)%Z, []) else (num, take (Z.to_nat num) buf)
  end.

(** Inherited: socket.cpp:113-135 [Read] and 137-147 [ReadPeek] into a string *)
Definition ssl_read_string (complete : bool) (len : N) (s : tls) : outcome (Z * bytes * tls) :=
  r ← ssl_ioread (if complete then FlWaitAll else FlNone) len s;
  let '(rc, b, s') := r in Ok (rc, cstr b, s').
Definition ssl_read_peek (len : N) (s : tls) : outcome (Z * bytes * tls) :=
  r ← ssl_ioread FlPeek len s;
  let '(rc, b, s') := r in Ok (rc, cstr b, s').

(** Inherited: socket.cpp:149-164 [ReadUntil]; [IORead(&ch, 1)] leaves [ch] alone
    when it fails.  One round per byte. *)
Fixpoint ssl_until_loop (fuel : nat) (delim : bytes) (s : tls) (ch : ascii) (buf : bytes)
    : outcome (Z * bytes * tls) :=
  match fuel with
  | O => Diverge
  | S fuel' =>
      go ← until_goes_on delim buf ch;
      if go : bool then
        r ← ssl_ioread FlNone 1 s;
        match r with
        | (rc, b, s') =>
            if (rc <=? 0)%Z then Ok (rc, buf, s')
            else let ch' := match b with c :: _ => c | [] => ch end in
                 ssl_until_loop fuel' delim s' ch' (buf ++ [ch'])
        end
      else Ok (to_int32 (Z.of_N (size buf)), buf, s)
  end.
Definition ssl_read_until (buf delim : bytes) (s : tls) : outcome (Z * bytes * tls) :=
  match delim with
  | [] => Ok ((-1)%Z, buf, s)
  | _ => ssl_until_loop (S (S (tl_size s))) delim s NUL buf
  end.

(** ** Objects of the library *)

(** An SSL_CTX with its certificate, its private key and the password for keys
    that are loaded later; our reference to an X509 or a BIO; an SSL. *)
Inductive hobj : Type :=
| HCtx (cert key pass : option bytes) | HCert (d : bytes) | HBio | HSsl.
Global Instance hobj_eq_dec : EqDecision hobj.
Proof. solve_decision. Defined.
Record heap : Type := Heap { hp : gmap nat hobj; hp_next : nat }.
Definition heap0 : heap := Heap ∅ 0.
Definition h_new (o : hobj) (h : heap) : nat * heap := (hp_next h, Heap (<[hp_next h := o]> (hp h)) (S (hp_next h))).
Definition h_set (i : nat) (o : hobj) (h : heap) : heap := Heap (<[i := o]> (hp h)) (hp_next h).
Definition h_free (i : nat) (h : heap) : heap := Heap (delete i (hp h)) (hp_next h).

(** What the environment is: which texts are certificates, which certificates the
    library accepts for use (strength of the key), which texts are private keys
    (that need no password, or can be read with it), which key belongs to which
    certificate, and the files. *)
Record ossl : Type := Ossl {
  os_cert : bytes → bool; os_accept : bytes → bool; os_key : option bytes → bytes → bool; os_match : bytes → bytes → bool;
  os_fs : bytes → option bytes }.
(** Which of the library's calls find memory. *)
Record memory : Type := Memory { me_method : bool; me_ctx : bool; me_bio : bool; me_ssl : bool }.

(** ** SSLContext: the member [ssl_ctx_] *)

(** ssl_context.cpp:13-20 [Init] *)
Definition ctx_init (c : option nat) (x : option nat) : Z * option nat :=
  match c with None => (kLogicErr, x) | Some _ => (kSuccess, c) end.
(** ssl_context.cpp:22-40 [InitCli] *)
Definition ctx_init_cli (m : memory) (x : option nat) (h : heap) : Z * option nat * heap :=
  if decide (x ≠ None) then (kLogicErr, x, h)
  else if negb (me_method m) then (kSysErr, x, h)
  else if negb (me_ctx m) then (kSysErr, x, h)
  else let '(i, h1) := h_new (HCtx None None None) h in (ctx_init (Some i) x, h1).
(** ssl_context.cpp:42-101 [InitSvr]; the parameter [key] is looked at in line 49
    only. *)
Definition ctx_init_svr (o : ossl) (m : memory) (cert key pass : bytes) (x : option nat) (h : heap)
    : Z * option nat * heap :=
  if decide (x ≠ None) then (kLogicErr, x, h)
  else if decide (cert = [] ∨ key = []) then (kLogicErr, x, h)
  else if negb (me_ctx m) then (kSysErr, x, h)
  else
    let '(i, h1) := h_new (HCtx None None None) h in
    if negb (me_bio m) then (kSysErr, x, h1)
    else
      let '(b, h2) := h_new HBio h1 in
      let ok := os_cert o cert in
      let '(c, h3) := if ok then h_new (HCert cert) h2 else (O, h2) in
      let h4 := h_free b h3 in
      if negb ok then (kSysErr, x, h4)
      else
        if negb (os_accept o cert) then (kSysErr, x, h4)      (* line 89 *)
        else
        let h5 := h_set i (HCtx (Some cert) None None) h4 in
        let h6 := if decide (pass = []) then h5 else h_set i (HCtx (Some cert) None (Some (cstr pass))) h5 in
        (ctx_init (Some i) x, h_free c h6).
(** ssl_context.cpp:103-151 [InitSvrFile] *)
Definition ctx_init_svr_file (o : ossl) (m : memory) (cert_path key_path pass : bytes) (x : option nat) (h : heap)
    : Z * option nat * heap :=
  if decide (x ≠ None) then (kLogicErr, x, h)
  else if decide (cert_path = [] ∨ key_path = []) then (kLogicErr, x, h)
  else if negb (me_ctx m) then (kSysErr, x, h)
  else
    let '(i, h1) := h_new (HCtx None None None) h in
    match os_fs o (cstr cert_path) with
    | Some cert =>
        if negb (os_cert o cert && os_accept o cert) then (kSysErr, x, h1)
        else
          let p := if decide (pass = []) then None else Some (cstr pass) in
          let h2 := h_set i (HCtx (Some cert) None p) h1 in
          match os_fs o (cstr key_path) with
          | Some key =>
              if os_key o p key && os_match o cert key then (ctx_init (Some i) x, h_set i (HCtx (Some cert) (Some key) p) h2)
              else (kSysErr, x, h2)
          | None => (kSysErr, x, h2)
          end
    | None => (kSysErr, x, h1)
    end.
(** ssl_context.cpp:201-207 [Close], also called by the destructor (line 11) *)
Definition ctx_close (x : option nat) (h : heap) : Z * option nat * heap :=
  match x with Some i => (kSuccess, None, h_free i h) | None => (kSuccess, None, h) end.

(** ** SSLSocket: the object *)

(** The inherited members and [ssl_] (ssl_socket.hpp:39). *)
Record ssock : Type := Ssock { ss_base : sock; ss_ssl : option nat }.
(** ssl_socket.cpp:10-23, the constructor *)
Definition ssock_new (ssl : option nat) (s : sock) : ssock :=
  match ssl with
  | None => Ssock sock_new None
  | Some i => if decide (so_status s = kInit) then Ssock (Sock (so_fd s) kInit) (Some i) else Ssock sock_new None
  end.
(** What is done to descriptors and to the TLS session, in order; [YNotify]:
    SSL_shutdown writes the close_notify alert to the descriptor. *)
Inductive sact : Type := YSocket (fd : Z) | YClose (fd : Z) | YNotify (fd : Z) | YHandshake (fd : Z) | YConnect (fd : Z).
Global Instance sact_eq_dec : EqDecision sact.
Proof. solve_decision. Defined.

(** ssl_socket.cpp:35-42 [CloseSSL]; the descriptor was set by SSL_set_fd, line 21 *)
Definition close_ssl (s : ssock) (h : heap) : Z * ssock * heap * list sact :=
  match ss_ssl s with
  | Some i => (kSuccess, Ssock (ss_base s) None, h_free i h, [YNotify (so_fd (ss_base s))])
  | None => (kSuccess, s, h, [])
  end.
(** ssl_socket.cpp:25-33 [Close] *)
Definition ssock_close (s : ssock) (h : heap) : Z * ssock * heap * list sact :=
  if decide (so_status (ss_base s) = kInit) then
    let s1 := Ssock (Sock (so_fd (ss_base s)) kClosed) (ss_ssl s) in
    let '(_, s2, h2, tr) := close_ssl s1 h in (kSuccess, s2, h2, YClose (so_fd (ss_base s)) :: tr)
  else (kLogicErr, s, h, []).
(** ssl_socket.cpp:44-61 [Connect]; [rc]: connect(2), [rc2]: SSL_connect *)
Definition ssock_connect (rc rc2 : Z) (s : ssock) : Z * list sact :=
  if decide (ss_ssl s = None ∨ so_status (ss_base s) ≠ kInit) then (kLogicErr, [])
  else
    let fd := so_fd (ss_base s) in
    if (rc <? 0)%Z then (kSysErr, [YConnect fd])
    else if (rc2 <=? 0)%Z then (kSysErr, [YConnect fd; YHandshake fd])
    else (kSuccess, [YConnect fd; YHandshake fd]).
(** Reading through the object: socket.cpp:126-135 [Read], then [IORead]; SSL_read
    of a null pointer is undefined. *)
Definition ssock_read (f : rflag) (len : N) (s : ssock) (t : tls) : outcome (Z * bytes * tls) :=
  if decide (so_status (ss_base s) = kInit) then
    match ss_ssl s with Some _ => ssl_ioread f len t | None => UB end
  else Ok ((-1)%Z, [], t).

(** ssl_context.cpp:153-166 [CreateSSLSocket(soc)] *)
Definition create_ssl_socket_on (m : memory) (soc : sock) (x : option nat) (h : heap) : option ssock * heap :=
  match x with
  | None => (None, h)
  | Some _ => if me_ssl m then let '(i, h1) := h_new HSsl h in (Some (ssock_new (Some i) soc), h1) else (None, h)
  end.
(** ssl_context.cpp:168-181 [CreateSSLSocket()]; [r]: what socket(2) returns *)
Definition create_ssl_socket (m : memory) (r : Z) (x : option nat) (h : heap) : option ssock * heap * list sact :=
  match x with
  | None => (None, h, [])
  | Some _ =>
      if (r <? 0)%Z then (None, h, [])
      else let '(s, h1) := create_ssl_socket_on m (Sock r kInit) x h in (s, h1, [YSocket r])
  end.
(** ssl_context.cpp:183-199 [AcceptSSL]; [rc]: what SSL_accept returns (1: the
    handshake is complete; 0: it was shut down; below 0: it failed).  SSL_new of a
    null context fails. *)
Definition accept_ssl (m : memory) (rc : Z) (soc : sock) (x : option nat) (h : heap) : option ssock * heap :=
  match x with
  | None => (None, h)
  | Some _ =>
      if negb (me_ssl m) then (None, h)
      else
        let '(i, h1) := h_new HSsl h in
        if (rc <? 0)%Z then (None, h_free i h1) else (Some (ssock_new (Some i) soc), h1)
  end.
