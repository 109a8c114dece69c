(** Model of err_msg_ of SSLContext (src/cppnet/ssl/ssl_context.cpp): the text after each
    call, beside what Model/Ssl.v says that the call does.

    [err] is the text of ERR_error_string for the library's last error; [old] is the text
    before the call. The text of CreateSSLSocket is in LifeMessages.v. *)
From Verif.Model Require Export Ssl.

(** ssl_context.cpp:13-20 [Init] *)
Definition ctx_init_text (c : option nat) (old : bytes) : bytes :=
  match c with None => B "[loginerr]:ssl context is null" | Some _ => old end.
(** ssl_context.cpp:22-40 [InitCli] *)
Definition cli_text (m : memory) (x : option nat) (old : bytes) : bytes :=
  if decide (x ≠ None) then B "[loginerr]:ssl context is not null"
  else if negb (me_method m) then B "[syserr]:create ssl method failed"
  else if negb (me_ctx m) then B "[syserr]:create ssl context failed"
  else ctx_init_text (Some O) old.
(** ssl_context.cpp:42-101 [InitSvr] *)
Definition svr_text (err : bytes) (o : ossl) (m : memory) (cert key : bytes) (x : option nat) (old : bytes) : bytes :=
  if decide (x ≠ None) then B "[loginerr]:ssl context is not null"
  else if decide (cert = [] ∨ key = []) then B "[loginerr]:cert or key data is empty"
  else if negb (me_ctx m) then B "[syserr]:create ssl context failed " ++ err
  else if negb (me_bio m) then B "[syserr]:create bio failed" ++ err
  else if negb (os_cert o cert) then B "[syserr]:read certificate failed" ++ err
  else if negb (os_accept o cert) then B "[syserr]:use certificate failed" ++ err
  else ctx_init_text (Some O) old.
(** ssl_context.cpp:103-151 [InitSvrFile] *)
Definition svr_file_text (err : bytes) (o : ossl) (m : memory) (cert_path key_path pass : bytes) (x : option nat) (old : bytes) : bytes :=
  if decide (x ≠ None) then B "[loginerr]:ssl context is not null"
  else if decide (cert_path = [] ∨ key_path = []) then B "[loginerr]:cert or key path is empty"
  else if negb (me_ctx m) then B "[syserr]:create ssl context failed"
  else
    match os_fs o (cstr cert_path) with
    | Some cert =>
        if negb (os_cert o cert && os_accept o cert) then B "[syserr]:use certificate file failed " ++ err
        else
          let p := if decide (pass = []) then None else Some (cstr pass) in
          match os_fs o (cstr key_path) with
          | Some key => if os_key o p key && os_match o cert key then ctx_init_text (Some O) old
                        else B "[syserr]:use private key file failed " ++ err
          | None => B "[syserr]:use private key file failed " ++ err
          end
    | None => B "[syserr]:use certificate file failed " ++ err
    end.
(** ssl_context.cpp:183-199 [AcceptSSL] *)
Definition accept_text (err : bytes) (m : memory) (rc : Z) (x : option nat) (old : bytes) : bytes :=
  match x with
  | None => B "[syserr]:create ssl failed"
  | Some _ =>
      if negb (me_ssl m) then B "[syserr]:create ssl failed"
      else if (rc <? 0)%Z then B "[syserr]:ssl accept failed " ++ err else old
  end.

(** An SSLContext object: [ssl_ctx_] and [err_msg_]. *)
Record sctx : Type := Sctx { sx_ctx : option nat; sx_text : bytes }.
Definition sctx_new : sctx := Sctx None [].
(** Calls on it, with what the library does in them. *)
Inductive xcall : Type :=
| XCli (m : memory)
| XSvr (err : bytes) (o : ossl) (m : memory) (cert key pass : bytes)
| XFile (err : bytes) (o : ossl) (m : memory) (cert_path key_path pass : bytes)
| XClose.                                 (* lines 201-207: the text stays *)
Definition xdo (c : xcall) (s : sctx) (h : heap) : Z * sctx * heap :=
  match c with
  | XCli m => let '(rc, x, h') := ctx_init_cli m (sx_ctx s) h in (rc, Sctx x (cli_text m (sx_ctx s) (sx_text s)), h')
  | XSvr err o m cert key pass =>
      let '(rc, x, h') := ctx_init_svr o m cert key pass (sx_ctx s) h in
      (rc, Sctx x (svr_text err o m cert key (sx_ctx s) (sx_text s)), h')
  | XFile err o m cert key pass =>
      let '(rc, x, h') := ctx_init_svr_file o m cert key pass (sx_ctx s) h in
      (rc, Sctx x (svr_file_text err o m cert key pass (sx_ctx s) (sx_text s)), h')
  | XClose => let '(rc, x, h') := ctx_close (sx_ctx s) h in (rc, Sctx x (sx_text s), h')
  end.
(** A sequence of calls: the result of the last one. *)
Fixpoint xrun (l : list xcall) (rc : Z) (s : sctx) (h : heap) : Z * sctx * heap :=
  match l with [] => (rc, s, h) | c :: l' => let '(rc', s', h') := xdo c s h in xrun l' rc' s' h' end.
