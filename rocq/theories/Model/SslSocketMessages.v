(** Model of err_msg_ of SSLSocket (src/cppnet/ssl/ssl_socket.cpp), beside Model/Ssl.v.

    [err] is the text of ERR_error_string, [se] that of strerror; [old] is the text before
    the call. *)
From Verif.Model Require Export Ssl.

(** ssl_socket.cpp:10-23, the constructor *)
Definition ssock_new_text (ssl : option nat) (s : sock) : bytes :=
  match ssl with
  | None => B "[logicerr]:ssl is nullptr"
  | Some _ => if decide (so_status s = kInit) then [] else B "[logicerr]:socket fd is invalid"
  end.
(** ssl_socket.cpp:25-33 [Close] *)
Definition ssock_close_text (s : ssock) (old : bytes) : bytes :=
  if decide (so_status (ss_base s) = kInit) then old else B "[logicerr]:socket status is invalid".
(** ssl_socket.cpp:44-61 [Connect] *)
Definition ssock_connect_text (se err : bytes) (rc rc2 : Z) (s : ssock) (old : bytes) : bytes :=
  if decide (ss_ssl s = None ∨ so_status (ss_base s) ≠ kInit) then B "[logicerr]:ssl is nullptr or socket fd is invalid"
  else if (rc <? 0)%Z then B "[syserr]:" ++ se
  else if (rc2 <=? 0)%Z then B "[syserr]:ssl connect failed" ++ err
  else old.
(** socket.cpp:126-135 [Read] with ssl_socket.cpp:63-80 [IORead]: only the loop of lines
    67-75 sets the text, when it gives up (and then returns kSysErr) *)
Definition ssock_read_text (err : bytes) (f : rflag) (len : N) (s : ssock) (t : tls) (old : bytes) : bytes :=
  if decide (so_status (ss_base s) = kInit) then
    match f, ssock_read f len s t with
    | FlWaitAll, Ok (rc, _, _) => if decide (rc = kSysErr) then B "[syserr]:ssl complete read failed" ++ err else old
    | _, _ => old
    end
  else old.
