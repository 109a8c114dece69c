(** Model of src/cppnet/timer/timer.cpp (linux branch).

    The kernel's timers are a map from open timer descriptors to what they are
    set to ([None]: disarmed). *)
From Verif.Model Require Export Socket.

Local Open Scope Z_scope.

Notation timers := (gmap Z (option (Z * Z))) (only parsing).

(** timerfd_settime(fd, 0, {interval = value = sec, nsec}) *)
Definition timerfd_settime (k : timers) (fd sec nsec : Z) : Z * timers :=
  match k !! fd with
  | None => (-1, k)
  | Some _ =>
      if (sec <? 0) || (nsec <? 0) || (10 ^ 9 <=? nsec) then (-1, k)
      else (0, <[fd := if (sec =? 0) && (nsec =? 0) then None else Some (sec, nsec)]> k)
  end.
(** timer.cpp:33-46 [TimerSocket::Reset] *)
Definition timer_reset (sec nsec : Z) (t : sock) (k : timers) : Z * timers :=
  (kSuccess, (timerfd_settime k (so_fd t) sec nsec).2).
(** timer.cpp:15-31 [TimerSocket::Init]; [r] is what timerfd_create returns: -1 or a
    descriptor that was not open. *)
Definition timer_init (r sec nsec : Z) (t : sock) (k : timers) : Z * sock * timers :=
  let k1 := if r <? 0 then k else <[r := None]> k in
  let t1 := Sock r (so_status t) in
  if r <=? 0 then (kSysErr, t1, k1)
  else let '(_, k2) := timer_reset sec nsec t1 k1 in (kSuccess, Sock r kInit, k2).
(** socket.cpp:66-76 [Socket::Close] on a timer. *)
Definition timer_close (t : sock) (k : timers) : sock * timers :=
  if decide (so_status t = kInit) then (Sock (so_fd t) kClosed, delete (so_fd t) k) else (t, k).
