(** Model of demo/web-server/main.cpp: a server run by a configuration file.

    Simplifications: the configuration is given as a value (the JSON library is not
    part of this repository); output is left out.  Init, InitSSL and Run are in
    Model/HttpLife.v, Guard in Model/ProcessCtrl.v. *)
From Verif.Model Require Export Router ArgcDeal.

Local Open Scope N_scope.

(** ** The configuration (config/config.hpp) *)
Record redirect_item : Type := RedirectItem { rd_route : bytes; rd_redirect : bytes; rd_host : bytes }.
Record static_item : Type := StaticItem { si_route : bytes; si_path : bytes; si_host : bytes }.
Record web_config : Type := WebConfig {
  wc_port : Z; wc_background : bool; wc_redirects : list redirect_item; wc_statics : list static_item }.

(** ** The routes: main.cpp:74-106 *)
Section routes.
Context {U : Type}.

(** main.cpp:76-81 and 89-94; filter/http_host_filter.hpp:14-16 *)
Definition host_filters (host : bytes) : list filter_fn :=
  if decide (host = []) then [] else [host_filter None host].
(** main.cpp:84 *)
Definition redirect_handler (url : bytes) : handler U := fun c w =>
  Ok (ctx_set_resp c (resp_redirect (cx_resp c) url false), w).

(** main.cpp:74-86 *)
Fixpoint add_redirects (l : list redirect_item) (ro : router U) : outcome (router U) :=
  match l with
  | [] => Ok ro
  | it :: l' =>
      r ← group_GET [] (rd_route it) (redirect_handler (rd_redirect it)) (host_filters (rd_host it)) ro;
      add_redirects l' r.2
  end.
(** main.cpp:88-106; [None]: return (line 104).  The server object exists as long
    as requests are handled. *)
Fixpoint add_statics (f : fs) (l : list static_item) (ro : router U) : outcome (option (router U)) :=
  match l with
  | [] => Ok (Some ro)
  | it :: l' =>
      dir ← file_is_dir f (si_path it);
      if dir : bool then
        r ← group_StaticDir (fun _ => true) [] (si_route it) (si_path it) (host_filters (si_host it)) ro;
        add_statics f l' r.2
      else
        file ← file_exist f (si_path it);
        if file : bool then
          r ← group_StaticFile (fun _ => true) [] (si_route it) (si_path it) (host_filters (si_host it)) ro;
          add_statics f l' r.2
        else Ok None
  end.
(** main.cpp:74-106 *)
Definition web_routes (f : fs) (cfg : web_config) : outcome (option (router U)) :=
  ro ← add_redirects (wc_redirects cfg) router_new;
  add_statics f (wc_statics cfg) ro.
End routes.

(** main.cpp:50, the cast to uint16_t *)
Definition web_port (cfg : web_config) : Z := (wc_port cfg mod 2 ^ 16)%Z.

(** ** The pid file *)
Definition pid_file : bytes := B "./server.pid".
(** main.cpp:22-26: the process [p] that goes on after BackGround *)
Definition noted_pid (background : bool) (p : Z) : Z := if background then p else 0%Z.
(** main.cpp:120 *)
Definition write_pid (room : nat) (background : bool) (p : Z) (f : fs) : fs :=
  (file_write room f pid_file (int_to_string (noted_pid background p))).2.

(** ** The command line: main.cpp:129-181 *)
Inductive web_next : Type :=
| WExit                         (* exit(0) *)
| WStart (config : bytes).      (* parse this configuration and RunWithConfig *)

(** main.cpp:159-170 *)
Definition web_load {F} (a : argc_deal F) (f : fs) (kills : list Z) : outcome (list Z * web_next) :=
  let config_file := if get_option a (B "config") then get_var a (B "config") else B "./config.json" in
  rd ← file_read f config_file [];
  if negb (rd.1 =? 0)%Z then Ok (kills, WExit) else Ok (kills, WStart rd.2).
(** main.cpp:129-157: the pids given to Kill, and what comes then *)
Definition web_main {F} (a : argc_deal F) (f : fs) : outcome (list Z * web_next) :=
  if get_option a (B "reload") || get_option a (B "stop") then
    rd ← file_read f pid_file [];
    if negb (rd.1 =? 0)%Z then web_load a f []
    else
      match stoi rd.2 with
      | Throw _ => Ok ([], WExit)
      | Ok pid =>
          if (pid <=? 66)%Z then Ok ([], WExit)
          else if get_option a (B "stop") then Ok ([pid], WExit)
          else web_load a f [pid]
      | UB => UB | Diverge => Diverge | Blocked => Blocked | Terminate => Terminate
      end
  else web_load a f [].

(** ** A machine on which servers are started and stopped in one directory *)
Record machine : Type := Machine {
  mc_fs : fs;
  mc_servers : gset Z;            (* processes that have called RunWithConfig *)
  mc_others : gset Z }.
Inductive mlabel : Type :=
| MStart (p : Z) (cfg : web_config)     (* a server starts in process [p] and gets to Run *)
| MEnd (p : Z)                          (* a process ends *)
| MSpawn (p : Z).                       (* another program starts *)
Definition m_free (p : Z) (m : machine) : bool :=
  bool_decide (1 < p ∧ p ≤ int_max ∧ p ∉ mc_servers m ∧ p ∉ mc_others m)%Z.
Definition m_step (room : nat) (l : mlabel) (m : machine) : option machine :=
  match l with
  | MStart p cfg =>
      if m_free p m then
        Some (Machine (write_pid room (wc_background cfg) p (mc_fs m)) ({[p]} ∪ mc_servers m) (mc_others m))
      else None
  | MEnd p => Some (Machine (mc_fs m) (mc_servers m ∖ {[p]}) (mc_others m ∖ {[p]}))
  | MSpawn p => if m_free p m then Some (Machine (mc_fs m) (mc_servers m) ({[p]} ∪ mc_others m)) else None
  end.
Fixpoint m_run (room : nat) (ls : list mlabel) (m : machine) : option machine :=
  match ls with
  | [] => Some m
  | l :: ls' => m' ← m_step room l m; m_run room ls' m'
  end.
