(** Model of the request handlers of the demos: demo/use-lib-server/main.cpp,
    demo/use-lib-server-ssl/main.cpp, demo/simple-http-server/main.cpp and
    demo/mnist/main.cpp (demo/web-server is in WebServer.v).

    Simplifications: Init and Run are in TcpServer.v and HttpSystem.v; what is printed
    is left out.  The JSON library and the neural-network library are not part of the
    repository: Json::Parse, Json::Dump and the network are parameters. *)
From Coq Require Import Floats.SpecFloat.
From Verif.Model Require Export WebServer.

Section demos.
Context {U : Type}.

(** ** demo/use-lib-server/main.cpp and demo/use-lib-server-ssl/main.cpp *)

(** use-lib-server/main.cpp:14-17 (use-lib-server-ssl/main.cpp:23-26), the callback *)
Definition hello_page : bytes := B "<h1>Hello, World!</h1>".
Definition hello_page_handler : handler U := fun c w =>
  let '(p, custom) := resp_success (w_custom w) (cx_resp c) kTextHtml hello_page in
  Ok (ctx_set_resp c p, set_custom w custom).
Definition use_lib_routes : outcome (router U) :=
  r ← group_GET [] (B "/") hello_page_handler [] router_new; Ok r.2.

(** ** demo/simple-http-server/main.cpp *)

(** simple-http-server/main.cpp:27-29, the callback *)
Definition hello_text_handler : handler U := fun c w =>
  Ok (ctx_set_resp c (resp_text (cx_resp c) sOK (B "hello world")), w).
(** simple-http-server/main.cpp:31-33, the callback *)
Definition world_handler : handler U := redirect_handler (B "https://chenxuanweb.top").
(** simple-http-server/main.cpp:27-36 *)
Definition simple_routes : outcome (router U) :=
  r1 ← group_GET [] (B "/hello") hello_text_handler [] router_new;
  r2 ← group_GET [] (B "/world") world_handler [] r1.2;
  r3 ← group_StaticFile (fun _ => true) [] (B "/") (B "../asset/index.html") [] r2.2;
  r4 ← group_StaticDir (fun _ => true) [] (B "/") (B "../asset/blog-home/") [] r3.2;
  Ok r4.2.

(** ** demo/mnist/main.cpp *)

(** [v[i]] of a std::vector: outside of it the behaviour is undefined. *)
Definition vec_at {A} (l : list A) (i : nat) : outcome A :=
  match l !! i with Some x => Ok x | None => UB end.
(** A loop [for (i...) out.push_back(f(i))]. *)
Fixpoint push_all {A} (f : nat -> outcome A) (l : list nat) : outcome (list A) :=
  match l with
  | [] => Ok []
  | i :: l' => x ← f i; xs ← push_all f l'; Ok (x :: xs)
  end.
(** Lines 71-76: the loop over the scores from index [i]; [r], [m]: result and
    max_value.  double is IEEE binary64; [SFltb] is its comparison. *)
Fixpoint best_score (n i : nat) (scores : list spec_float) (r : nat) (m : spec_float) : outcome nat :=
  match n with
  | O => Ok r
  | S n' =>
      x ← vec_at scores i;
      if SFltb m x then best_score n' (S i) scores i x else best_score n' (S i) scores r m
  end.
(** Lines 39-78 [GetMnistResult].  [network]: [None] when the parameters cannot be
    imported (lines 44-55); otherwise Predict (line 63), which fails ([None]) or
    leaves the scores in result_data. *)
Definition mnist_result (network : option (list Z -> option (list spec_float))) (data : list (list Z)) : outcome Z :=
  match network with
  | None => Ok (-1)%Z
  | Some predict =>
      rows ← push_all (fun i => row ← vec_at data i; push_all (vec_at row) (seq 0 28)) (seq 0 28);
      match predict (concat rows) with
      | None => Ok (-1)%Z
      | Some scores =>
          m ← vec_at scores 0;
          r ← best_score 10 0 scores 0 m;
          Ok (Z.of_nat r)
      end
  end.

(** Lines 27-36 [MnistResp]: the numbers have no initialisers ([None]: indeterminate). *)
Record mnist_resp : Type := MnistResp { mr_code : option Z; mr_msg : bytes; mr_result : option Z }.
Definition mnist_resp_new : mnist_resp := MnistResp None [] None.
(** Json::Dump(resp) calls DumpToJson (lines 31-35), which reads all members; to read
    an indeterminate int is undefined behaviour.  [dump]: the text. *)
Definition mnist_dump (dump : Z -> bytes -> Z -> bytes) (r : mnist_resp) : outcome bytes :=
  match mr_code r, mr_result r with
  | Some code, Some result => Ok (dump code (mr_msg r) result)
  | _, _ => UB
  end.

(** Lines 106-112: the loop from row [i] on; [true]: all rows have 28 columns. *)
Fixpoint rows_fit (n i : nat) (data : list (list Z)) : outcome bool :=
  match n with
  | O => Ok true
  | S n' => row ← vec_at data i; if (length row =? 28)%nat then rows_fit n' (S i) data else Ok false
  end.

(** Lines 89-126, the callback of POST("/mnist").  [parse]: Json::Parse with
    MnistReq::ParseFromJson (lines 16-25): the return code and [req.data]. *)
Definition mnist_handler (parse : bytes -> Z * list (list Z)) (dump : Z -> bytes -> Z -> bytes)
    (network : option (list Z -> option (list spec_float))) : handler U := fun c w =>
  let bad (msg : bytes) : outcome (ctx * world U) :=
    d ← mnist_dump dump (MnistResp (Some 400%Z) msg (mr_result mnist_resp_new));
    Ok (ctx_set_resp c (resp_bad_request (cx_resp c) d), w) in
  let '(rc, data) := parse (rq_body (cx_req c)) in
  if negb (rc =? 0)%Z then bad (B "parse json wrong ")
  else if negb (length data =? 28)%nat then bad (B "data size must be 28 ")
  else
    fit ← rows_fit 28 0 data;
    if negb fit then bad (B "data size must be 28 ")
    else
      _printed ← push_all (fun i => row ← vec_at data i; push_all (vec_at row) (seq 0 28)) (seq 0 28);
      result ← mnist_result network data;
      d ← mnist_dump dump (MnistResp (Some 200%Z) (B "ok") (Some result));
      Ok (ctx_set_resp c (resp_success_json (cx_resp c) d), w).

(** Lines 89-128 *)
Definition mnist_routes (h : handler U) : outcome (router U) :=
  r1 ← group_POST [] (B "/mnist") h [] router_new;
  r2 ← group_StaticFile (fun _ => true) [] (B "/") (B "./index.html") [] r1.2;
  Ok r2.2.
End demos.
