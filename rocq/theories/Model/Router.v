(** Model of the routing half of src/cppnet/http/server/http_server.cpp,
    http_server.hpp and src/cppnet/http/server/filter/*.hpp.

    Simplifications: logging is left out; a filter is a boolean function of the
    request (user filters with side effects are not modelled); handlers do not
    register further handlers. *)
From Verif.Model Require Export Trie Resp File.

Local Open Scope N_scope.

(** ** HttpContext *)

(** std::any, as far as types can be told apart: the empty one, and a value of
    one of some types (the tag). *)
Inductive any_value : Type := ANone | AVal (tag : nat) (v : bytes).

(** http_server.hpp:55-60 *)
Record ctx : Type := Ctx {
  cx_req : req; cx_resp : resp; cx_next : bool; cx_data : gmap bytes any_value }.
(** http_server.hpp:22-23 and the member initialisers *)
Definition ctx_new (r : req) (p : resp) : ctx := Ctx r p false ∅.
(** http_server.hpp:32-33 *)
Definition ctx_Next (c : ctx) : ctx := Ctx (cx_req c) (cx_resp c) true (cx_data c).
Definition ctx_Abort (c : ctx) : ctx := Ctx (cx_req c) (cx_resp c) false (cx_data c).
Definition ctx_set_resp (c : ctx) (p : resp) : ctx := Ctx (cx_req c) p (cx_next c) (cx_data c).
(** http_server.hpp:45-47 [HttpContext::Set<T>] with [T] identified by [tag] *)
Definition ctx_Set (c : ctx) (tag : nat) (key v : bytes) : ctx :=
  Ctx (cx_req c) (cx_resp c) (cx_next c) (<[key := AVal tag v]> (cx_data c)).
(** http_server.hpp:38-44 [HttpContext::Get<T>]: the value ([dflt] is T()) and
    the context afterwards ([operator[]] inserts an empty any). *)
Definition ctx_Get (c : ctx) (tag : nat) (dflt key : bytes) : bytes * ctx :=
  let d := match cx_data c !! key with
           | Some _ => cx_data c
           | None => <[key := ANone]> (cx_data c)
           end in
  (match cx_data c !! key with
   | Some (AVal t v) => if (t =? tag)%nat then v else dflt
   | _ => dflt
   end, Ctx (cx_req c) (cx_resp c) (cx_next c) d).

(** ** What a handler can see and change besides its context *)
Section router.
Context {U : Type}.

Record world : Type := World {
  w_running : bool;                (* HttpServer::is_continue_ *)
  w_fs : fs;                       (* the file system *)
  w_opened : list bytes;           (* names given to stat/open so far *)
  w_custom : smap;                 (* HttpHeader::custom_content_type_ *)
  w_user : U }.                    (* the application's own state *)

(** http_server.hpp:63 [HttpCallback] *)
Definition handler : Type := ctx -> world -> outcome (ctx * world).
(** filter/http_filter.hpp *)
Definition filter_fn : Type := req -> bool.

(** http_server.hpp:65-69 [HttpTrieData] *)
Record entry : Type := Entry {
  e_callback : option handler; e_exact : bool; e_filters : list filter_fn }.

(** The trie stores shared_ptr<std::vector<HttpTrieData>>: an index into the
    list of all vectors ever made. *)
Record router : Type := Router { ro_trie : node nat; ro_heap : list (list entry) }.
Definition router_new : router := Router trie_new [].

(** http_server.cpp:54-67 [HttpGroup::RegisterHandler] of a group with
    [route_] = [g].  Line 58 looks up [path], line 62 stores under [g ++ path]. *)
Definition register (g path : bytes) (e : entry) (ro : router) : outcome (Z * router) :=
  pdata ← trie_get (ro_trie ro) path;
  match pdata with
  | None =>
      t ← set_node (ro_trie ro) (g ++ path) (length (ro_heap ro));
      Ok (kSuccess, Router t (ro_heap ro ++ [[e]]))
  | Some i =>
      match ro_heap ro !! i with
      | Some v => Ok (kSuccess, Router (ro_trie ro) (<[i := v ++ [e]]> (ro_heap ro)))
      | None => UB
      end
  end.

(** http_server.cpp:69-80: the overload with several callbacks *)
Fixpoint register_list (g path : bytes) (cbs : list handler) (filters : list filter_fn)
    (exact : bool) (ro : router) : outcome (Z * router) :=
  match cbs with
  | [] => Ok (kSuccess, ro)
  | cb :: cbs' =>
      r ← register g path (Entry (Some cb) exact filters) ro;
      if (r.1 =? kSuccess)%Z then register_list g path cbs' filters exact r.2 else Ok r
  end.

(** http_server.cpp:82-84 [HttpGroup::Group] *)
Definition group (g route : bytes) : bytes := g ++ route.

(** filter/http_method_filter.hpp:14-16 *)
Definition method_filter (m : http_method) : filter_fn := fun r => bool_decide (rq_method r = m).

(** filter/http_host_filter.hpp: [None] is the default-constructed std::regex,
    which matches nothing (libstdc++); [Some m] a compiled one, whose matching
    function is a parameter. *)
Definition host_filter (regex : option (bytes -> bool)) (wild : bytes) : filter_fn := fun r =>
  let host := header_get_host (rq_header r) in
  (match regex with Some m => m host | None => false end) || wildcard_match wild host.

(** http_server.cpp:12-19 [HttpGroup::GET] and 33-40 [HttpGroup::POST]: the
    vector with the method filter ([new_filters]) is built but line 18/39 passes
    [filters]. *)
Definition group_method (m : http_method) (g path : bytes) (cb : handler) (filters : list filter_fn)
    (ro : router) : outcome (Z * router) :=
  let new_filters := filters ++ [method_filter m] in
  register g path (Entry (Some cb) true filters) ro.
Definition group_GET := group_method mGET.
Definition group_POST := group_method mPOST.

(** http_server.cpp:21-31 and 42-52: GET and POST with several callbacks *)
Fixpoint group_method_list (m : http_method) (g path : bytes) (cbs : list handler) (filters : list filter_fn)
    (ro : router) : outcome (Z * router) :=
  match cbs with
  | [] => Ok (kSuccess, ro)
  | cb :: cbs' =>
      r ← group_method m g path cb filters ro;
      if (r.1 =? kSuccess)%Z then group_method_list m g path cbs' filters r.2 else Ok r
  end.

(** http_server.cpp:86-89 [HttpGroup::Use] *)
Definition group_Use (g : bytes) (cb : handler) (filters : list filter_fn) (ro : router) :=
  register g [] (Entry (Some cb) false filters) ro.

(** File::Exist and File::Read as called by a handler: the name is recorded. *)
Definition opened (w : world) (p : bytes) : world :=
  World (w_running w) (w_fs w) (w_opened w ++ [cstr p]) (w_custom w) (w_user w).
Definition set_custom (w : world) (c : smap) : world :=
  World (w_running w) (w_fs w) (w_opened w) c (w_user w).

(** http_server.cpp:100-133, the callback of [HttpGroup::StaticDir] *)
Definition static_dir_handler (path dir_path : bytes) : handler := fun c w =>
  let route := rt_path (rq_route (cx_req c)) in
  let pos := str_find route path 0 in
  if pos =? npos then Ok (ctx_set_resp c (resp_not_found (cx_resp c)), w)
  else
    aim_path ← substr_from route (szadd pos (size path));
    if negb (str_find aim_path (B "..") 0 =? npos) then
      Ok (ctx_set_resp c (resp_not_found (cx_resp c)), w)
    else
      let file_path := dir_path ++ B "/" ++ aim_path in
      exist ← file_exist (w_fs w) file_path;
      let w1 := opened w file_path in
      if negb exist then Ok (ctx_Next c, w1)
      else
        rd ← file_read (w_fs w) file_path (rs_body (cx_resp c));
        let w2 := opened w1 file_path in
        let p := cx_resp c in
        let p1 := Resp (rs_status p) (rs_version p) (rs_header p) rd.2 in
        if negb (rd.1 =? kSuccess)%Z then Ok (ctx_set_resp c (resp_not_found p1), w2)
        else
          let p2 := Resp (rs_status p1) (rs_version p1)
                         (header_set_long_connection (rs_header p1) true) (rs_body p1) in
          suffix ← file_suffix file_path;
          let '(p3, custom) := resp_success (w_custom w2) p2 (convert_file_type (w_custom w2) suffix) [] in
          Ok (ctx_set_resp c p3, set_custom w2 custom).

(** The callbacks of StaticDir and StaticFile capture [this] (lambda [=]) and use
    [this->logger_] on every path: they may only be called while the HttpGroup
    object they were registered through exists.  [alive] tells whether it does;
    group objects belong to the application. *)
Definition owned (alive : U -> bool) (h : handler) : handler := fun c w =>
  if alive (w_user w) then h c w else UB.

(** http_server.cpp:91-140 [HttpGroup::StaticDir] *)
Definition group_StaticDir (alive : U -> bool) (g path dir_path : bytes) (filters : list filter_fn)
    (ro : router) :=
  register g path
    (Entry (Some (owned alive (static_dir_handler path dir_path))) false
           (filters ++ [method_filter mGET])) ro.

(** http_server.cpp:151-173, the callback of [HttpGroup::StaticFile] *)
Definition static_file_handler (file_path : bytes) : handler := fun c w =>
  exist ← file_exist (w_fs w) file_path;
  let w1 := opened w file_path in
  if negb exist then Ok (ctx_Next (ctx_set_resp c (resp_not_found (cx_resp c))), w1)
  else
    rd ← file_read (w_fs w) file_path (rs_body (cx_resp c));
    let w2 := opened w1 file_path in
    let p := cx_resp c in
    let p1 := Resp (rs_status p) (rs_version p) (rs_header p) rd.2 in
    if negb (rd.1 =? kSuccess)%Z then Ok (ctx_set_resp c (resp_not_found p1), w2)
    else
      suffix ← file_suffix file_path;
      let '(type_str, custom) :=
        convert_to_str (w_custom w2) (convert_file_type (w_custom w2) suffix) suffix in
      let h := header_set_content_type_str (header_set_long_connection (rs_header p1) true) type_str in
      Ok (ctx_set_resp c (resp_success0 (Resp (rs_status p1) (rs_version p1) h (rs_body p1))),
          set_custom w2 custom).

(** http_server.cpp:142-180 [HttpGroup::StaticFile] *)
Definition group_StaticFile (alive : U -> bool) (g path file_path : bytes) (filters : list filter_fn)
    (ro : router) :=
  register g path
    (Entry (Some (owned alive (static_file_handler file_path))) true
           (filters ++ [method_filter mGET])) ro.

(** ** Dispatch: http_server.cpp:366-389 *)

(** Lines 374-380 *)
Definition accepts (e : entry) (r : req) : bool := forallb (fun f => f r) (e_filters e).

(** Lines 369-388: the loop over one vector; [false] stops the search. *)
Fixpoint run_vector (v : list entry) (is_end : bool) (st : ctx * world) : outcome ((ctx * world) * bool) :=
  match v with
  | [] => Ok (st, true)
  | e :: v' =>
      if negb is_end && e_exact e then run_vector v' is_end st
      else
        match (if accepts e (cx_req st.1) then e_callback e else None) with
        | None => run_vector v' is_end st
        | Some cb =>
            st' ← cb st.1 st.2;
            if w_running st'.2 then run_vector v' is_end st' else Ok (st', false)
        end
  end.

(** The callback given to Search; [*pdata] of an unknown index cannot happen. *)
Definition dispatch_cb (heap : list (list entry)) (st : ctx * world) (i : nat) (is_end : bool)
    : outcome ((ctx * world) * bool) :=
  match heap !! i with
  | Some v => run_vector v is_end st
  | None => UB
  end.

Definition dispatch (ro : router) (path : bytes) (c : ctx) (w : world) : outcome (ctx * world) :=
  search_node (dispatch_cb (ro_heap ro)) (ro_trie ro) path (c, w).

(** A history of RegisterHandler calls on groups (group route, path, entry). *)
Fixpoint register_all (regs : list (bytes * bytes * entry)) (ro : router) : outcome router :=
  match regs with
  | [] => Ok ro
  | (g, path, e) :: regs' => r ← register g path e ro; register_all regs' r.2
  end.
End router.

Arguments world : clear implicits.
Arguments handler : clear implicits.
Arguments entry : clear implicits.
Arguments router : clear implicits.
