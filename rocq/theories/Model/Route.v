(** Model of src/cppnet/http/req/route/http_route.cpp.
    Simplification: [err_msg_] is not modelled (it is written, never read, by
    the class). *)
From Verif.Model Require Export Const StringUtil.

Local Open Scope N_scope.

(** http_route.hpp:67-70, the members of [HttpRoute]. *)
Record route : Type := Route { rt_path : bytes; rt_params : smap }.
Definition route_new : route := Route [] ∅.

(** http_route.cpp:27-35: key and value of one '&'-separated piece. *)
Definition route_param (it : bytes) : outcome (bytes * bytes) :=
  let pos := str_find it (B "=") 0 in
  if pos =? npos then Ok (it, [])
  else
    key ← substr it 0 pos;
    v ← substr_from it (szadd pos 1);
    Ok (key, url_decode v).

(** http_route.cpp:26-37: the loop over the pieces; [params_[key] = value]. *)
Fixpoint route_params (m : smap) (l : list bytes) : outcome smap :=
  match l with
  | [] => Ok m
  | it :: l' => kv ← route_param it; route_params (<[kv.1 := kv.2]> m) l'
  end.

(** http_route.cpp:8-41 [HttpRoute::Parse].  Line 14 stores the result of find
    in an int; it is converted back to size_t when compared with npos (line 15)
    and when passed to substr (lines 21 and 38). *)
Definition route_parse (r : route) (u : bytes) : outcome (Z * route) :=
  match u with
  | [] => Ok (kLogicErr, r)
  | _ =>
      let param_start := to_int32 (Z.of_N (str_find u (B "?") 0)) in
      if int_to_size param_start =? npos then Ok (kSuccess, Route u (rt_params r))
      else
        p1 ← int_succ param_start;
        origin_param ← substr_from u (int_to_size p1);
        single ← str_split origin_param (B "&") [] false;
        m ← route_params (rt_params r) single;
        path ← substr u 0 (int_to_size param_start);
        Ok (kSuccess, Route path m)
  end.

(** http_route.cpp:43-49 [HttpRoute::GetParam]. *)
Definition route_get_param (r : route) (k : bytes) : bytes := default [] (rt_params r !! k).

(** http_route.cpp:51-53 [HttpRoute::AddParam]. *)
Definition route_add_param (r : route) (k v : bytes) : route :=
  Route (rt_path r) (<[k := v]> (rt_params r)).

(** http_route.hpp:36 [HttpRoute::SetPath]. *)
Definition route_set_path (r : route) (p : bytes) : route := Route p (rt_params r).

(** std::string::pop_back (undefined on an empty string, which line 62 never is). *)
Definition pop_back (s : bytes) : bytes := removelast s.

(** http_route.cpp:59-61: the text appended for the parameters. *)
Definition params_text (l : list (bytes * bytes)) : bytes :=
  flat_map (fun kv => kv.1 ++ B "=" ++ kv.2 ++ B "&") l.

(** http_route.cpp:55-66 [HttpRoute::ToString]; [it] is the iteration order. *)
Definition route_to_string (it : iter_order) (r : route) : bytes :=
  url_encode
    (if decide (rt_params r = ∅) then rt_path r
     else pop_back (rt_path r ++ B "?" ++ params_text (it (rt_params r)))).

(** http_route.cpp:68-71 [HttpRoute::Clear]. *)
Definition route_clear (r : route) : route := Route [] ∅.
