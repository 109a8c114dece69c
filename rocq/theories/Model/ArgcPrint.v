(** Model of what demo/util/argc_deal.cpp prints: MsgPrint.

    The order in which the elements of the unordered_map are visited is not specified: it is
    a parameter of [msg_print]. *)
From Verif.Model Require Export ArgcDeal.
From Verif.Model Require Import Socket.

(** printf's %-32s: a C string, filled up with spaces on the right *)
Definition fmt_32 (s : bytes) : bytes := let t := cstr s in t ++ repeat SP (32 - length t).
(** argc_deal.cpp:57 and 59-60 *)
Definition option_line (k v : bytes) : bytes := ["009"%char] ++ B "--" ++ fmt_32 k ++ [SP] ++ fmt_32 v ++ [LF].
(** argc_deal.cpp:52-54 *)
Definition usage_line (u : bytes) : bytes := ["009"%char] ++ cstr u ++ [LF].
(** argc_deal.cpp:48-62; [name], [version] and [usage] are the members of app, [entries] the
    elements of message_ as they are visited *)
Definition msg_print (name version : bytes) (usage : list bytes) (entries : list (bytes * bytes)) : bytes :=
  B "app name:" ++ [LF] ++ ["009"%char] ++ cstr name ++ B "  " ++ cstr version ++ [LF] ++
  B "usage:" ++ [LF] ++ concat (map usage_line usage) ++
  B "options:" ++ [LF] ++ concat (map (λ e, option_line e.1 e.2) entries) ++
  option_line (B "help,-h") (B "get help of app,no must") ++
  option_line (B "version,-v") (B "get version of app,no must").
(** What MsgPrint may print. *)
Definition prints {F} (name version : bytes) (usage : list bytes) (a : argc_deal F) (out : bytes) : Prop :=
  ∃ entries, entries ≡ₚ map_to_list (ad_message a) ∧ out = msg_print name version usage entries.
