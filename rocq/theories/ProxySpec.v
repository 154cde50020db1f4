(** What using proxies should do. *)
From Verif Require Import Py ObjTableModel SerModel ServerModel ClientModel ApiModel ProxyModel.

(** the options there are *)
Definition option_names : list string :=
  ["sync"; "timeout"; "return_type"; "defer_getattr"; "no_proxy_types"; "auto_delete"; "safe_print"].

(** the value a keyword argument list gives to a name *)
Fixpoint given (kw : list (string * pyval)) (k : string) : option pyval :=
  match kw with [] => None | (k', v) :: r => if String.eqb k' k then Some v else given r k end.
Definition or_else (o : option pyval) (v : pyval) : pyval := match o with Some x => x | None => v end.

(** proxies as programs make them: received (with options), options changed, attributes taken *)
Inductive made : px -> Prop :=
| made_new r kw p : p_attrs r = [] -> NoDup (map fst kw) -> make r kw = Ok p -> made p
| made_set p kw p' : made p -> NoDup (map fst kw) -> set_options p kw = (p', Ok tt) -> made p'
| made_attr p a kw q : made p -> NoDup (map fst kw) -> deferred p a kw = Ok q -> made q.

(** the operators proxies have, by the names of their methods ([==] is apart) *)
Definition operators : list string :=
  ["__getitem__"; "__setitem__"; "__setattr__"; "__len__"; "__add__"; "__sub__"; "__div__"; "__truediv__";
   "__floordiv__"; "__mul__"; "__pow__"; "__iadd__"; "__isub__"; "__idiv__"; "__itruediv__"; "__ifloordiv__";
   "__imul__"; "__ipow__"; "__rshift__"; "__lshift__"; "__irshift__"; "__ilshift__"; "__ne__"; "__lt__";
   "__gt__"; "__le__"; "__ge__"; "__and__"; "__or__"; "__xor__"; "__iand__"; "__ior__"; "__ixor__";
   "__mod__"; "__radd__"; "__rsub__"; "__rdiv__"; "__rfloordiv__"; "__rtruediv__"; "__rmul__"; "__rpow__";
   "__rrshift__"; "__rlshift__"; "__rand__"; "__ror__"; "__rxor__"; "__rmod__"].

(** the attribute [m] of what [p] stands for *)
Definition attribute (p : proxyrec) (m : string) : proxyrec :=
  mkP (p_addr p) (p_oid p) (p_rid p) (p_type p) (p_attrs p ++ [m]).

(** names of the keyword arguments that are for the proxy and not for the call *)
Definition call_option (k : string) : bool := String.eqb k "_sync" || String.eqb k "_return_type" || String.eqb k "_timeout".

(** proxies that are attributes of other proxies never have auto_delete *)
Definition careful (s : lst) (o : lop) : Prop :=
  match o with
  | LRecv ref => (forall x, In x (ls_live s) -> l_ref x <> ref) /\ ~ In ref (ls_log s)   (* reference IDs are new *)
  | LAuto i true => forall x, lfind (ls_live s) i = Some x -> l_parent x = None
  | LAttr i => forall x, lfind (ls_live s) i = Some x -> l_auto x = false
  | _ => True
  end.
Fixpoint careful_run (s : lst) (l : list lop) : Prop :=
  match l with [] => True | o :: r => careful s o /\ careful_run (lstep s o) r end.

(** the program can still reach a proxy: it holds it, or something it can reach was
    made as an attribute of it *)
Inductive in_use (s : lst) : lp -> Prop :=
| use_held x : l_held x = true -> in_use s x
| use_child x y : In y (ls_live s) -> l_parent y = Some (l_id x) -> in_use s y -> in_use s x.
