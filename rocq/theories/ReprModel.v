(** Printing proxies: proxy.py 241-247 [__repr__], 368-372 [__str__].

    Simplified: addresses decode (they come from ZMQ); requests are answered in time. *)
From Verif Require Import Py ObjTableModel SerModel FrameModel ServerModel ProxyModel SyncOpModel.
Local Open Scope string_scope.

(** '.'.join((type_str,) + attributes), proxy.py 243 *)
Fixpoint dotted (t : string) (attrs : list string) : string :=
  match attrs with [] => t | a :: r => dotted (t ++ "." ++ a) r end.
(** proxy.py 246 *)
Definition rep (p : px) (orep : string) : string :=
  "<ObjectProxy for " ++ p_addr (x_rec p) ++ "[" ++ str_of_Z (p_oid (x_rec p)) ++ "] " ++ orep ++ " >".
(** what is done before the text is known: nothing, or a request (proxy.py 242, 369) *)
Inductive shown := Text (s : string) | Ask (x : res sending).
(** self._proxy_options['safe_print'] is True (proxy.py 242, 369) *)
Definition safe (p : px) : bool := match opt p "safe_print" with VBool true => true | _ => false end.
(** proxy.py 241-247, up to the answer *)
Definition repr_start (p : px) : shown :=
  if safe p then Text (rep p (dotted (p_type (x_rec p)) (p_attrs (x_rec p))))
  else Ask (bind (deferred p "__repr__" []) (fun d => Ok (call d [] [("_return_type", VStr "value")]))).
(** proxy.py 368-372, up to the answer *)
Definition str_start (p : px) : shown :=
  if safe p then repr_start p
  else Ask (bind (deferred p "__str__" []) (fun d => Ok (call d [] [("_return_type", VStr "value")]))).
(** repr(p): proxy.py 245-247 with the answer.  [r] is what __repr__ of the object gives, [show] is
    str() of other values (Python's '%s') *)
Definition repr_px (p : px) (show : pyval -> string) (fut : obj) (q : proxyrec) (r : res pyval) : res string :=
  match repr_start p with
  | Text s => Ok s
  | Ask (Err e) => Err e
  | Ask (Ok x) => bind (returned x fut q r) (fun v => Ok (rep p (match v with VStr s => s | _ => show v end)))
  end.
(** str(p): proxy.py 370-372 with the answer; Python raises TypeError when __str__ gives no str *)
Definition str_px (p : px) (fut : obj) (q : proxyrec) (r : res pyval) : res string :=
  match str_start p with
  | Text s => Ok s
  | Ask (Err e) => Err e
  | Ask (Ok x) => bind (returned x fut q r) (fun v => match v with VStr s => Ok s | _ => Err TypeError end)
  end.
