(** teleprox/client.py 321-426, 588-614, proxy.py 230-347: what the methods of RPCClient and ObjectProxy ask
    for.  Each of them calls [send]; here is the action and the options dict. *)
From Verif Require Import Py ObjTableModel SerModel FrameModel ServerModel ClientModel.

(** the arguments action and opts of client.py 227 [send] *)
Record request := mkReq { rq_action : string; rq_opts : option pyval }.

(** client.py 321-336 *)
Definition rq_call (obj args kwargs : pyval) : request :=
  mkReq "call_obj" (Some (fields [("obj", obj); ("args", args); ("kwargs", kwargs)])).
(** the default values of args and kwargs (client.py 321-336) *)
Definition rq_call_default (obj : pyval) : request := rq_call obj VNone VNone.
(** client.py 338-364: get_obj and transfer *)
Definition rq_get (obj : pyval) : request := mkReq "get_obj" (Some (fields [("obj", obj)])).
(** client.py 366-376 *)
Definition rq_import (name : string) : request := mkReq "import" (Some (fields [("module", VStr name)])).
(** client.py 378-406 *)
Definition rq_delete (p : proxyrec) : request :=
  mkReq "delete" (Some (fields [("obj_id", VInt (p_oid p)); ("ref_id", VInt (p_rid p))])).
(** client.py 408-415 *)
Definition rq_getitem (name : string) : request := mkReq "get_item" (Some (fields [("name", VStr name)])).
(** client.py 417-426 *)
Definition rq_setitem (name : string) (obj : pyval) : request :=
  mkReq "set_item" (Some (fields [("name", VStr name); ("obj", obj)])).
(** client.py 588-593 (ping), 603-614 (close_server) *)
Definition rq_ping : request := mkReq "ping" None.
(** client.py 603-614 [close_server] *)
Definition rq_close : request := mkReq "close" None.

(** proxy.py 289-300 [_deferred_attr]: the attribute is appended, nothing is sent *)
Definition deferred_attr (p : proxyrec) (a : string) : proxyrec :=
  mkP (p_addr p) (p_oid p) (p_rid p) (p_type p) (p_attrs p ++ [a]).
(** p.a.b.c, each step proxy.py 289-300 *)
Fixpoint attr_chain (p : proxyrec) (l : list string) : proxyrec :=
  match l with [] => p | a :: r => attr_chain (deferred_attr p a) r end.
(** proxy.py 302-347 [__call__]: positional arguments as a tuple, keyword arguments as a dict *)
Definition rq_proxy_call (p : proxyrec) (args : list pyval) (kw : list (string * pyval)) : request :=
  rq_call (VProxy p) (VTuple args) (fields kw).
