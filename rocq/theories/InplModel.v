(** In-place operators on proxies ([p += v]): proxy.py 359-513, server.py 345-361 (call_obj) and
    272-310 (the result by value or by proxy), client.py 548-557.

    Simplified: objects have a class and a number as their state, the other operand is a number that
    has no reflected method for the object; the proxy's sync option is 'sync'. *)
From Verif Require Import Py ServerModel ProxyModel.
Local Open Scope nat_scope.

(** what a special method does (user code): changes its object and returns it, returns a new object,
    returns NotImplemented, raises (of the method that proxy.py 398-471 call remotely) *)
Inductive mres := Self (c : Z) | New (k : nat) (c : Z) | NotImpl | Raises (e : exn).
(** classes: their special methods, and whether their instances are sent by value (serializer.py 39-55) *)
Record classes := mkW { w_meth : nat -> string -> option (Z -> Z -> mres); w_sent : nat -> bool }.
(** the objects of a process, by number: class and state
    (objects of the server's process that proxy.py 398-471 act on) *)
Definition objs := list (nat * Z).
(** object i gets a new state (user code called by server.py 355) *)
Fixpoint set_obj (h : objs) (i : nat) (x : nat * Z) : objs :=
  match h, i with
  | [], _ => []
  | _ :: r, O => x :: r
  | y :: r, S j => y :: set_obj r j x
  end.
(** getattr(o_i, m)(v), as by server.py 348-360: None is NotImplemented *)
Definition call_method (W : classes) (h : objs) (i : nat) (m : string) (v : Z) : objs * res (option nat) :=
  match nth_error h i with
  | None => (h, Err KeyError)
  | Some (k, c) =>
      match w_meth W k m with
      | None => (h, Err AttributeError)
      | Some f =>
          match f c v with
          | Self c' => (set_obj h i (k, c'), Ok (Some i))
          | New k' c' => (h ++ [(k', c')], Ok (Some (List.length h)))%list
          | NotImpl => (h, Ok None)
          | Raises e => (h, Err e)
          end
      end
  end.

(** what a name of the client can stand for (client.py 548-557, serializer.py 185-194): a proxy to object j, a proxy to NotImplemented, a copy *)
Inductive holder := HProxy (j : nat) | HNot | HCopy (k : nat) (c : Z).
(** the remote call p.a(v) (proxy.py 302-347, server.py 272-310), with the proxy's return_type 'proxy' or 'auto' *)
Definition remote (W : classes) (h : objs) (by_proxy : bool) (i : nat) (a : string) (v : Z) : objs * res holder :=
  let '(h1, r) := call_method W h i a v in
  (h1, match r with
       | Err e => Err (RemoteCallException (exn_name e))
       | Ok None => Ok HNot                                   (* not of a serializable type *)
       | Ok (Some j) =>
           match nth_error h1 j with
           | Some (k, c) => if by_proxy || negb (w_sent W k) then Ok (HProxy j) else Ok (HCopy k c)
           | None => Err KeyError
           end
       end).
(** the names of the methods of an operator (proxy.py 359-513) *)
Definition iname (op : string) : string := "__i" ++ op ++ "__".
(** the plain method, proxy.py 377-396, 455-474 *)
Definition bname (op : string) : string := "__" ++ op ++ "__".
(** p op= v, the forwarding of proxy.py 379-513 (Python's protocol for a class that may define the in-place method or only the ordinary one) *)
Definition proxy_iop (W : classes) (h : objs) (by_proxy : bool) (op : string) (i : nat) (v : Z) : objs * res holder :=
  match assoc special (iname op) with
  | Some a => remote W h by_proxy i a v
  | None =>
      match assoc special (bname op) with
      | Some a => remote W h by_proxy i a v
      | None => (h, Err TypeError)
      end
  end.
