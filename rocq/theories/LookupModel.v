(** Which method an operator on a proxy calls: proxy.py 241-247, 289-300, 359-513 (the method's name is
    an attribute of the proxy), server.py 225-226 (getattr on the object), 352-361 (the call).

    Simplified: what dictionaries of objects and classes hold under the names of special methods are
    plain Python functions, numbered (no properties, staticmethods, or slots); the request arrives and
    its arguments are unpacked. *)
From Verif Require Import Py ObjTableModel SerModel ServerModel ProxyModel.
Local Open Scope nat_scope.

(** the dictionary of an object or a class: names and functions (Python; searched by server.py 226) *)
Definition ns := list (string * nat).
(** d.get(name) (Python; searched by server.py 226) *)
Fixpoint in_ns (d : ns) (m : string) : option nat :=
  match d with [] => None | (k, f) :: r => if String.eqb k m then Some f else in_ns r m end.
(** the classes of a method resolution order, in order (Python; searched by server.py 226) *)
Fixpoint in_mro (c : list ns) (m : string) : option nat :=
  match c with [] => None | d :: r => match in_ns d m with Some f => Some f | None => in_mro r m end end.
(** the objects that proxies stand for (server.py 225-226): instances, with their own dictionary, their class's
    order and __getattr__ if it has one; and classes, with their own order and their metaclass's *)
Inductive pobj := Inst (own : ns) (mro : list ns) (hook : string -> option nat) | Cls (mro : list ns) (meta : list ns).
(** a call: function and arguments, [None] being the object itself (server.py 352-361) *)
Record inv := mkInv { v_fn : nat; v_args : list (option pyval) }.
(** what getattr(obj, name) gives: a function, bound to the object or not (server.py 226) *)
Inductive found := Bound (f : nat) | Free (f : nat).
(** getattr(obj, name), server.py 226 (Python's rules for functions, which are not data descriptors) *)
Definition get_attribute (o : pobj) (m : string) : res found :=
  match o with
  | Inst own mro hook =>
      match in_ns own m with
      | Some f => Ok (Free f)
      | None => match in_mro mro m with
                | Some f => Ok (Bound f)
                | None => match hook m with Some f => Ok (Free f) | None => Err AttributeError end
                end
      end
  | Cls mro meta =>
      match in_mro mro m with
      | Some f => Ok (Free f)
      | None => match in_mro meta m with Some f => Ok (Bound f) | None => Err AttributeError end
      end
  end.
(** the name that the proxy's method asks for: proxy.py 359-513; 241-247 and 368-372 with safe_print
    False; 431-438 when it is not the same object *)
Definition forwarded (m : string) : option string :=
  if String.eqb m "__repr__" then Some "__repr__"
  else if String.eqb m "__str__" then Some "__str__"
  else if String.eqb m "__eq__" then Some "__eq__"
  else assoc special m.
(** the call of what was found, server.py 355 *)
Definition calls_it (x : found) (args : list pyval) : inv :=
  match x with Bound f => mkInv f (None :: map Some args) | Free f => mkInv f (map Some args) end.
(** an operator on a proxy to [o]: the call in the server, or what the client raises (client.py 548-557);
    Python raises TypeError for operators that proxies do not define *)
Definition by_proxy (o : pobj) (m : string) (args : list pyval) : res inv :=
  match forwarded m with
  | None => Err TypeError
  | Some a => match get_attribute o a with
              | Ok x => Ok (calls_it x args)
              | Err e => Err (RemoteCallException (exn_name e))
              end
  end.
