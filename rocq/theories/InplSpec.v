(** Specification vocabulary for in-place operators: what [x op= v] does in the process of the object
    (The Python Language Reference, 3.3.8): the in-place method if the class has one and it does not
    return NotImplemented, else the ordinary method. *)
From Verif Require Import Py ServerModel ProxyModel InplModel.
Local Open Scope nat_scope.

Definition object_iop (W : classes) (h : objs) (op : string) (i : nat) (v : Z) : objs * res nat :=
  let ordinary h :=
    match nth_error h i with
    | None => (h, Err KeyError)
    | Some (k, _) =>
        match w_meth W k (bname op) with
        | None => (h, Err TypeError)
        | Some _ => match call_method W h i (bname op) v with
                    | (h1, Ok (Some j)) => (h1, Ok j)
                    | (h1, Ok None) => (h1, Err TypeError)
                    | (h1, Err e) => (h1, Err e)
                    end
        end
    end in
  match nth_error h i with
  | None => (h, Err KeyError)
  | Some (k, _) =>
      match w_meth W k (iname op) with
      | None => ordinary h
      | Some _ => match call_method W h i (iname op) v with
                  | (h1, Ok (Some j)) => (h1, Ok j)
                  | (h1, Ok None) => ordinary h1
                  | (h1, Err e) => (h1, Err e)
                  end
      end
  end.
(** the operators with an in-place form that Python 3 has and proxies forward *)
Definition inplace_ops : list string :=
  ["add"; "sub"; "mul"; "truediv"; "floordiv"; "pow"; "lshift"; "rshift"; "and"; "or"; "xor"]%string.
(** object i supports op= itself *)
Definition supports (W : classes) (h : objs) (op : string) (i : nat) (v : Z) : Prop :=
  exists k c f, nth_error h i = Some (k, c) /\ w_meth W k (iname op) = Some f /\ f c v <> NotImpl.
(** the object in hand is not of a type that is sent by value *)
Definition kept_remote (W : classes) (h : objs) (j : nat) : Prop := forall k c, nth_error h j = Some (k, c) -> w_sent W k = false.
(** the same, for the name: the proxy to the object, or the exception as the caller sees it *)
Definition as_seen (r : res nat) : res holder :=
  match r with Ok j => Ok (HProxy j) | Err e => Err (RemoteCallException (exn_name e)) end.
(** [p op= v] again: on a copy it is a local operation that no server sees *)
Definition name_iop (W : classes) (h : objs) (by_proxy : bool) (op : string) (p : holder) (v : Z) : objs * res holder :=
  match p with
  | HProxy i => proxy_iop W h by_proxy op i v
  | HNot => (h, Err (RemoteCallException "AttributeError"))
  | HCopy k c => match object_iop W [(k, c)] op 0 v with
                 | (h1, Ok j) => match nth_error h1 j with Some (k', c') => (h, Ok (HCopy k' c')) | None => (h, Err KeyError) end
                 | (_, Err e) => (h, Err e)
                 end
  end.
