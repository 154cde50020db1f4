(** What Python makes of the result of a special method of a proxy, which depends on the proxy's options
    sync and return_type: proxy.py 340-347, 359-513, client.py 283-319, server.py 301-305.

    Simplified: requests are sent and answered in time; what the special method of the object gives is a
    value of a type that is sent by value, or an exception. *)
From Verif Require Import Py ObjTableModel SerModel ServerModel ProxyModel.
Local Open Scope nat_scope.

(** what the special method of the proxy returns: client.py 283-319 ([fut] is the Future that is made),
    server.py 301-305 ([q] is the proxy that is made for the result), client.py 548-557.  [r] is what
    the method of the object gives *)
Definition returned (x : sending) (fut : obj) (q : proxyrec) (r : res pyval) : res pyval :=
  match sn_sync x with
  | VStr "off" => Ok VNone
  | VStr "async" => Ok (VObj fut)
  | VStr "sync" =>
      match r, sn_rt x with
      | Ok _, VStr "proxy" => Ok (VProxy q)
      | Ok v, _ => Ok v
      | Err e, _ => Err (RemoteCallException (exn_name e))
      end
  | _ => Err ValueError
  end.
(** bool(v) for the values that comparisons give (Python): a Future defines nothing for it
    (client.py 647-676), a proxy asks for __len__ (proxy.py 374-375), which no bool has *)
Definition condition (v : pyval) : res bool :=
  match v with
  | VNone => Ok false
  | VBool b => Ok b
  | VInt z => Ok (negb (Z.eqb z 0))
  | VProxy _ => Err (RemoteCallException "AttributeError")
  | _ => Ok true
  end.
(** len(v) of what __len__ gives (Python) (proxy.py 374-375) *)
Definition length_of (v : pyval) : res Z :=
  match v with
  | VInt z => if Z.ltb z 0 then Err ValueError else Ok z
  | VBool b => Ok (if b then 1 else 0)%Z
  | _ => Err TypeError
  end.
(** if p.m(args): a comparison (proxy.py 440-453) as a condition *)
Definition test (p : px) (m : string) (args : list pyval) (fut : obj) (q : proxyrec) (r : res pyval) : res bool :=
  match operate p m args with
  | None => Err TypeError
  | Some (Err e) => Err e
  | Some (Ok x) => bind (returned x fut q r) condition
  end.
(** len(p) (proxy.py 374-375) *)
Definition len (p : px) (fut : obj) (q : proxyrec) (r : res pyval) : res Z :=
  match operate p "__len__" [] with
  | None => Err TypeError
  | Some (Err e) => Err e
  | Some (Ok x) => bind (returned x fut q r) length_of
  end.
(** p[i] in a loop over p (proxy.py 359-360, see C71) *)
Definition item_of (p : px) (fut : nat -> obj) (q : nat -> proxyrec) (item : nat -> res pyval) (i : nat) : res pyval :=
  match operate p "__getitem__" [VInt (Z.of_nat i)] with
  | None => Err TypeError
  | Some (Err e) => Err e
  | Some (Ok x) => returned x (fut i) (q i) (item i)
  end.
