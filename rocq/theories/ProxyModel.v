(** ObjectProxy on the client's side: teleprox/proxy.py 83-147, 161-355, 359-513. *)
From Verif Require Import Py ObjTableModel SerModel FrameModel ServerModel ClientModel ApiModel.

(** proxy.py 83-114: what a proxy knows.  [_client_] and [_server_] are caches of
    get_client / get_server (RegistryModel). *)
Inductive px := Px (r : proxyrec) (opts : dict string pyval) (parent : option px).
(** attributes of proxy.py 91-114 *)
Definition x_rec (p : px) : proxyrec := let '(Px r _ _) := p in r.
(** attributes of proxy.py 91-114 *)
Definition x_opts (p : px) : dict string pyval := let '(Px _ o _) := p in o.
(** attributes of proxy.py 91-114 *)
Definition x_parent (p : px) : option px := let '(Px _ _ q) := p in q.

(** proxy.py 104-114.  The list of types is one opaque value. *)
Definition default_options : dict string pyval :=
  [("sync", VStr "sync"); ("timeout", VInt 10); ("return_type", VStr "auto"); ("defer_getattr", VBool true);
   ("no_proxy_types", VNone); ("auto_delete", VBool false); ("safe_print", VBool true)].

(** self._proxy_options[k], proxy.py 104-113 *)
Definition opt (p : px) (k : string) : pyval := match dget (x_opts p) k with Some v => v | None => VNone end.

(** dict.update (dict.update, proxy.py 228) *)
Fixpoint update (d : dict string pyval) (kw : list (string * pyval)) : dict string pyval :=
  match kw with [] => d | (k, v) :: r => update (dset d k v) r end.
(** proxy.py 161-228 [_set_proxy_options]: first a loop over all names, then the update *)
Definition set_options (p : px) (kw : list (string * pyval)) : px * res unit :=
  if existsb (fun e => negb (dmem (x_opts p) (fst e))) kw then (p, Err KeyError)
  else (Px (x_rec p) (update (x_opts p) kw) (x_parent p), Ok tt).
(** proxy.py 83-89 [__init__] *)
Definition make (r : proxyrec) (kw : list (string * pyval)) : res px :=
  let '(p, o) := set_options (Px r default_options None) kw in bind o (fun _ => Ok p).
(** proxy.py 289-300 [_deferred_attr] *)
Definition deferred (p : px) (a : string) (kw : list (string * pyval)) : res px :=
  bind (make (deferred_attr (x_rec p) a) (update (x_opts p) kw))
       (fun q => Ok (Px (x_rec q) (x_opts q) (Some p))).

(** A request together with how it is sent (client.py 220-319) *)
Record sending := mkSending { sn_req : request; sn_sync : pyval; sn_rt : pyval; sn_timeout : pyval }.

(** kwargs.pop(k, default) (kwargs.pop(k, d), proxy.py 346) *)
Fixpoint kwpop (kw : list (string * pyval)) (k : string) (d : pyval) : pyval * list (string * pyval) :=
  match kw with
  | [] => (d, [])
  | (k', v) :: r => if String.eqb k' k then (v, r) else let '(x, r') := kwpop r k d in (x, (k', v) :: r')
  end.
(** proxy.py 302-347 [__call__] *)
Definition call (p : px) (args : list pyval) (kw : list (string * pyval)) : sending :=
  let '(sync, kw1) := kwpop kw "_sync" (opt p "sync") in
  let '(rt, kw2) := kwpop kw1 "_return_type" (opt p "return_type") in
  let '(tm, kw3) := kwpop kw2 "_timeout" (opt p "timeout") in
  mkSending (rq_proxy_call (x_rec p) args kw3) sync rt tm.

(** client.py 283-319 with the values of sync and return_type as given: any other
    value of sync counts as not 'off', and is refused only after sending; a
    return_type that is not a str has no encode() *)
Definition send_as (V : venv) (k : cl) (x : sending) : cl * option msg * res (option Z) :=
  let sync := match sn_sync x with
              | VStr "sync" => Sync | VStr "async" => Async | VStr "off" => Off | _ => BadSync end in
  match sn_rt x with
  | VStr rt => send V k (rq_action (sn_req x)) (rq_opts (sn_req x)) rt sync
  | _ =>
      if c_disc k then (k, None, Err RuntimeError)
      else
        let k1 := match sync with Off => k | _ => set_next k (c_next k + 1) end in
        match rq_opts (sn_req x) with
        | None => (k1, None, Err AttributeError)
        | Some v => let '(st', r) := dumps V (c_ser k1) (c_local k1) (c_st k1) v in
                    (set_cst k1 st', None, bind r (fun _ => Err AttributeError))
        end
  end.

(** proxy.py 271-287 [__getattr__], 249-256 [_undefer]: a proxy, or a request for the value *)
Inductive got := GProxy (q : px) | GSend (x : sending) | GErr (e : exn).
(** proxy.py 271-287 *)
Definition getattribute (p : px) (a : string) : got :=
  match deferred p a [] with
  | Err e => GErr e
  | Ok q => match opt p "defer_getattr" with
            | VBool true => GProxy q
            | _ => GSend (mkSending (rq_get (VProxy (x_rec q))) (VStr "sync") (VStr "auto") (VInt 10))
            end
  end.

(** proxy.py 359-513: the special methods that are forwarded, with the name of the
    attribute they call *)
Definition special : list (string * string) :=
  [("__getitem__", "__getitem__"); ("__setitem__", "__setitem__"); ("__setattr__", "__setattr__");
   ("__len__", "__len__"); ("__add__", "__add__"); ("__sub__", "__sub__"); ("__div__", "__div__");
   ("__truediv__", "__truediv__"); ("__floordiv__", "__floordiv__"); ("__mul__", "__mul__"); ("__pow__", "__pow__");
   ("__iadd__", "__iadd__"); ("__isub__", "__isub__"); ("__idiv__", "__idiv__"); ("__itruediv__", "__itruediv__");
   ("__ifloordiv__", "__ifloordiv__"); ("__imul__", "__imul__"); ("__ipow__", "__ipow__");
   ("__rshift__", "__rshift__"); ("__lshift__", "__lshift__"); ("__irshift__", "__irshift__");
   ("__ilshift__", "__ilshift__"); ("__ne__", "__ne__"); ("__lt__", "__lt__"); ("__gt__", "__gt__");
   ("__le__", "__le__"); ("__ge__", "__ge__"); ("__and__", "__and__"); ("__or__", "__or__"); ("__xor__", "__xor__");
   ("__iand__", "__iand__"); ("__ior__", "__ior__"); ("__ixor__", "__ixor__"); ("__mod__", "__mod__");
   ("__radd__", "__radd__"); ("__rsub__", "__rsub__"); ("__rdiv__", "__rdiv__"); ("__rfloordiv__", "__rfloordiv__");
   ("__rtruediv__", "__rtruediv__"); ("__rmul__", "__rmul__"); ("__rpow__", "__rpow__");
   ("__rrshift__", "__rrshift__"); ("__rlshift__", "__rlshift__"); ("__rand__", "__rand__"); ("__ror__", "__ror__");
   ("__rxor__", "__ror__"); ("__rmod__", "__rmod__")].

(** a method of the class is found by its name (library), proxy.py 359-513 *)
Fixpoint assoc (l : list (string * string)) (k : string) : option string :=
  match l with [] => None | (a, b) :: r => if String.eqb a k then Some b else assoc r k end.
(** type(p).m(p, args) (proxy.py 359-513) *)
Definition operate (p : px) (m : string) (args : list pyval) : option (res sending) :=
  match assoc special m with
  | None => None
  | Some a => Some (bind (deferred p a []) (fun q => Ok (call q args [])))
  end.

(** proxy.py 431-438 [__eq__]: [inl] is an answer without asking the server *)
Definition equals (p : px) (v : pyval) : bool + res sending :=
  match v with
  | VProxy q => if String.eqb (p_addr q) (p_addr (x_rec p)) && Z.eqb (p_oid q) (p_oid (x_rec p)) then inl true
                else inr (bind (deferred p "__eq__" []) (fun d => Ok (call d [v] [])))
  | _ => inr (bind (deferred p "__eq__" []) (fun d => Ok (call d [v] [])))
  end.
(** proxy.py 349-355 [__hash__] of the tuple *)
Definition hash_key (p : px) : string * Z * list string := (p_addr (x_rec p), p_oid (x_rec p), p_attrs (x_rec p)).

(** proxy.py 139-147 [_copy]: the new proxy and the requests that are sent.  For
    a proxy with a parent, [self._parent_proxy.copy] is an attribute proxy that is
    called, and the assignment calls __setattr__ of the remote object. *)
Definition copy (p : px) (reply : pyval) : res (px * list sending) :=
  bind (make (x_rec p) (x_opts p)) (fun q =>
    match x_parent p with
    | None => Ok (q, [])
    | Some b =>
        bind (deferred b "copy" []) (fun c =>
        bind (deferred q "__setattr__" []) (fun s =>
          Ok (q, [call c [] []; call s [VStr "_parent_proxy"; reply] []])))
    end).

(** *** Collection of proxies (CPython: at once, when the last reference is gone) *)
Record lp := mkL { l_id : nat; l_ref : Z * Z; l_auto : bool; l_parent : option nat; l_held : bool }.
(** the proxies that exist in a process, and what proxy.py 258-269 sent *)
Record lst := mkLst { ls_live : list lp; ls_next : nat; ls_log : list (Z * Z) (* delete requests sent *) }.
(** the proxies that exist in a process, and what proxy.py 258-269 sent *)
Definition lst0 : lst := mkLst [] 0 [].
(** the proxies that exist in a process; proxy.py 289-300 keeps the parent *)
Fixpoint lfind (l : list lp) (i : nat) : option lp :=
  match l with [] => None | x :: r => if Nat.eqb (l_id x) i then Some x else lfind r i end.
(** the proxies that exist in a process; proxy.py 289-300 keeps the parent *)
Definition lremove (l : list lp) (i : nat) : list lp := filter (fun x => negb (Nat.eqb (l_id x) i)) l.
(** the proxies that exist in a process; proxy.py 289-300 keeps the parent *)
Definition lset (l : list lp) (y : lp) : list lp := map (fun x => if Nat.eqb (l_id x) (l_id y) then y else x) l.
(** the proxies that exist in a process; proxy.py 289-300 keeps the parent *)
Definition has_child (l : list lp) (i : nat) : bool :=
  existsb (fun x => match l_parent x with Some q => Nat.eqb q i | None => false end) l.
(** proxy.py 258-269 [_delete], [__del__]; then the parent may be free *)
Fixpoint collect (n : nat) (s : lst) (i : nat) : lst :=
  match n with
  | O => s
  | S n =>
      match lfind (ls_live s) i with
      | None => s
      | Some x =>
          if l_held x || has_child (ls_live s) i then s
          else
            let s' := mkLst (lremove (ls_live s) i) (ls_next s)
                            (if l_auto x then ls_log s ++ [l_ref x] else ls_log s) in
            match l_parent x with Some q => collect n s' q | None => s' end
      end
  end.
(** proxies come (proxy.py 83-114, 289-300) and go (258-269) *)
Inductive lop :=
| LRecv (ref : Z * Z)            (* a proxy arrives *)
| LAuto (i : nat) (b : bool)     (* _set_proxy_options(auto_delete=b) *)
| LAttr (i : nat)                (* p.attr; the options are copied, the parent is kept alive *)
| LDrop (i : nat).               (* the program forgets the proxy *)
Definition lstep (s : lst) (o : lop) : lst :=
  match o with
  | LRecv ref => mkLst (mkL (ls_next s) ref false None true :: ls_live s) (S (ls_next s)) (ls_log s)
  | LAuto i b =>
      match lfind (ls_live s) i with
      | None => s
      | Some x => mkLst (lset (ls_live s) (mkL i (l_ref x) b (l_parent x) (l_held x))) (ls_next s) (ls_log s)
      end
  | LAttr i =>
      match lfind (ls_live s) i with
      | None => s
      | Some x => mkLst (mkL (ls_next s) (l_ref x) (l_auto x) (Some i) true :: ls_live s) (S (ls_next s)) (ls_log s)
      end
  | LDrop i =>
      match lfind (ls_live s) i with
      | None => s
      | Some x => collect (S (List.length (ls_live s)))
                    (mkLst (lset (ls_live s) (mkL i (l_ref x) (l_auto x) (l_parent x) false)) (ls_next s) (ls_log s)) i
      end
  end.
(** proxies come (proxy.py 83-114, 289-300) and go (258-269) *)
Definition lrun (s : lst) (l : list lop) : lst := fold_left lstep l s.

(** *** Iteration.  Python's protocol for a class without __iter__ (library
    behaviour): p[0], p[1], ... until IndexError or StopIteration. *)
Fixpoint py_iter (item : nat -> res pyval) (n i : nat) : list pyval * option (res unit) :=
  match n with
  | O => ([], None)                       (* not finished after n steps *)
  | S n =>
      match item i with
      | Ok v => let '(l, o) := py_iter item n (S i) in (v :: l, o)
      | Err (UserExc "IndexError") | Err StopIterationError => ([], Some (Ok tt))
      | Err e => ([], Some (Err e))
      end
  end.
(** client.py 548-557: what the caller of a remote call sees *)
Definition at_client (r : res pyval) : res pyval :=
  match r with Ok v => Ok v | Err e => Err (RemoteCallException (exn_name e)) end.

(** *** Python's protocols (library behaviour) around the special methods *)
(** v is NotImplemented (CPython, for proxy.py 377-513) *)
Definition val_is (ni v : pyval) : bool :=
  match ni, v with VObj a, VObj b => Nat.eqb a b | _, _ => false end.
(** l + r: the left operand's method; if that gives NotImplemented, the right
    operand's reflected method; TypeError if that does too.  == ends in [False] instead
    (CPython, for proxy.py 377-513) *)
Definition py_binop (ni : pyval) (left right : res pyval) : bool -> res pyval := fun is_eq =>
  match left with
  | Ok v => if val_is ni v
            then match right with
                 | Ok w => if val_is ni w then (if is_eq then Ok (VBool false) else Err TypeError) else Ok w
                 | Err e => Err e
                 end
            else Ok v
  | Err e => Err e
  end.
(** bool(x), where [len] is what x.__len__() gives, if there is such a method
    (neither proxies nor the objects considered here define __bool__) (CPython bool(p), for proxy.py 374) *)
Definition py_truth (len : option (res pyval)) : res bool :=
  match len with
  | None => Ok true
  | Some (Ok (VInt n)) => if Z.ltb n 0 then Err ValueError else Ok (negb (Z.eqb n 0))
  | Some (Ok _) => Err TypeError
  | Some (Err e) => Err e
  end.
