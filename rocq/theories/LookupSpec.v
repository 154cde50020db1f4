(** How Python itself finds special methods: on the type of the object, with the object as first argument
    (reference manual, 3.3.12). *)
From Verif Require Import Py ObjTableModel SerModel ServerModel ProxyModel ProxySpec LookupModel.
Local Open Scope nat_scope.

(** a dictionary has a name (if twice in the list, the first counts) *)
Inductive binds : ns -> string -> nat -> Prop :=
| bind_here m f d : binds ((m, f) :: d) m f
| bind_later k g d m f : k <> m -> binds d m f -> binds ((k, g) :: d) m f.
(** a name is defined: first definition in the order of classes *)
Inductive defines : list ns -> string -> nat -> Prop :=
| def_here d r m f : binds d m f -> defines (d :: r) m f
| def_later d r m f : ~ In m (map fst d) -> defines r m f -> defines (d :: r) m f.
(** the classes that Python searches for an operator on the object *)
Definition type_of (o : pobj) : list ns := match o with Inst _ mro _ => mro | Cls _ meta => meta end.
(** the operator on the object itself calls [f] *)
Definition python_calls (o : pobj) (m : string) (f : nat) : Prop := defines (type_of o) m f.
(** the call that makes: the object comes first *)
Definition proper (f : nat) (args : list pyval) : inv := mkInv f (None :: map Some args).
(** the object has no attribute of its own of this name: an instance with it in its dictionary, or a class that (or a
    base of which) defines it for its instances *)
Definition shadowed (o : pobj) (m : string) : Prop :=
  match o with Inst own _ _ => In m (map fst own) | Cls mro _ => exists f, defines mro m f end.
Definition printing : list string := ["__repr__"; "__str__"; "__eq__"].
