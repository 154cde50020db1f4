(** Specification vocabulary for printing. *)
From Verif Require Import Py ObjTableModel SerModel ServerModel ProxyModel ReprModel.

(** the character [c] does not occur in [s] *)
Fixpoint lacks (c : ascii) (s : string) : Prop :=
  match s with EmptyString => True | String d r => d <> c /\ lacks c r end.
(** printing asks nobody *)
Definition local (x : shown) : Prop := match x with Text _ => True | Ask _ => False end.
(** [s] says that it is a proxy, and shows [t] *)
Definition proxy_text (s t : string) : Prop := exists a, s = ("<ObjectProxy for " ++ a ++ " " ++ t ++ " >")%string.
