(** What the choice of a Qt library should be. *)
From Verif Require Import Py QtUtilModel.

(** something of this library has been imported in the process *)
Definition loaded (mods : list (string * string)) (lib : string) : Prop :=
  exists sub, In sub ["QtCore"; "QtGui"; "QtWidgets"] /\ In (lib, sub) mods.
(** all of the library can be imported *)
Definition works (e : env) (lib : string) : Prop := forall sub, In sub ["QtCore"; "QtGui"; "QtWidgets"] -> e lib sub = true.
Definition full (lib : string) : ns := (lib, ["QtCore"; "QtGui"; "QtWidgets"]).
(** the first of a list with a property *)
Definition first_of {A} (P : A -> Prop) (l : list A) (x : A) : Prop :=
  exists a b, l = a ++ x :: b /\ P x /\ forall y, In y a -> ~ P y.
(** the documented order *)
Definition documented : list string := ["PyQt6"; "PySide6"; "PyQt5"; "PySide2"].
(** user code importing modules *)
Definition users (us : list (string * string)) : list uop := map (fun m => UUser (fst m) (snd m)) us.
(** [lib] is used, and a request for another one refused *)
Definition chosen (lib : string) (q : option string) : res ns :=
  match q with Some l => if String.eqb l lib then Ok (full lib) else Err ValueError | None => Ok (full lib) end.
