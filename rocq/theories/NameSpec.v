(** Specification vocabulary for names. *)
From Verif Require Import Py NameModel.

(** [c] does not occur in [s] *)
Fixpoint free_of (c : ascii) (s : string) : Prop :=
  match s with EmptyString => True | String d r => d <> c /\ free_of c r end.

(** the name chosen last by calls of one kind *)
Definition chosen_last (kind : naming -> option string) (os : list naming) (n : string) : Prop :=
  exists l o r, os = l ++ o :: r /\ kind o = Some n /\ forall o', In o' r -> kind o' = None.
Definition of_host (o : naming) : option string := match o with NHost n => Some n | _ => None end.
Definition of_process (o : naming) : option string := match o with NProcess n => Some n | _ => None end.
Definition of_thread (tid : N) (o : naming) : option string :=
  match o with NThread k n => if N.eqb k tid then Some n else None | _ => None end.
(** the names of this thread, its process and its host, all three chosen *)
Definition called (os : list naming) (tid : N) (h p t : string) : Prop :=
  chosen_last of_host os h /\ chosen_last of_process os p /\ chosen_last (of_thread tid) os t.
