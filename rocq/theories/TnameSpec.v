(** What thread names in log lines should be. *)
From Verif Require Import Py TnameModel.
Local Open Scope nat_scope.

(** the name a thread has given itself in a history *)
Inductive called (t : nat) : list top -> option nat -> Prop :=
| called_none os : (forall n, ~ In (TName t n) os) -> called t os None
| called_last l n r : (forall m, ~ In (TName t m) r) -> called t (l ++ TName t n :: r) (Some n).
(** the thread that logged message [k], and the history before it *)
Definition logged (os : list top) (k t : nat) (l : list top) : Prop :=
  exists r, os = (l ++ TLog t :: r)%list /\
    k = List.length (filter (fun o => match o with TLog _ => true | _ => false end) l).
(** the threads that do something in a history *)
Definition acts (os : list top) (t : nat) : Prop := In (TLog t) os \/ exists n, In (TName t n) os.
(** no ident is used for two threads *)
Definition own_idents (ident : nat -> nat) (os : list top) : Prop :=
  forall t u, acts os t -> acts os u -> ident t = ident u -> t = u.
(** threads name themselves before they log *)
Definition named_first (os : list top) : Prop :=
  forall l t m n r, os <> (l ++ TLog t :: m ++ TName t n :: r)%list.
