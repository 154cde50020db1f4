(** What log messages should say. *)
From Verif Require Import Py LogArgModel.
Local Open Scope nat_scope.

(** objects after a history *)
Fixpoint objects (f : nat -> Z) (os : list aop) : nat -> Z :=
  match os with
  | [] => f
  | ASet c v :: r => objects (fun x => if Nat.eqb x c then v else f x) r
  | _ :: r => objects f r
  end.
(** message [i] of the history was about the value [v] when it was logged *)
Definition about (f : nat -> Z) (os : list aop) (i : nat) (v : Z) : Prop :=
  exists l a r, os = (l ++ ALog a :: r)%list /\
    i = List.length (filter (fun o => match o with ALog _ => true | _ => false end) l) /\
    v = match a with Const z => z | Ref c => objects f l c end.
(** objects that were logged are not changed afterwards *)
Definition unchanged (os : list aop) : Prop :=
  forall l c m v r, os <> (l ++ ALog (Ref c) :: m ++ ASet c v :: r)%list.
