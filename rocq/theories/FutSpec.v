(** Specification vocabulary for futures. *)
From Verif Require Import Py ObjTableModel SerModel FrameModel ServerModel ClientModel FutModel.
Local Open Scope nat_scope.

(** how often callback [cb] was added to future [rid], and how often it was called for it *)
Definition is_add (rid : Z) (cb : nat) (e : fev) : bool := match e with FAdded r c => Z.eqb r rid && Nat.eqb c cb | _ => false end.
Definition is_call (rid : Z) (cb : nat) (e : fev) : bool := match e with FCalled r c _ => Z.eqb r rid && Nat.eqb c cb | _ => false end.
Definition added (rid : Z) (cb : nat) (l : list fev) : nat := List.length (filter (is_add rid cb) l).
Definition called (rid : Z) (cb : nat) (l : list fev) : nat := List.length (filter (is_call rid cb) l).
(** what exception() of a completed future has to return *)
Definition as_exception (o : outcome) : option exn := match o with Ok _ => None | Err e => Some e end.
