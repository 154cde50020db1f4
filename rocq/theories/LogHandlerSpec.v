(** What the log handler should do. *)
From Verif Require Import Py LogHandlerModel.
From Coq Require Export Sorting.Permutation Sorting.Sorted.

(** records given to the handler *)
Fixpoint emitted (ls : list hlab) : list lrec :=
  match ls with [] => [] | HEmit r :: t => r :: emitted t | _ :: t => emitted t end.
Definition no_exit (ls : list hlab) : Prop := ~ In HFlush ls /\ ~ In HExit ls.

(** every record reaches the handler less than [delay] after it was created; [t] is the time *)
Fixpoint prompt (delay t : Z) (ls : list hlab) : Prop :=
  match ls with
  | [] => True
  | HTick d :: r => prompt delay (t + Z.max 0 d) r
  | HEmit x :: r => t - delay < r_created x /\ prompt delay t r
  | _ :: r => prompt delay t r
  end.
Definition older (a b : lrec) : Prop := r_created a <= r_created b.

Definition being_written (s : hst) : list lrec := match h_poll s with PWrite l => l | _ => [] end.
Definition being_flushed (s : hst) : list lrec := match h_flush s with Some l => l | None => [] end.

(** [a] can be got from [b] by leaving some out *)
Inductive subseq {A} : list A -> list A -> Prop :=
| ss_nil : subseq [] []
| ss_skip x a b : subseq a b -> subseq a (x :: b)
| ss_take x a b : subseq a b -> subseq (x :: a) (x :: b).
(** those created at time [t] *)
Definition at_time (t : Z) (l : list lrec) : list lrec := filter (fun r => r_created r =? t) l.
