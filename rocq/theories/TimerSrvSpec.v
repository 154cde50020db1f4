(** Specification vocabulary for timers of a server. *)
From Verif Require Import Py TimerSrvModel.

(** event [e] happened at time [t] *)
Definition at_time (s : tsv) (t : Z) (e : sev) : Prop := In (t, e) (v_log s).
(** the numbers of the calls that the server began to execute, in order *)
Fixpoint begun (l : list (Z * sev)) : list nat :=
  match l with
  | [] => []
  | (_, Begin i) :: r => i :: begun r
  | _ :: r => begun r
  end.
(** the callback never raises an exception *)
Definition callback_fine (ls : list tlabel) : Prop := forall x, ~ In (VDone (Some x)) ls.
