(** What a log server should pass on. *)
From Verif Require Import Py LogStopModel.
Local Open Scope nat_scope.

(** the messages that arrived, in order *)
Definition arrived (es : list lev) : list lmsg := flat_map (fun e => match e with Arrives m => [m] | _ => [] end) es.
(** those that should be passed on *)
Definition wanted (filtering : bool) (level : Z) (l : list lmsg) : list nat :=
  flat_map (fun m => match m with Rec k id => if filtering then (if (level <=? k)%Z then [id] else []) else [id] | Junk => [] end) l.
Definition turns (es : list lev) : nat := List.length (filter (fun e => match e with Thread => true | _ => false end) es).
Definition proper (es : list lev) : Prop := ~ In (Arrives Junk) es.
Definition unstopped (es : list lev) : Prop := ~ In Stop es.
