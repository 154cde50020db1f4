(** What should happen to children. *)
From Verif Require Import Py AtExitModel.
Local Open Scope nat_scope.

(** child [i], not a daemon, that behaves like [b], was started and has not ended in the history *)
Definition still (os : list xop) (i : nat) (b : beh) : Prop :=
  exists l r, os = (l ++ KStart false b :: r)%list /\
    i = List.length (filter (fun o => match o with KStart _ _ => true | _ => false end) l) /\
    ~ In (KEnds i) r.
(** process [i] runs after all *)
Definition runs (l : list kid) (i : nat) : Prop := exists k, nth_error l i = Some k /\ kd_running k = true.
Definition asked (ev : list xev) : list nat := flat_map (fun e => match e with XAsked i => [i] | _ => [] end) ev.
