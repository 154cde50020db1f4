(** What a timer should do, in terms of what happened and when. *)
From Verif Require Import Py TimerModel.

Definition is_start (e : tev) : bool := match e with EStart => true | _ => false end.
Definition is_stop (e : tev) : bool := match e with EStop => true | _ => false end.
Definition is_begin (e : tev) : bool := match e with EBegin _ => true | _ => false end.
Definition is_decide (e : tev) : bool := match e with EDecide _ => true | _ => false end.
Definition is_raised (e : tev) : bool := match e with ERaised _ => true | _ => false end.
(** number of times the callback was called *)
Definition begins (l : list tev) : Z := Z.of_nat (List.length (filter is_begin l)).
Definition none_of (f : tev -> bool) (l : list tev) : Prop := forall e, In e l -> f e = false.

Definition starts_in (ls : list tlab) : nat :=
  List.length (filter (fun l => match l with TStart _ => true | _ => false end) ls).
Definition no_stop (ls : list tlab) : Prop := ~ In TStop ls.
Definition no_start (ls : list tlab) : Prop := forall i, ~ In (TStart i) ls.
Definition nothing_raises (ls : list tlab) : Prop := forall e, ~ In (TRun (Some e)) ls.
(** the thread is not started yet, or on its way to the next call *)
Definition waiting_to_call (s : timer) : Prop :=
  match t_th s with NotYet | At PEntry | At PTest | At (PDoze _) | At (PSleep _) | At PTake => True | _ => False end.
(** the thread takes n steps, nothing raises *)
Definition runs (n : nat) : list tlab := repeat (TRun None) n.
