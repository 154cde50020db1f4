(** Property C137: what log messages say. *)
From Verif Require Import Py LogArgModel LogArgSpec LogArgProofs.
Local Open Scope nat_scope.

(** C137.  If no object is changed after it was logged, every line says what was logged ... *)
Theorem C137_says_what_was_logged_partial :
  forall f os i v, unchanged os -> In (i, v) (a_out (arun (ast0 f) os)) -> about f os i v.
Proof. exact says. Qed.
Print Assumptions C137_says_what_was_logged_partial.

(** ... but violated: an object that is changed right after it was logged is shown as it is when the line
    is written, in whatever situation. *)
Theorem C137_shows_later_value_refuted :
  forall f os c v, v <> objects f os c ->
  exists n i, let h := (os ++ [ALog (Ref c); ASet c v])%list in
    In (i, v) (a_out (arun (ast0 f) (h ++ repeat AWrite n))) /\ about f h i (objects f os c) /\ ~ about f h i v.
Proof. exact refuted. Qed.
Print Assumptions C137_shows_later_value_refuted.

(** logger.info("%s", 5); x = [0]; logger.info("%s", x); x[0] = 3, then both lines are written *)
Example C137_example :
  a_out (arun (ast0 (fun _ => 0%Z)) [ALog (Const 5); ALog (Ref 1); ASet 1 3; AWrite; AWrite]) = [(0, 5%Z); (1, 3%Z)] /\
  a_out (arun (ast0 (fun _ => 0%Z)) [ASet 1 3; ALog (Const 5); ALog (Ref 1); ASet 2 4; AWrite; AWrite]) = [(0, 5%Z); (1, 3%Z)] /\
  unchanged [ASet 1 3; ALog (Const 5); ALog (Ref 1); ASet 2 4; AWrite; AWrite].
Proof.
  split; [reflexivity|]. split; [reflexivity|]. intros l c m v r E.
  repeat (destruct l as [|? l]; [try discriminate E; injection E as <- E;
    repeat (destruct m as [|? m]; [discriminate E|injection E as _ E]); destruct m; discriminate E|injection E as _ E]).
  destruct l; discriminate E.
Qed.
