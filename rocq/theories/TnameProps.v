(** Property C138: thread names in log lines. *)
From Verif Require Import Py TnameModel TnameSpec TnameProofs.
Local Open Scope nat_scope.

(** C138.  If idents are not used again and threads name themselves before they log, each line shows the name
    that its thread had when it logged ... *)
Theorem C138_own_name_partial :
  forall ident os k x, own_idents ident os -> named_first os ->
  In (k, x) (t_out (trun ident tst0 os)) -> exists t l, logged os k t l /\ called t l x.
Proof. exact own_names. Qed.
Print Assumptions C138_own_name_partial.

(** ... but violated: a new thread with the ident of one that has ended is shown with the name of that one,
    though it has no name itself ... *)
Theorem C138_name_of_ended_thread_refuted :
  forall ident os t u n, ident t = ident u -> t <> u -> ~ acts os u ->
  exists w k, let h := (os ++ [TName t n; TLog u])%list in
    logged h k u (os ++ [TName t n]) /\ called u (os ++ [TName t n]) None /\
    In (k, Some n) (t_out (trun ident tst0 (h ++ repeat TWrite w))).
Proof. exact taken. Qed.
Print Assumptions C138_name_of_ended_thread_refuted.

(** ... and a thread that takes another name right after logging is shown with the later name. *)
Theorem C138_later_name_refuted :
  forall ident os t n, ~ called t os (Some n) ->
  exists w k, let h := (os ++ [TLog t; TName t n])%list in
    logged h k t os /\ In (k, Some n) (t_out (trun ident tst0 (h ++ repeat TWrite w))).
Proof. exact renamed. Qed.
Print Assumptions C138_later_name_refuted.

(** threads 1 and 2 with idents of their own; thread 3 has the ident of thread 1 *)
Definition id0 (t : nat) : nat := match t with 3 => 71 | _ => 70 + t end.
Example C138_example :
  t_out (trun id0 tst0 [TName 1 5; TLog 1; TLog 2; TWrite; TWrite]) = [(0, Some 5); (1, None)] /\
  t_out (trun id0 tst0 [TName 1 5; TLog 1; TLog 3; TWrite; TWrite]) = [(0, Some 5); (1, Some 5)] /\
  own_idents id0 [TName 1 5; TLog 1; TLog 2; TWrite; TWrite] /\ named_first [TName 1 5; TLog 1; TLog 2; TWrite; TWrite].
Proof.
  split; [reflexivity|]. split; [reflexivity|]. split.
  - assert (A : forall t, acts [TName 1 5; TLog 1; TLog 2; TWrite; TWrite] t -> t = 1 \/ t = 2).
    { intros t [I|(n & I)]; cbn in I; intuition congruence. }
    intros t u H1 H2 E. apply A in H1. apply A in H2. destruct H1, H2; subst; try reflexivity; discriminate E.
  - intros l t m n r E.
    repeat (destruct l as [|? l]; [try discriminate E; injection E as <- E;
      repeat (destruct m as [|? m]; [discriminate E|injection E as _ E]); destruct m; discriminate E|injection E as _ E]).
    destruct l; discriminate E.
Qed.
