(** Property C145: stopping a log server. *)
From Verif Require Import Py LogStopModel LogStopSpec LogStopProofs.
Local Open Scope nat_scope.

(** C145.  At any time the records passed on are those that should be among the first that arrived, in order, each
    once ... *)
Theorem C145_in_order :
  forall filtering level es, exists a b, arrived es = (a ++ b)%list /\ v_passed (vrun filtering level lsrv0 es) = wanted filtering level a.
Proof. exact in_order. Qed.
Print Assumptions C145_in_order.

(** ... all of them, if the server is not stopped, gets nothing but records, and its thread gets its turns ... *)
Theorem C145_all_passed_partial :
  forall filtering level es, proper es -> unstopped es ->
  v_passed (vrun filtering level lsrv0 (es ++ repeat Thread (2 * List.length (arrived es)))%list) = wanted filtering level (arrived es).
Proof. exact all_passed. Qed.
Print Assumptions C145_all_passed_partial.

(** ... after stop() at most one more record is passed on, and the thread closes the socket and finishes ... *)
Theorem C145_at_most_one_more :
  forall filtering level es es', exists l,
  v_passed (vrun filtering level lsrv0 (es ++ Stop :: es')%list) = (v_passed (vrun filtering level lsrv0 es) ++ l)%list /\ List.length l <= 1.
Proof. exact at_most_one. Qed.
Print Assumptions C145_at_most_one_more.
Theorem C145_finishes_partial :
  forall filtering level es es', proper (es ++ es')%list -> unstopped es -> 2 <= turns es' ->
  let s := vrun filtering level lsrv0 (es ++ Stop :: es')%list in v_place s = Finished /\ v_closed s = true.
Proof. exact closes. Qed.
Print Assumptions C145_finishes_partial.

(** ... but violated: records that had arrived before stop() are dropped ... *)
Theorem C145_waiting_dropped_refuted :
  forall filtering level ms es, (forall e, In e es -> e = Thread) ->
  v_passed (vrun filtering level lsrv0 (map Arrives ms ++ Stop :: es)%list) = [].
Proof. exact waiting_lost. Qed.
Print Assumptions C145_waiting_dropped_refuted.

(** ... and a message that is not JSON ends the thread: nothing is passed on any more, stop() does not close the
    socket. *)
Theorem C145_junk_ends_it_refuted :
  forall filtering level es es', proper es -> unstopped es ->
  let s := vrun filtering level lsrv0 (es ++ repeat Thread (2 * List.length (arrived es)) ++ [Arrives Junk; Thread; Thread] ++ es')%list in
  v_passed s = wanted filtering level (arrived es) /\ v_closed s = false.
Proof. exact junk_ends. Qed.
Print Assumptions C145_junk_ends_it_refuted.

(** two records, one below the level; stopped in the middle *)
Definition some : list lev := [Arrives (Rec 20 1); Thread; Arrives (Rec 10 2); Thread; Arrives (Rec 30 3)].
Example C145_example :
  proper some /\ unstopped some /\
  v_passed (vrun true 20 lsrv0 (some ++ repeat Thread 6)%list) = [1; 3] /\ v_passed (vrun false 20 lsrv0 (some ++ repeat Thread 6)%list) = [1; 2; 3] /\
  v_passed (vrun true 20 lsrv0 (some ++ Stop :: repeat Thread 6)%list) = [1] /\
  v_passed (vrun true 20 lsrv0 [Arrives (Rec 20 1); Thread; Stop; Thread; Thread]) = [1] /\
  v_passed (vrun true 20 lsrv0 ([Arrives Junk; Thread; Thread] ++ some ++ repeat Thread 6)%list) = [].
Proof. split; [intro I; cbn in I; intuition congruence|]. split; [intro I; cbn in I; intuition congruence|]. repeat split. Qed.
