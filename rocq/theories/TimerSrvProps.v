(** Property C128: timers of a server (RPCServer.start_timer). *)
From Verif Require Import Py TimerSrvModel TimerSrvSpec TimerSrvProofs TimerSrvProofs2 TimerSrvProofs3.

(** C128.  The server executes the invocations of the timer in the order in which the timer made
    them: each at most once, none left out. *)
Theorem C128_executed_in_order :
  forall K now ls s, vrun K (tsv0 now) ls = Some s -> exists n, begun (v_log s) = seq 0 n.
Proof. intros K now ls s H. destruct (executed_in_order K now ls s H) as (n & E & _). eauto. Qed.
Print Assumptions C128_executed_in_order.
(** The next invocation is made when the one before has been executed. *)
Theorem C128_one_after_another :
  forall K now ls s t i, vrun K (tsv0 now) ls = Some s -> at_time s t (Sent (S i)) -> exists t0, at_time s t0 (End i) /\ t0 <= t.
Proof. exact one_after_another. Qed.
Print Assumptions C128_one_after_another.
(** An execution begins at least the interval after the timer made the invocation before.
    Missing: after that one began to be executed (refuted below). *)
Theorem C128_spaced_partial :
  forall K now ls s t t' i, vrun K (tsv0 now) ls = Some s ->
  at_time s t (Begin i) -> at_time s t' (Begin (S i)) -> exists t0, at_time s t0 (Sent i) /\ t0 <= t /\ t0 + k_interval K <= t'.
Proof. exact executions_bound. Qed.
Print Assumptions C128_spaced_partial.

(** C128 does not hold: if the server is busy with something else for the interval, two executions
    of the callback begin at the same time. *)
Theorem C128_executions_coincide_refuted :
  forall K now, 0 <= k_interval K <= k_timeout K -> 0 <= k_late K -> (forall m, k_limit K = Some m -> (2 <= m)%nat) -> exists s,
  vrun K (tsv0 now) [VAsk; VTake; VCall; VTick (k_interval K); VDone None; VTake; VDone None; VAnswer; VCall; VTake] = Some s /\
  at_time s (now + k_interval K) (Begin 0) /\ at_time s (now + k_interval K) (Begin 1).
Proof. exact executions_coincide. Qed.
Print Assumptions C128_executions_coincide_refuted.

(** The timer runs until its limit is reached or an invocation fails.  It then makes no more. *)
Theorem C128_over_for_good :
  forall K now ls s t r ls' s', vrun K (tsv0 now) ls = Some s -> at_time s t (Over r) -> vrun K s ls' = Some s' ->
  forall t' i, at_time s' t' (Sent i) -> at_time s t' (Sent i).
Proof. exact over_for_good. Qed.
Print Assumptions C128_over_for_good.
(** No callback has to fail for that: a server that is busy with something else for the timeout of
    the proxy ends the timer, and the invocation is executed nevertheless. *)
Theorem C128_busy_server_ends_it_refuted :
  forall K now d, 0 <= d -> k_timeout K <= d <= k_timeout K + k_late K -> exists s,
  vrun K (tsv0 now) [VAsk; VTake; VCall; VTick d; VGiveUp; VDone None; VTake; VDone None] = Some s /\
  at_time s (now + d) (Over (Some TimeoutError)) /\ at_time s (now + d) (Begin 0) /\ at_time s (now + d) (End 0).
Proof. exact busy_server_ends_it. Qed.
Print Assumptions C128_busy_server_ends_it_refuted.
(** Without exceptions from the callback, that takes the timeout (less one millisecond) at least. *)
Theorem C128_given_up_late_partial :
  forall K now ls s t, vrun K (tsv0 now) ls = Some s -> callback_fine ls -> forall x, at_time s t (Over (Some x)) ->
  x = TimeoutError /\ exists i t0, at_time s t0 (Sent i) /\ t0 + k_timeout K - 1000000 <= t.
Proof. exact given_up_late. Qed.
Print Assumptions C128_given_up_late_partial.
(** and it makes as many invocations as the limit says, if it ends otherwise *)
Theorem C128_limit :
  forall K now ls s t, vrun K (tsv0 now) ls = Some s -> at_time s t (Over None) ->
  exists m, k_limit K = Some m /\ begun (v_log s) = seq 0 (Nat.max 1 m).
Proof. exact limit_reached. Qed.
Print Assumptions C128_limit.

(** It never makes more than that. *)
Theorem C128_never_more :
  forall K now ls s t i m, vrun K (tsv0 now) ls = Some s -> k_limit K = Some m -> at_time s t (Sent i) -> (i < Nat.max 1 m)%nat.
Proof. exact never_more. Qed.
Print Assumptions C128_never_more.
(** An invocation that raises an exception is the last one. *)
Theorem C128_failing_callback_ends_it :
  forall K now ls1 s1 i x ls2 s, vrun K (tsv0 now) ls1 = Some s1 -> v_exec s1 = Some (Mine i) ->
  vrun K s1 (VDone (Some x) :: ls2) = Some s -> forall t j, at_time s t (Sent j) -> (j <= i)%nat.
Proof. exact failing_ends. Qed.
Print Assumptions C128_failing_callback_ends_it.

Example C128_case : let K := mkTc 100 (Some 2%nat) 10000000000 1000000 in let ls := [VCall; VTake; VTick 30; VDone None; VAnswer; VTick 70; VCall; VTick 5; VTake; VDone None; VAnswer] in
  callback_fine ls /\ match vrun K (tsv0 0) ls with None => False | Some s =>
  v_log s = [(0, Sent 0); (0, Begin 0); (30, End 0); (100, Sent 1); (105, Begin 1); (105, End 1); (105, Over None)] /\ vstep K s VCall = None end.
Proof.
  split; [|vm_compute; split; reflexivity]. intros x H. cbn in H. repeat (destruct H as [H|H]; [discriminate H|]). exact H.
Qed.
Example C128_busy_case : let K := mkTc 100 None 10000000000 1000000 in 0 <= 10000500000 /\ k_timeout K <= 10000500000 <= k_timeout K + k_late K /\ 0 <= k_interval K <= k_timeout K.
Proof. cbn. lia. Qed.
Example C128_failing_case : let K := mkTc 100 None 10000000000 1000000 in
  match vrun K (tsv0 0) [VCall; VTake; VDone None; VAnswer; VTick 100; VCall; VTake] with None => False | Some s1 =>
    v_exec s1 = Some (Mine 1) /\ match vrun K s1 [VDone (Some ValueError); VAnswer; VTick 100] with None => False | Some s =>
      v_log s = [(0, Sent 0); (0, Begin 0); (0, End 0); (100, Sent 1); (100, Begin 1); (100, End 1); (100, Over (Some ValueError))] /\
      vstep K s VCall = None end end.
Proof. vm_compute. repeat split; reflexivity. Qed.
