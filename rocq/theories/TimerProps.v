(** Properties C38, C39, C40, C74, C75, C76, C77, C124: Timer. *)
From Verif Require Import Py TimerModel TimerSpec TimerProofs TimerProofs2 TimerProofs3.

(** one call of start(), and the thread up to the point where it looks at [running] *)
Definition boot : list tlab := [TStart 0; TCheck 0; TGo 0; TRun None; TRun None].

(** C38.  Calls are spaced by the interval, counted from the time [d] at which the
    thread decided to make the first of them: any number of calls later, as long as
    start() is not called.  So two calls are at least interval - (b - d) apart.
    Missing: spacing from the beginning [b] of the call itself (refuted below). *)
Theorem C38_calls_are_spaced_partial :
  forall interval limit ls l0 d l1 b l2 b2 l3,
  t_log (trun interval limit timer0 ls) = l0 ++ EDecide d :: l1 ++ EBegin b :: l2 ++ EBegin b2 :: l3 ->
  none_of is_begin l1 -> none_of is_start (l1 ++ l2) ->
  d <= b /\ d + (begins l2 + 1) * interval <= b2.
Proof. exact spacing. Qed.
Print Assumptions C38_calls_are_spaced_partial.
(** every call is preceded by such a decision *)
Theorem C38_every_call_is_decided :
  forall interval limit ls l b l3, t_log (trun interval limit timer0 ls) = l ++ EBegin b :: l3 ->
  exists l0 d l1, l = l0 ++ EDecide d :: l1 /\ none_of is_begin l1 /\ d <= b.
Proof. exact begin_decided. Qed.
Print Assumptions C38_every_call_is_decided.

(** C38 does not hold: whenever the thread is held up for the interval or longer between
    noting the time and calling, two calls begin at the same time. *)
Theorem C38_calls_can_coincide_refuted :
  forall interval limit s l, t_th s = At PBegin -> t_running s = true -> t_last s = Some l -> l + interval <= t_now s ->
  (forall m, limit = Some m -> t_count s + 1 < m) ->
  t_log (trun interval limit s (runs 8)) = t_log s ++ [EBegin (t_now s); EDecide (t_now s); EBegin (t_now s)].
Proof. exact coincide. Qed.
Print Assumptions C38_calls_can_coincide_refuted.
Example C38_held_up_case : forall interval, 0 <= interval ->
  let s := trun interval None timer0 (boot ++ [TRun None; TTick interval]) in
  t_th s = At PBegin /\ t_running s = true /\ t_last s = Some 0 /\ 0 + interval <= t_now s /\
  t_log s = [EStart; EStarted 0 (Ok tt); EDecide 0].
Proof. intros iv Hi. apply Z.leb_le in Hi. cbn. rewrite Hi. cbn. repeat split; lia. Qed.

Example C38_case :
  t_log (trun 10 None timer0 (boot ++ runs 7 ++ [TTick 4] ++ runs 2 ++ [TTick 11] ++ runs 3)) =
    [EStart; EStarted 0 (Ok tt)] ++ EDecide 0 :: [] ++ EBegin 0 :: [EDecide 15] ++ EBegin 15 :: [].
Proof. vm_compute. reflexivity. Qed.

(** C39.  After start(), at most [m] calls. *)
Theorem C39_at_most_limit :
  forall interval m ls l1 l2, 1 <= m ->
  t_log (trun interval (Some m) timer0 ls) = l1 ++ EStart :: l2 -> none_of is_start l2 -> begins l2 <= m.
Proof.
  intros iv m ls l1 l2 Hm E N. pose proof (limited iv (Some m) m eq_refl ls l1 l2 E N). lia.
Qed.
Print Assumptions C39_at_most_limit.
Example C39_case : exists l2,
  t_log (trun 0 (Some 2) timer0 (boot ++ runs 3 ++ [TStart 1; TCheck 1] ++ runs 40)) =
    [EStart; EStarted 0 (Ok tt); EDecide 0; EBegin 0] ++ EStart :: l2 /\ none_of is_start l2 /\ begins l2 = 1.
Proof. eexists. split; [vm_compute; reflexivity|]. split; [|reflexivity]. cbn. intros e H. repeat (destruct H as [<-|H]; [reflexivity|]). destruct H. Qed.

(** C74 does not hold: limit=0 (or less) calls once. *)
Theorem C74_limit_zero_calls_refuted :
  forall m, m <= 0 -> exists ls, begins (t_log (trun 0 (Some m) timer0 ls)) = 1 /\ t_th (trun 0 (Some m) timer0 ls) = Dead.
Proof.
  intros m Hm. exists (boot ++ runs 5). cbn. assert (E : (m <=? 1) = true) by (apply Z.leb_le; lia). rewrite E. split; reflexivity.
Qed.
Print Assumptions C74_limit_zero_calls_refuted.

(** C75.  Started once, not stopped, and without exceptions, a timer only ends after
    exactly as many calls as its limit says. *)
Theorem C75_exactly_limit_calls :
  forall interval limit ls, starts_in ls = 1%nat -> no_stop ls -> nothing_raises ls ->
  t_th (trun interval limit timer0 ls) = Dead ->
  exists m, limit = Some m /\ begins (t_log (trun interval limit timer0 ls)) = Z.max 1 m.
Proof. exact exact_count. Qed.
Print Assumptions C75_exactly_limit_calls.
Example C75_case : let ls := boot ++ runs 9 ++ [TTick 10] ++ runs 40 in
  starts_in ls = 1%nat /\ no_stop ls /\ nothing_raises ls /\ t_th (trun 10 (Some 2) timer0 ls) = Dead /\
  begins (t_log (trun 10 (Some 2) timer0 ls)) = 2.
Proof.
  split; [reflexivity|]. split; [|split; [|split; vm_compute; reflexivity]].
  - cbn. intros H. repeat (destruct H as [H|H]; [discriminate H|]). exact H.
  - intros e. cbn. intros H. repeat (destruct H as [H|H]; [discriminate H|]). exact H.
Qed.

(** The count begins anew with each start(), if the thread is then waiting for its next
    call: again exactly as many calls as the limit says. *)
Theorem C75_exactly_limit_calls_again :
  forall interval limit s i ls, waiting_to_call s -> dget (t_calls s) i = None -> no_stop ls -> no_start ls -> nothing_raises ls ->
  t_th (trun interval limit s (TStart i :: ls)) = Dead ->
  exists m l, limit = Some m /\ t_log (trun interval limit s (TStart i :: ls)) = t_log s ++ EStart :: l /\ begins l = Z.max 1 m.
Proof. exact exact_again. Qed.
Print Assumptions C75_exactly_limit_calls_again.
Example C75_again_case : let s := trun 0 (Some 3) timer0 (boot ++ runs 4) in
  waiting_to_call s /\ begins (t_log s) = 1 /\ begins (t_log (trun 0 (Some 3) s (TStart 1 :: runs 40))) = 4 /\
  t_th (trun 0 (Some 3) s (TStart 1 :: runs 40)) = Dead.
Proof. vm_compute. auto. Qed.

(** C40, stop().  After stop() at most one call begins, one that was decided before,
    until start() is called.  Missing: that one (refuted below). *)
Theorem C40_at_most_one_call_after_stop_partial :
  forall interval limit ls l1 l2, t_log (trun interval limit timer0 ls) = l1 ++ EStop :: l2 -> none_of is_start l2 ->
  none_of is_decide l2 /\ begins l2 <= 1.
Proof. exact after_stop. Qed.
Print Assumptions C40_at_most_one_call_after_stop_partial.
(** and none if the thread was not just about to call *)
Theorem C40_no_call_after_stop_partial :
  forall interval limit ls ls', t_th (trun interval limit timer0 ls) <> At PBegin ->
  forall l2, t_log (trun interval limit timer0 (ls ++ TStop :: ls')) = t_log (trun interval limit timer0 ls) ++ EStop :: l2 ->
  none_of is_start l2 -> begins l2 = 0.
Proof. exact after_stop_clean. Qed.
Print Assumptions C40_no_call_after_stop_partial.
(** C40, start().  When the thread is waiting for the next call (or was never
    started), then after start(), if nobody calls stop(), start() or raises: the
    thread has called, or is still about to; *)
Theorem C40_started_timer_calls_partial :
  forall interval limit s i ls, waiting_to_call s -> dget (t_calls s) i = None -> no_stop ls -> no_start ls ->
  let s' := trun interval limit s (TStart i :: ls) in
  exists l, t_log s' = t_log s ++ EStart :: l /\
    (existsb is_begin l = true \/ existsb is_raised l = true \/
     t_running s' = true /\ t_last s' = None /\ waiting_to_call s' \/ t_th s' = At PBegin).
Proof. exact started_calls. Qed.
Print Assumptions C40_started_timer_calls_partial.
(** and from there it does call, given time *)
Theorem C40_gets_there :
  forall interval limit s, (t_running s = true /\ t_last s = None /\ waiting_to_call s /\ t_th s <> NotYet) \/ t_th s = At PBegin ->
  exists ls, (forall l, In l ls -> l = TRun None \/ exists d, l = TTick d) /\
    exists l, t_log (trun interval limit s ls) = t_log s ++ l /\ existsb is_begin l = true.
Proof. exact gets_there. Qed.
Print Assumptions C40_gets_there.

Theorem C40_call_after_stop_refuted :
  forall interval limit, exists ls l1 l2,
    t_log (trun interval limit timer0 ls) = l1 ++ EStop :: l2 /\ none_of is_start l2 /\ begins l2 = 1.
Proof.
  intros iv lim. exists (boot ++ [TRun None; TStop; TRun None]), [EStart; EStarted 0 (Ok tt); EDecide 0], [EBegin 0].
  split; [reflexivity|]. split; [|reflexivity]. intros e [<-|[]]; reflexivity.
Qed.
Print Assumptions C40_call_after_stop_refuted.
(** start() returns normally while the thread, which has seen stop() or is ending for
    another reason, ends; the callback is never called again. *)
Theorem C40_start_without_effect_refuted :
  forall interval limit s i, t_th s = At PFin -> dget (t_calls s) i = None ->
  let s' := trun interval limit s [TStart i; TCheck i; TRun None] in
  t_log s' = t_log s ++ [EStart; EStarted i (Ok tt); EDead] /\ t_th s' = Dead /\
  forall ls, begins (t_log (trun interval limit s' ls)) = begins (t_log s).
Proof. exact without_effect. Qed.
Print Assumptions C40_start_without_effect_refuted.
Example C40_ending_case : forall interval limit,
  let s := trun interval limit timer0 (boot ++ [TStop; TRun None]) in t_th s = At PFin /\ dget (t_calls s) 1%nat = None.
Proof. intros iv lim. split; reflexivity. Qed.

Example C40_case :
  let s := trun 10 None timer0 (boot ++ runs 8) in
  waiting_to_call s /\ dget (t_calls s) 1%nat = None /\
  t_log (trun 10 None s ([TStart 1; TTick 10] ++ runs 4)) = t_log s ++ EStart :: [EDecide 10; EBegin 10].
Proof. vm_compute. auto. Qed.

(** C76 does not hold: start() on a running timer can end it.  The thread reads the
    time of the last call twice. *)
Theorem C76_start_ends_running_timer_refuted :
  forall interval, 0 < interval -> exists ls s i ls',
    s = trun interval None timer0 ls /\ t_running s = true /\ no_stop (ls ++ TStart i :: ls') /\ nothing_raises (ls ++ TStart i :: ls') /\
    t_th s <> Dead /\ t_th (trun interval None s (TStart i :: ls')) = Dead /\
    In (EStarted i (Ok tt)) (t_log (trun interval None s (TStart i :: ls'))) /\
    In (ERaised TypeError) (t_log (trun interval None s (TStart i :: ls'))).
Proof.
  intros iv Hi. exists (boot ++ runs 6). eexists. exists 1%nat, [TCheck 1; TRun None; TRun None].
  split; [reflexivity|]. split; [reflexivity|]. split; [|split].
  - cbn. intros H. repeat (destruct H as [H|H]; [discriminate H|]). exact H.
  - intros e. cbn. intros H. repeat (destruct H as [H|H]; [discriminate H|]). exact H.
  - split; [discriminate|]. split; [reflexivity|]. vm_compute. auto 20.
Qed.
Print Assumptions C76_start_ends_running_timer_refuted.
Example C76_case : 0 < 1. Proof. reflexivity. Qed.

(** C77 does not hold: a timer that has ended cannot be started again. *)
Theorem C77_no_restart_refuted :
  forall interval limit s i, t_th s = Dead -> dget (t_calls s) i = None ->
  let s' := trun interval limit s [TStart i; TCheck i; TGo i] in
  In (EStarted i (Err RuntimeError)) (t_log s') /\ t_th s' = Dead.
Proof.
  intros iv lim s i D C. cbn. rewrite C. cbn. rewrite dget_dset_same. cbn. rewrite D. cbn.
  rewrite dget_dset_same. cbn. split; [|reflexivity]. apply in_or_app. right. now left.
Qed.
Print Assumptions C77_no_restart_refuted.
Example C77_case : let s := trun 10 (Some 1) timer0 (boot ++ runs 5) in
  t_th s = Dead /\ dget (t_calls s) 0%nat = None.
Proof. vm_compute. auto. Qed.

(** C124.  An exception in the callback ends the timer: nothing is called after it, whoever
    calls start(); *)
Theorem C124_no_call_after_exception :
  forall interval limit ls e l1 l2, t_log (trun interval limit timer0 ls) = l1 ++ ERaised e :: l2 ->
  none_of is_begin l2 /\ none_of is_decide l2 /\ none_of is_raised l2.
Proof. exact no_call_after_exception. Qed.
Print Assumptions C124_no_call_after_exception.
(** the thread ends as soon as it runs on; *)
Theorem C124_exception_ends_thread :
  forall interval limit s e ls1 e1 ls2, t_th s = At PIn ->
  let s' := trun interval limit s (TRun (Some e) :: ls1 ++ TRun e1 :: ls2) in
  t_th s' = Dead /\ exists r, t_log s' = t_log s ++ ERaised e :: r /\ In EDead r.
Proof. exact exception_ends. Qed.
Print Assumptions C124_exception_ends_thread.
(** and [running] is False from the end of the thread on, unless start() is called. *)
Theorem C124_ended_is_not_running :
  forall interval limit ls l1 l2, t_log (trun interval limit timer0 ls) = l1 ++ EDead :: l2 -> none_of is_start l2 ->
  t_running (trun interval limit timer0 ls) = false.
Proof. exact dead_not_running. Qed.
Print Assumptions C124_ended_is_not_running.
Example C124_case :
  let s := trun 5 None timer0 (boot ++ runs 2) in
  t_th s = At PIn /\ t_running s = true /\
  let s' := trun 5 None s [TRun (Some ValueError); TStart 3; TCheck 3; TRun None; TTick 9; TRun None] in
  t_log s' = [EStart; EStarted 0 (Ok tt); EDecide 0; EBegin 0; ERaised ValueError; EStart; EStarted 3 (Ok tt); EDead] /\
  t_running s' = false.
Proof. vm_compute. auto. Qed.
