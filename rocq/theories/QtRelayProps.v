(** Properties C52, C53, C93, C94: QtRPCServer. *)
From Verif Require Import Py QtRelayModel QtRelaySpec QtRelayProofs.

(** C52.  While the process runs and requests are well formed: the Qt thread processes
    requests in the order they arrived, each once; replies leave in the order they were
    produced, each once; only what is still queued is missing. *)
Theorem C52_order_and_no_loss :
  forall ls, no_exit ls -> ~ In None (arrived ls) ->
  let s := qrun q0 ls in
  arrived ls = map Some (q_done s ++ q_events s) ++ q_in s /\ produced q0 ls = q_out s ++ q_ret s.
Proof.
  intros ls N W. destruct (relay_inv ls N) as [V _]. cbn zeta. split; [|exact (qi_out _ _ _ V)].
  apply (qi_in _ _ _ V). apply (not_dead _ _ _ V W).
Qed.
Print Assumptions C52_order_and_no_loss.
(** ... and everything queued goes on when the polling thread gets to run *)
Theorem C52_progress :
  forall ls, no_exit ls -> ~ In None (arrived ls) -> exists m, forall m', (m <= m')%nat ->
  let s := qrun q0 (ls ++ repeat QRun m') in
  arrived ls = map Some (q_done s ++ q_events s) /\ produced q0 ls = q_out s.
Proof.
  intros ls N W. destruct (relay_inv ls N) as [V X]. exists (pending (qrun q0 ls)). intros m' L.
  pose proof (not_dead _ _ _ V W) as D.
  assert (WI : ~ In None (q_in (qrun q0 ls))).
  { intros H. apply W. rewrite (qi_in _ _ _ V D). apply in_or_app. right. exact H. }
  cbn zeta. replace (qrun q0 (ls ++ repeat QRun m')) with (qrun (qrun q0 ls) (repeat QRun m')) by (unfold qrun; rewrite fold_left_app; reflexivity).
  destruct (drain m' _ _ _ V X D WI L) as (V' & P & D').
  destruct (pending_0 _ _ _ V' D' P) as [R I]. split.
  - rewrite (qi_in _ _ _ V' D'), I, app_nil_r. reflexivity.
  - rewrite (qi_out _ _ _ V'), R, app_nil_r. reflexivity.
Qed.
Print Assumptions C52_progress.
Example C52_case :
  let ls := [QArrive (Some 1); QArrive (Some 2); QRun; QRun; QRun; QProcess [("a", 1)]; QRun; QRun; QSend ("b", 2); QRun]%nat in
  no_exit ls /\ ~ In None (arrived ls) /\
  q_done (qrun q0 ls) = [1]%nat /\ q_out (qrun q0 (ls ++ repeat QRun 9)) = [("a", 1); ("b", 2)]%nat.
Proof.
  cbn zeta. split; [cbn; intros H; repeat (destruct H as [H|H]; [discriminate|]); exact H|].
  split; [cbn; intros H; repeat (destruct H as [H|H]; [discriminate|]); exact H|]. split; reflexivity.
Qed.

(** C53.  The polling thread never stops, however often stop() is called. *)
Theorem C53_never_stops_refuted :
  forall ls, q_pc (qrun q0 ls) <> QStopped.
Proof.
  intros ls. assert (H : forall ls s, q_pc s <> QStopped -> q_pc (qrun s ls) <> QStopped).
  { clear. induction ls as [|l ls IH]; intros s N; auto. change (qrun s (l :: ls)) with (qrun (qstep s l) ls). apply IH.
    unfold qstep. destruct (q_exit s); auto. destruct l; cbn; auto.
    - unfold qrun1. destruct (q_pc s) as [|[] c|[]| |] eqn:E; cbn; try congruence; destruct (q_ret s) as [|[]], (q_in s) as [|[]]; cbn; congruence.
    - destruct (q_events s); auto. }
  apply H. discriminate.
Qed.
Print Assumptions C53_never_stops_refuted.
(** the request to stop goes out to a client called STOP instead *)
Example C53_case : let s := qrun q0 ([QStop] ++ repeat QRun 5) in q_out s = [("STOP", 0%nat)] /\ q_pc s = QPoll.
Proof. split; reflexivity. Qed.

(** C93.  The process may end before the reply to "close" has left. *)
Theorem C93_reply_lost_at_exit_refuted :
  forall r, exists ls, ~ In None (arrived ls) /\ produced q0 ls = [r] /\ forall more, q_out (qrun q0 (ls ++ more)) = [].
Proof.
  intros r. exists [QArrive (Some 0%nat); QRun; QRun; QRun; QProcess [r]; QExit].
  split; [cbn; intros [H|[]]; discriminate|]. split; [reflexivity|].
  intros more. unfold qrun. rewrite fold_left_app.
  assert (H : forall more s, q_exit s = true -> fold_left qstep more s = s).
  { clear. induction more as [|l m IH]; intros s X; auto. cbn [fold_left]. replace (qstep s l) with s; auto. unfold qstep. rewrite X. reflexivity. }
  rewrite H; reflexivity.
Qed.
Print Assumptions C93_reply_lost_at_exit_refuted.

(** C94.  A message that cannot be read ends the polling thread: nothing is processed
    or sent any more. *)
Theorem C94_malformed_message_stops_server_refuted :
  exists ls, no_exit ls /\ arrived ls = [None] /\
  forall more, q_out (qrun q0 (ls ++ more)) = [] /\ q_done (qrun q0 (ls ++ more)) = [].
Proof.
  exists [QArrive None; QRun; QRun; QRun].
  split; [unfold no_exit; cbn; intros H; repeat (destruct H as [H|H]; [discriminate|]); exact H|]. split; [reflexivity|]. intros more. unfold qrun. rewrite fold_left_app.
  assert (H : forall more s, q_pc s = QDead -> q_events s = [] -> q_out s = [] -> q_done s = [] ->
    let s' := fold_left qstep more s in q_out s' = [] /\ q_done s' = []).
  { clear. induction more as [|l m IH]; intros s A B C D; auto. cbn [fold_left]. apply IH;
      unfold qstep; (destruct (q_exit s); [assumption|]); destruct l; cbn; rewrite ?B; cbn; auto; unfold qrun1; rewrite A; auto. }
  apply H; reflexivity.
Qed.
Print Assumptions C94_malformed_message_stops_server_refuted.
