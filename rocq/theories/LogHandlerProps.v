(** Properties C41, C42, C78, C79: RPCLogHandler. *)
From Verif Require Import Py LogHandlerModel LogHandlerSpec LogHandlerProofs.
Local Open Scope Z_scope.

(** C41. *)
Theorem C41_sorted_by_creation :
  forall delay color ls, no_exit ls -> prompt delay 0 ls -> StronglySorted older (h_out (hrun delay color ls)).
Proof. exact sorted_out. Qed.
Print Assumptions C41_sorted_by_creation.
(** (and they are written: a record that is old enough is, once the polling thread comes around) *)
Theorem C41_old_records_get_written :
  forall delay color ls r, no_exit ls -> let s := hrun delay color ls in h_poll s = PIdle -> In r (h_recs s) ->
  r_created r < h_now s - delay -> color = false \/ 0 <= r_level r < 60 ->
  exists n, In r (h_out (fold_left (hstep delay color) ([HLimit; HCollect] ++ repeat HWrite n) s)).
Proof. intros delay color ls r N s P I L F. apply old_written; auto. apply formats_level, F. Qed.
Print Assumptions C41_old_records_get_written.
(** records created at the same time are written in the order in which they arrived *)
Theorem C41_ties_in_order :
  forall delay color ls t, no_exit ls -> subseq (at_time t (h_out (hrun delay color ls))) (at_time t (emitted ls)).
Proof. intros delay color ls t. exact (ties_kept delay color t ls). Qed.
Print Assumptions C41_ties_in_order.

Definition late : list hlab :=
  [HTick 10; HEmit (mkR 1 9 20); HTick 1; HEmit (mkR 2 8 40); HEmit (mkR 3 9 30); HTick 5; HLimit; HEmit (mkR 4 13 20); HCollect;
   HWrite; HEmit (mkR 5 12 20); HWrite; HWrite; HWrite; HTick 5; HLimit; HCollect; HWrite; HWrite].
Example C41_case : no_exit late /\ prompt 5 0 late /\ map r_id (h_out (hrun 5 true late)) = [2; 1; 3; 5; 4]%nat /\
  map r_id (at_time 9 (emitted late)) = [1; 3]%nat.
Proof.
  split; [split; intros H; cbn in H; repeat (destruct H as [H|H]; [discriminate H|]); exact H|].
  split; [vm_compute; repeat split|vm_compute; auto].
Qed.

(** C42.  Until the process is gone, every record is written, or printed as an error
    of formatting, or being written, or waiting: exactly one of these. *)
Theorem C42_every_record_once :
  forall delay color ls, let s := hrun delay color ls in h_exit s = false ->
  Permutation (emitted ls) (h_out s ++ h_bad s ++ being_written s ++ being_flushed s ++ h_recs s).
Proof. exact kept. Qed.
Print Assumptions C42_every_record_once.
(** At exit: all are written if the polling thread is not writing and nothing was
    emitted after flush_records began.  Missing: other exits (refuted below). *)
Theorem C42_all_written_at_exit_partial :
  forall delay color ls, let s := hrun delay color ls in h_exit s = false ->
  h_flush s = Some [] -> being_written s = [] -> h_recs s = [] -> Permutation (emitted ls) (h_out s ++ h_bad s).
Proof.
  intros delay color ls s X F W R. pose proof (kept delay color ls X) as P. fold s in P.
  unfold being_flushed in P. rewrite F, W, R in P. rewrite !app_nil_r in P. exact P.
Qed.
Print Assumptions C42_all_written_at_exit_partial.

(** the polling thread holds records that flush_records does not see *)
Theorem C42_lost_at_exit_refuted :
  forall delay color r, exists ls ls', ls = [HEmit r] ++ ls' /\ emitted ls = [r] /\ h_exit (hrun delay color ls) = true /\
    h_out (hrun delay color ls) = [] /\ h_bad (hrun delay color ls) = [].
Proof.
  intros delay color r. set (t := Z.max 0 (r_created r + delay + 1)).
  exists [HEmit r; HTick t; HLimit; HCollect; HFlush; HExit]. eexists. split; [reflexivity|]. split; [reflexivity|].
  assert (E1 : (0 <=? t) = true) by (apply Z.leb_le; unfold t; lia).
  assert (E2 : (r_created r <? 0 + t - delay) = true) by (apply Z.ltb_lt; unfold t; lia).
  clearbody t. cbn -[Z.leb Z.ltb Z.sub Z.add]. rewrite E1. cbn -[Z.leb Z.ltb Z.sub Z.add]. rewrite E2. cbn. auto.
Qed.
Print Assumptions C42_lost_at_exit_refuted.
Example C42_case : let s := hrun 5 true (late ++ [HEmit (mkR 6 20 60); HFlush; HFlushWrite; HWrite]) in
  h_exit s = false /\ h_flush s = Some [] /\ being_written s = [] /\ h_recs s = [] /\ map r_id (h_bad s) = [6]%nat.
Proof. vm_compute. auto 10. Qed.

(** C78 does not hold: with colours, a record of a level beyond CRITICAL's range
    (60 and above) or below 0 is never written. *)
Theorem C78_level_not_written_refuted :
  forall delay r, 60 <= r_level r \/ r_level r < 0 -> forall ls, ~ In r (h_out (hrun delay true ls)).
Proof.
  intros delay r L ls. assert (F : formats true r = false).
  { unfold formats. cbn [negb orb]. apply andb_false_iff. destruct L as [L|L].
    - right. apply Z.leb_gt. pose proof (Z.div_le_mono 60 (r_level r) 10 ltac:(lia) L). change (60 / 10) with 6 in *. lia.
    - left. apply Z.leb_gt. pose proof (Z.div_lt_upper_bound (r_level r) 10 0 ltac:(lia) ltac:(lia)). lia. }
  unfold hrun. assert (H : ~ In r (h_out h0)) by (cbn; tauto). revert H. generalize h0.
  induction ls as [|l ls IH]; cbn [fold_left]; auto. intros s H. apply IH.
  assert (W : forall s x, ~ In r (h_out s) -> ~ In r (h_out (write true s x))).
  { intros s0 x H0. unfold write. destruct (formats true x) eqn:Fx; cbn; auto. intros C. apply in_app_or in C.
    destruct C as [C|[->|[]]]; [auto|congruence]. }
  unfold hstep. destruct (h_exit s); auto. destruct l; auto.
  - destruct (0 <=? d); auto.
  - destruct (h_poll s); auto.
  - destruct (h_poll s); auto. destruct (pop_older limit (h_recs s)); auto.
  - destruct (h_poll s) as [| |[|y ys]]; auto.
  - destruct (h_flush s); auto.
  - destruct (h_flush s) as [[|y ys]|]; auto.
  - destruct (h_flush s) as [[|y ys]|]; auto.
Qed.
Print Assumptions C78_level_not_written_refuted.
Example C78_case : let r := mkR 1 0 60 in 60 <= r_level r /\ h_bad (hrun 5 true [HEmit r; HTick 9; HLimit; HCollect; HWrite]) = [r].
Proof. vm_compute. split; [discriminate|reflexivity]. Qed.

(** C79 does not hold: at exit two threads write, in any order.  Whenever the polling
    thread is about to write [r] and a newer [x] is the first that waits, [x] can be
    written first. *)
Theorem C79_unsorted_at_exit_refuted :
  forall delay color ls r rs x xs, no_exit ls -> let s := hrun delay color ls in
  being_written s = r :: rs -> h_recs s = x :: xs -> r_created r < r_created x ->
  color = false \/ 0 <= r_level r < 60 /\ 0 <= r_level x < 60 ->
  h_out (hrun delay color (ls ++ [HFlush; HFlushWrite; HWrite])) = h_out s ++ [x; r].
Proof. exact overtaken_at_exit. Qed.
Print Assumptions C79_unsorted_at_exit_refuted.
Example C79_case :
  let ls := [HEmit (mkR 1 0 20); HTick 10; HLimit; HCollect; HEmit (mkR 2 8 20)] in
  no_exit ls /\ prompt 5 0 ls /\ being_written (hrun 5 true ls) = [mkR 1 0 20] /\ h_recs (hrun 5 true ls) = [mkR 2 8 20].
Proof. cbv zeta. split; [split; cbn; intuition discriminate|]. split; [cbn; lia|]. split; reflexivity. Qed.
