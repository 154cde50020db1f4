(** Properties C110, C111, C112: waiting for, stopping and killing a child process. *)
From Verif Require Import Py ChildModel ChildSpec ChildDemo ChildProofs ChildProofs2 ChildProofs3 ChildProofs4.

(** C110.  What wait() says is true, in every run: the number it returns is the exit code,
    and it gives up only when the time is over; kill() gives up after ten seconds at the
    earliest. *)
Theorem C110_wait_tells_the_truth_partial :
  forall K t n ls s, crun K (new_child t n) ls = Some s ->
  each (fun before now e => match e with
    | EvReturn CWait r => exists c, r = Some c /\ exited_with c before
    | EvRaise CWait TimeoutError => exists tc timeout, latest_call before = Some (tc, CWait, timeout) /\ tc + timeout <= now
    | EvRaise CKill TimeoutError => exists tc timeout, latest_call before = Some (tc, CKill, timeout) /\ tc + allowed CKill timeout <= now
    | _ => True
    end) (c_log s).
Proof.
  intros K t n ls s H before now e after E. pose proof (proj1 (proj2 (good_run _ _ _ _ _ H)) _ _ _ _ E) as G.
  destruct e as [| | |[] [c|]|[] []]; try exact I; cbn in G.
  - eauto.
  - destruct G as [G _]. contradiction.
  - apply G. discriminate.
  - apply G. discriminate.
Qed.
Print Assumptions C110_wait_tells_the_truth_partial.
(** Without captured output it gives up only if the process has not exited. *)
Theorem C110_gives_up_on_running_processes_only :
  forall K t ls s, crun K (new_child t 0) ls = Some s ->
  each (fun before now e => match e with EvRaise CWait TimeoutError | EvRaise CKill TimeoutError => ~ exited before | _ => True end) (c_log s).
Proof.
  intros K t ls s H before now e after E. pose proof (proj2 (proj2 (proj2 (bare_run _ _ _ _ H))) _ _ _ _ E) as G.
  destruct e as [| | |[] r|[] []]; try exact I; cbn in G; apply G; discriminate.
Qed.
Print Assumptions C110_gives_up_on_running_processes_only.
(** Where no PipePoller reads the output, every call ends in time and can always go on. *)
Theorem C110_ends_in_time :
  forall K t n ls s, 0 <= k_setup K -> 0 <= k_ask K -> (n <= 2)%nat -> unpolled n ls -> crun K (new_child t n) ls = Some s ->
  each (fun before now e => ends e = true ->
    exists tc k timeout, latest_call before = Some (tc, k, timeout) /\ now <= deadline K k tc timeout) (c_log s) /\
  (busy s -> can_go_on K s /\
    exists tc k timeout, latest_call (c_log s) = Some (tc, k, timeout) /\ c_now s <= deadline K k tc timeout).
Proof.
  intros K t n ls s S0 A0 Hn Hu H. pose proof (timed_run K S0 A0 t n ls s Hn Hu H) as T. split.
  - exact (proj1 (proj2 T)).
  - intros Hb. split; [eapply proceeds; eauto|]. destruct (busy_bound K S0 s (proj2 (proj2 T)) Hb) as (tc & to & X). eauto.
Qed.
Print Assumptions C110_ends_in_time.
(** Once the child has exited and nobody has its pipes open any more, wait() reads what is
    left in them and returns the exit code, at once. *)
Theorem C110_returns_after_the_exit :
  forall K t n ls s timeout c, (0 < k_chunk K)%nat -> crun K (new_child t n) ls = Some s -> ~ busy s ->
  exited_with c (c_log s) -> (forall p, In p (c_pipes s) -> pp_writers p = false) -> 0 <= timeout ->
  exists k s', crun K s (LCall CWait timeout :: repeat LGo k) = Some s' /\
    c_log s' = (c_log s ++ [(c_now s, EvCall CWait timeout); (c_now s, EvReturn CWait (Some c))])%list /\ ~ busy s'.
Proof.
  intros K t n ls s timeout c Hk H Hb He Ho Ht.
  destruct (waits_over K Hk s timeout c) as (k & s' & W1 & W2 & W3); auto.
  - unfold busy in Hb. destruct (c_phase s); try reflexivity; exfalso; apply Hb; discriminate.
  - eapply exit_known; eauto.
  - exists k, s'. split; [exact W1|]. split; [exact W2|]. unfold busy. rewrite W3. auto.
Qed.
Print Assumptions C110_returns_after_the_exit.
(** With captured output: as long as any process keeps one of the pipes open, no call returns
    an exit code, whether the child has exited or not. *)
Theorem C110_open_pipe_refuted :
  forall K t n i ls s, k_stdin_closed K = false -> (i < n)%nat -> forallb (fun l => negb (hangs i l)) ls = true ->
  crun K (new_child t n) ls = Some s -> forall t' k c, ~ In (t', EvReturn k (Some c)) (c_log s).
Proof. intros. eapply held_run; eauto. Qed.
Print Assumptions C110_open_pipe_refuted.
(** With captured output read by PipePoller: if that reads the bytes between select and read,
    wait(timeout) hangs until more is written, however long that takes. *)
Theorem C110_hangs_refuted :
  forall K t n i timeout b ls s, 0 <= timeout -> (i < n)%nat -> b <> [] -> forallb (fun l => negb (writes_to i l)) ls = true ->
  (exists s0, crun K (new_child t n) (overtaken i timeout b) = Some s0) /\
  (crun K (new_child t n) (overtaken i timeout b ++ ls) = Some s ->
   busy s /\ ended_calls (c_log s) = 0%nat /\ forall d, 0 <= d -> exists s', cstep K s (LTick d) = Some s' /\ c_now s' = c_now s + d).
Proof.
  intros K t n i timeout b ls s Ht Hi Hb Hf. split; [apply overtaken_possible; auto|].
  rewrite crun_app. destruct (crun K (new_child t n) (overtaken i timeout b)) as [s0|] eqn:E; [|discriminate].
  intros H. pose proof (stuck_run K i 0 ls s0 s (overtaken_stuck K t n i timeout b s0 Ht Hi Hb E) Hf H) as St.
  split; [|split].
  - destruct St as ((a & f & r & t0 & Hp) & _). unfold busy. rewrite Hp. discriminate.
  - apply St.
  - intros d Hd. eapply stuck_tick; eauto.
Qed.
Print Assumptions C110_hangs_refuted.
(** a child that exits in time; one that does not; one whose own child keeps stdout open *)
Example C110_case :
  option_map c_log (crun demo_k (new_child 0 0) exits_early) =
    Some [(0, EvCall CWait 10000000000); (1600000, EvExit 3); (1600000, EvReturn CWait (Some 3))] /\
  option_map c_log (crun demo_k (new_child 0 0) stays) = Some [(0, EvCall CWait 1000000); (1000000, EvRaise CWait TimeoutError)] /\
  option_map c_log (crun demo_k (new_child 0 2) grandchild) =
    Some [(0, EvExit 0); (0, EvCall CWait 10000000); (10000001, EvRaise CWait TimeoutError)] /\
  forallb (fun l => negb (hangs 0 l)) grandchild = true /\
  option_map c_log (crun demo_k (new_child 0 2) (leaves_output ++ LCall CWait 0 :: repeat LGo 14)) =
    Some [(0, EvExit 4); (0, EvCall CWait 0); (0, EvReturn CWait (Some 4))].
Proof. repeat split; vm_compute; reflexivity. Qed.
Example C110_hangs_case :
  option_map c_now (crun demo_k (new_child 0 2) (overtaken 0 1000000 [104; 105] ++ [LTick 3600000000000])) = Some 3600000000000.
Proof. vm_compute. reflexivity. Qed.

(** C111.  While nobody waits for the child, everything it writes is read by PipePoller (or is
    still in the pipe), in order. *)
Theorem C111_polled_while_running_partial :
  forall K t n ls s, forallb (fun l => negb (is_call l)) ls = true -> crun K (new_child t n) ls = Some s ->
  forall p, In p (c_pipes s) -> pp_polled p ++ pp_buf p = pp_written p.
Proof. exact polled_run. Qed.
Print Assumptions C111_polled_while_running_partial.
(** Output that wait() finds in the pipe never reaches PipePoller, whatever happens later. *)
Theorem C111_waited_output_lost_refuted :
  forall K t n i timeout b ls s, (0 < k_chunk K)%nat -> 0 <= timeout -> (i < n)%nat -> b <> [] ->
  (exists s0, crun K (new_child t n) (waited_first i timeout b) = Some s0) /\
  (crun K (new_child t n) (waited_first i timeout b ++ ls) = Some s ->
   exists p, nth_error (c_pipes s) i = Some p /\ (List.length (pp_polled p) < List.length (pp_written p))%nat).
Proof.
  intros K t n i timeout b ls s Hc Ht Hi Hb. split; [apply waited_possible; auto|].
  rewrite crun_app. destruct (crun K (new_child t n) (waited_first i timeout b)) as [s0|] eqn:E; [|discriminate].
  intros H. apply taken_less. eapply taken_run; eauto. eapply waited_taken; eauto.
Qed.
Print Assumptions C111_waited_output_lost_refuted.
(** "hi" is polled, "ho" is taken *)
Example C111_case :
  option_map (fun s => map (fun p => (pp_polled p, pp_taken p)) (c_pipes s))
    (crun demo_k (new_child 0 2) ([LWrite 0 [104; 105]; LRead 0 9] ++ waited_first 0 1000000000 [104; 111] ++ [LRead 0 9])) =
  Some [([104; 105], [104; 111]); ([], [])].
Proof. vm_compute. reflexivity. Qed.

(** C112.  After stop() or kill() has returned the process has exited; what is returned is
    its exit code, or None if it had exited before. *)
Theorem C112_stopped_means_exited :
  forall K t n ls s, crun K (new_child t n) ls = Some s ->
  each (fun before now e => match e with
    | EvReturn CStop (Some c) | EvReturn CKill (Some c) => exited_with c before
    | EvReturn CStop None | EvReturn CKill None => exited before
    | _ => True
    end) (c_log s).
Proof.
  intros K t n ls s H before now e after E. pose proof (proj1 (proj2 (good_run _ _ _ _ _ H)) _ _ _ _ E) as G.
  destruct e as [| | |[] [c|]|[] []]; try exact I; cbn in G; try exact G; apply G.
Qed.
Print Assumptions C112_stopped_means_exited.
(** stop(timeout) may take twice the timeout, for any timeout of whole milliseconds. *)
Theorem C112_takes_twice_as_long_refuted :
  forall K t m, 1 <= k_setup K -> 0 <= k_ask K -> 0 < m -> let timeout := m * 1000000 in
  exists s, crun K (new_child t 2) (slow_stop timeout) = Some s /\ In (t + 2 * timeout + 1, EvRaise CStop TimeoutError) (c_log s).
Proof. exact slow_stop_run. Qed.
Print Assumptions C112_takes_twice_as_long_refuted.
Example C112_case :
  option_map c_log (crun demo_k (new_child 0 0) quick_stop) =
    Some [(0, EvCall CStop 10000000000); (2000000, EvExit 0); (2000000, EvReturn CStop (Some 0))] /\
  option_map c_log (crun demo_k (new_child 0 2) (slow_stop 10000000000)) =
    Some [(0, EvCall CStop 10000000000); (20000000001, EvRaise CStop TimeoutError)].
Proof. split; vm_compute; reflexivity. Qed.
