(** Property C113: kill() only ever kills the process the object was made for. *)
From Verif Require Import Py KillModel KillSpec KillProofs.

(** C113.  A ChildProcess sends signals to its own process only. *)
Theorem C113_child_kills_its_own_partial :
  forall ops s h x w, krun kempty ops = Some s -> nth_error (t_handles s) h = Some x -> is_child x = true ->
  In (h, w) (t_signals s) -> w = made_for x.
Proof. intros. eapply child_signals; eauto. Qed.
Print Assumptions C113_child_kills_its_own_partial.
(** Its kill() ends that process, whatever the numbers, and no other. *)
Theorem C113_child_is_killed_partial :
  forall ops s h who pid rc, krun kempty ops = Some s -> nth_error (t_handles s) h = Some (HChild who pid rc) ->
  exists s', kstep s (KKill h) = Some s' /\ ~ alive s' who /\ forall w, w <> who -> alive s w -> alive s' w.
Proof. intros. eapply child_killed; eauto. Qed.
Print Assumptions C113_child_is_killed_partial.
(** A DaemonProcess kills whatever process has the number now. *)
Theorem C113_daemon_kills_whatever_refuted :
  forall ops s h who pid w, krun kempty ops = Some s -> nth_error (t_handles s) h = Some (HDaemon who pid) ->
  running s w pid -> forall s', kstep s (KKill h) = Some s' -> t_signals s' = t_signals s ++ [(h, w)] /\ ~ alive s' w.
Proof. intros. eapply daemon_kills; eauto. Qed.
Print Assumptions C113_daemon_kills_whatever_refuted.
(** a daemon and a child exit; their numbers are given to other processes if they are free:
    the daemon's at once, the child's only after poll() *)
Example C113_case :
  option_map t_signals (krun kempty [KDaemon 7; KChild 8; KExit 0; KExit 1; KOther 7; KKill 0; KKill 1]) = Some [(0, 2)]%nat /\
  krun kempty [KDaemon 7; KChild 8; KExit 0; KExit 1; KOther 8] = None /\
  option_map t_signals (krun kempty [KDaemon 7; KChild 8; KExit 1; KPoll 1; KOther 8; KKill 1; KKill 0]) = Some [(0, 0)]%nat /\
  option_map t_signals (krun kempty [KDaemon 7; KChild 8; KKill 1]) = Some [(1, 1)]%nat.
Proof. repeat split; reflexivity. Qed.
