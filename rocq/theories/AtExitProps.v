(** Property C143: children at the end of the program. *)
From Verif Require Import Py AtExitModel AtExitSpec AtExitProofs.
From Coq Require Import Sorted.
Local Open Scope nat_scope.

(** C143.  When the program ends, exactly the children that are still running and are not daemons are asked to
    close, the latest first (so each once) ... *)
Theorem C143_all_asked :
  forall os i, In i (asked (snd (at_exit (xrun os)))) <-> exists b, still os i b.
Proof. exact asked_iff. Qed.
Print Assumptions C143_all_asked.
Theorem C143_latest_first :
  forall os, StronglySorted gt (asked (snd (at_exit (xrun os)))).
Proof. exact latest_first. Qed.
Print Assumptions C143_latest_first.

(** ... those that do as they are asked have ended, whatever the others do ... *)
Theorem C143_cooperative_ended_partial :
  forall os i, still os i BCloses -> ~ runs (fst (at_exit (xrun os))) i.
Proof. exact cooperative. Qed.
Print Assumptions C143_cooperative_ended_partial.

(** ... but violated: a child that does not answer or does not exit is left running. *)
Theorem C143_left_running_refuted :
  forall os i b, still os i b -> b <> BCloses -> runs (fst (at_exit (xrun os))) i.
Proof. exact left_running. Qed.
Print Assumptions C143_left_running_refuted.

(** a child, one that does not answer, a daemon, one that has ended *)
Definition xos : list xop := [KStart false BCloses; KStart false BSilent; KStart true BCloses; KStart false BCloses; KEnds 3].
Example C143_example :
  snd (at_exit (xrun xos)) = [XAsked 1; XFailed 1 TimeoutError; XAsked 0] /\
  map kd_running (fst (at_exit (xrun xos))) = [false; true; true; false] /\ still xos 0 BCloses /\ still xos 1 BSilent.
Proof.
  split; [reflexivity|]. split; [reflexivity|]. split.
  - exists [], (tl xos). split; [reflexivity|]. split; [reflexivity|]. cbn. intuition discriminate.
  - exists [KStart false BCloses], (tl (tl xos)). split; [reflexivity|]. split; [reflexivity|]. cbn. intuition discriminate.
Qed.
