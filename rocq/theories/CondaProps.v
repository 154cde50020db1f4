(** Property C146: killing a process in a conda environment. *)
From Verif Require Import Py CondaModel CondaSpec CondaProofs.
Local Open Scope Z_scope.

(** C146.  Without conda_env, whatever ends the server first (kill, stop, or itself), it has ended afterwards and
    poll says so, with the right code ... *)
Theorem C146_ended_partial :
  forall o os, poll (prun Direct (o :: os)) = Some (code_of o) /\ ~ serves (prun Direct (o :: os)).
Proof. exact first_counts. Qed.
Print Assumptions C146_ended_partial.
Theorem C146_poll_partial :
  forall os, poll (prun Direct os) = None <-> serves (prun Direct os).
Proof. exact poll_iff. Qed.
Print Assumptions C146_poll_partial.

(** ... stop ends the server in both cases if kill was not called before ... *)
Theorem C146_stop_partial :
  forall h os, ~ In PKill os -> ~ serves (fst (stop h (prun h os))).
Proof. exact stop_ends. Qed.
Print Assumptions C146_stop_partial.

(** ... but violated: with conda_env, kill ends only the conda program.  The server runs on, poll reports that it
    has been killed, and no later stop or kill ends it. *)
Theorem C146_conda_survives_refuted :
  forall os, (forall c, ~ In (PExits c) os) ->
  poll (prun Conda (PKill :: os)) = Some (-9) /\ serves (prun Conda (PKill :: os)).
Proof. exact left_over. Qed.
Print Assumptions C146_conda_survives_refuted.

(** killed, then stopped; exited by itself *)
Example C146_example :
  prun Conda [PKill; PStop; PKill] = mkP (Some (-9)) None /\ prun Conda [PStop; PKill] = mkP (Some 0) (Some 0) /\
  prun Conda [PExits 3; PKill] = mkP (Some 3) (Some 3) /\ prun Direct [PKill; PStop] = mkP (Some (-9)) (Some (-9)) /\
  snd (kill Conda (prun Conda [])) = Some (-9) /\ (forall c, ~ In (PExits c) [PStop; PKill]).
Proof. repeat split. intros c I. cbn in I. intuition congruence. Qed.
