(** Property C141: the standard streams of new processes. *)
From Verif Require Import Py RedirModel RedirSpec RedirProofs.
Local Open Scope Z_scope.

(** C141.  If daemon and log_stdio are bools or None, requests that contradict themselves are refused ... *)
Theorem C141_conflicts_refused_partial :
  forall r, proper (sr_daemon r) -> proper (sr_log r) -> conflict r -> redirect r = Err AssertionError.
Proof. exact refused. Qed.
Print Assumptions C141_conflicts_refused_partial.

(** ... and all others are followed, except for the file descriptor 0 ... *)
Theorem C141_as_asked_partial :
  forall r, proper (sr_daemon r) -> proper (sr_log r) -> sr_in r <> IoFd 0 -> ~ conflict r ->
  exists p, redirect r = Ok p /\ as_asked r p.
Proof. exact asked. Qed.
Print Assumptions C141_as_asked_partial.

(** ... but violated: daemon=1 is accepted and starts a process that is not a daemon ... *)
Theorem C141_daemon_1_refuted :
  forall r, sr_daemon r = FOne -> ~ yes (sr_log r) ->
  exists p, redirect r = Ok p /\ pl_daemon p = false /\ pl_handle p = false /\ pl_out p = sr_out r /\ ~ as_asked r p.
Proof. exact one_is_not_true. Qed.
Print Assumptions C141_daemon_1_refuted.

(** ... log_stdio=1 is accepted and nothing is logged ... *)
Theorem C141_log_stdio_1_refuted :
  forall r, sr_log r = FOne -> sr_daemon r = FFalse ->
  exists p, redirect r = Ok p /\ pl_logged p = false /\ ~ as_asked r p.
Proof. exact log_one. Qed.
Print Assumptions C141_log_stdio_1_refuted.

(** ... and with stdin=0 the child reads nothing. *)
Theorem C141_stdin_0_refuted :
  forall r, sr_in r = IoFd 0 -> sr_daemon r = FFalse -> ~ conflict r -> sr_log r <> FOne ->
  exists p, redirect r = Ok p /\ pl_in p = devnull /\ ~ as_asked r p.
Proof. exact stdin0. Qed.
Print Assumptions C141_stdin_0_refuted.

Example C141_example :
  redirect (mkSR FFalse FNone IoNone IoNone IoNone false true) = Ok (mkPlan devnull pipe pipe true false false) /\
  redirect (mkSR FFalse FNone (IoFile 1) (IoFile 2) IoNone false true) = Ok (mkPlan (IoFile 1) (IoFile 2) IoNone false false false) /\
  redirect (mkSR FTrue FNone IoNone IoNone IoNone true true) = Ok (mkPlan devnull devnull devnull false true true) /\
  redirect (mkSR FOne FNone IoNone IoNone IoNone true true) = Ok (mkPlan devnull IoNone IoNone false false false) /\
  redirect (mkSR FTrue FNone IoNone (IoFd 5) IoNone false false) = Err AssertionError /\
  conflict (mkSR FTrue FNone IoNone (IoFd 5) IoNone false false) /\ ~ conflict (mkSR FFalse FNone (IoFd 0) (IoFile 2) IoNone false true).
Proof.
  repeat (split; [reflexivity|]). unfold conflict, yes, given; cbn. split; [right; right; split; [left; reflexivity|right; right; left; discriminate]|].
  intuition congruence.
Qed.
