(** Where the streams should go: the documentation of start_process. *)
From Verif Require Import Py RedirModel.
Local Open Scope Z_scope.

(** True, or something equal to it *)
Definition yes (f : flag) : Prop := f = FTrue \/ f = FOne.
(** a real bool or None *)
Definition proper (f : flag) : Prop := f <> FOne /\ f <> FZero.
(** a stream was asked for *)
Definition given (x : io) : Prop := x <> IoNone.
(** combinations that exclude each other, and no value for daemon *)
Definition conflict (r : sreq) : Prop :=
  sr_daemon r = FNone \/
  (yes (sr_log r) /\ (given (sr_out r) \/ given (sr_err r))) \/
  (yes (sr_daemon r) /\ (yes (sr_log r) \/ given (sr_in r) \/ given (sr_out r) \/ given (sr_err r))).
(** output is to be logged: asked for, or not refused with a log server and no other place for output *)
Definition to_log (r : sreq) : Prop :=
  ~ yes (sr_daemon r) /\
  (yes (sr_log r) \/ (sr_log r = FNone /\ ~ given (sr_out r) /\ ~ given (sr_err r) /\ (sr_addr r = true \/ sr_known r = true))).
(** what is to be started *)
Definition as_asked (r : sreq) (p : plan) : Prop :=
  (yes (sr_daemon r) -> pl_daemon p = true /\ pl_handle p = true /\
     pl_in p = IoFd (-3) /\ pl_out p = IoFd (-3) /\ pl_err p = IoFd (-3)) /\
  (~ yes (sr_daemon r) -> pl_daemon p = false /\ pl_handle p = false /\
     (given (sr_in r) -> pl_in p = sr_in r) /\ (~ given (sr_in r) -> pl_in p = IoFd (-3))) /\
  (to_log r -> pl_logged p = true /\ pl_out p = IoFd (-1) /\ pl_err p = IoFd (-1)) /\
  (~ to_log r -> pl_logged p = false /\ (~ yes (sr_daemon r) -> pl_out p = sr_out r /\ pl_err p = sr_err r)).
