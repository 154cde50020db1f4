(** Where the standard streams of a new process go: start_process, process.py 114, 119-120, 126-132, 151-152,
    183-212 and 238-241.

    Simplified: not Windows; assertions are not switched off; a stream is nothing, a file descriptor or
    constant of subprocess (PIPE is -1, DEVNULL is -3), or a file object. *)
From Verif Require Import Py.
Local Open Scope Z_scope.

(** what can be given for daemon and log_stdio and is equal to True, False or None (process.py 114, 126) *)
Inductive flag := FTrue | FFalse | FNone | FOne | FZero.
(** x is True (process.py 127, 189, 191, 201, 209, 238) *)
Definition is_true (f : flag) : bool := match f with FTrue => true | _ => false end.
(** x is False (process.py 131) *)
Definition is_false (f : flag) : bool := match f with FFalse => true | _ => false end.
(** x is None (process.py 131) *)
Definition is_none (f : flag) : bool := match f with FNone => true | _ => false end.
(** bool(x) (process.py 119) *)
Definition truthy (f : flag) : bool := match f with FTrue | FOne => true | _ => false end.
(** the arguments stdin, stdout, stderr (process.py 29, 183-186) *)
Inductive io := IoNone | IoFd (n : Z) | IoFile (k : nat).
(** subprocess.PIPE, subprocess.DEVNULL (library), process.py 184, 193-195, 202-203 *)
Definition pipe : io := IoFd (-1).
(** subprocess.DEVNULL (library), process.py 184, 193-195 *)
Definition devnull : io := IoFd (-3).
(** x is None (process.py 128, 131, 192) *)
Definition io_none (x : io) : bool := match x with IoNone => true | _ => false end.
(** x or DEVNULL (process.py 184): None and 0 are false *)
Definition or_devnull (x : io) : io := match x with IoNone => devnull | IoFd 0 => devnull | _ => x end.
(** the arguments that matter, and whether a logger address is known (process.py 29, 120) *)
Record sreq := mkSR { sr_daemon : flag; sr_log : flag; sr_in : io; sr_out : io; sr_err : io; sr_addr : bool; sr_known : bool }.
(** the process that is started: its streams, whether they are read and logged (process.py 208-212), whether it
    gets --daemon (151-152), whether the handle is a DaemonProcess (238-241) *)
Record plan := mkPlan { pl_in : io; pl_out : io; pl_err : io; pl_logged : bool; pl_daemon : bool; pl_handle : bool }.
(** assert (process.py 114, 126, 128, 191, 192) *)
Definition assert_ {A} (b : bool) (k : res A) : res A := if b then k else Err AssertionError.
(** process.py 114-241 *)
Definition redirect (r : sreq) : res plan :=
  assert_ (negb (is_none (sr_daemon r))) (
  let addr := sr_addr r || (negb (truthy (sr_daemon r)) && sr_known r) in
  assert_ (negb (is_true (sr_log r)) || (io_none (sr_out r) && io_none (sr_err r))) (
  let log := if is_none (sr_log r) && io_none (sr_out r) && io_none (sr_err r) && is_false (sr_daemon r)
             then if addr then FTrue else FFalse else sr_log r in
  if is_true (sr_daemon r) then
    assert_ (negb (is_true log)) (
    assert_ (io_none (sr_in r) && io_none (sr_out r) && io_none (sr_err r)) (
    Ok (mkPlan devnull devnull devnull (is_true log) true true)))
  else
    let '(o, e) := if is_true log then (pipe, pipe) else (sr_out r, sr_err r) in
    Ok (mkPlan (or_devnull (sr_in r)) o e (is_true log) false false))).
