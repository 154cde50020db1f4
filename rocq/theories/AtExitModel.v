(** What happens to children when the program ends: ChildProcess registers its [stop] with atexit
    (process.py 266-278, 318-328); DaemonProcess does not (244-249).

    atexit (library): functions are called in the opposite order; an exception is reported and the next function
    is called.

    Simplified: what a child does when its server is asked to close is given; the client can be used by the
    thread that runs the functions. *)
From Verif Require Import Py.
Local Open Scope nat_scope.

(** what follows when stop asks the server to close (process.py 325-328): it agrees and the process exits in
    time, it agrees but the process does not exit, there is no answer, the answer is not True *)
Inductive beh := BCloses | BStays | BSilent | BOdd.
(** a started process (process.py 206, 238-241) *)
Record kid := mkKid { kd_daemon : bool; kd_beh : beh; kd_running : bool }.
(** the processes in the order they were started (process.py 206), the functions registered with atexit, by
    number (process.py 278) *)
Record xst := mkXst { x_kids : list kid; x_hooks : list nat }.
(** what can be seen when the program ends: a server is asked to close (process.py 325), stop raises (326, 328) *)
Inductive xev := XAsked (i : nat) | XFailed (i : nat) (e : exn).
(** nothing started yet (process.py 278) *)
Definition xst0 : xst := mkXst [] [].
(** steps: start_process succeeds (process.py 238-241), a process ends (library) *)
Inductive xop := KStart (daemon : bool) (b : beh) | KEnds (i : nat).
(** process i ends (library; looked at in process.py 321) *)
Fixpoint ends (l : list kid) (i : nat) : list kid :=
  match l, i with
  | [], _ => []
  | k :: r, O => mkKid (kd_daemon k) (kd_beh k) false :: r
  | k :: r, S j => k :: ends r j
  end.
(** process.py 238-241, 266-278 *)
Definition xstep (s : xst) (o : xop) : xst :=
  match o with
  | KStart d b => mkXst (x_kids s ++ [mkKid d b true])%list (if d then x_hooks s else x_hooks s ++ [List.length (x_kids s)])%list
  | KEnds i => mkXst (ends (x_kids s) i) (x_hooks s)
  end.
(** a history (process.py 238-241, 266-278) *)
Definition xrun (os : list xop) : xst := fold_left xstep os xst0.
(** ChildProcess.stop: process.py 318-328 *)
Definition stop_kid (l : list kid) (i : nat) : list kid * list xev :=
  match nth_error l i with
  | None => (l, [])
  | Some k =>
      if kd_running k then
        match kd_beh k with
        | BCloses => (ends l i, [XAsked i])
        | BStays | BSilent => (l, [XAsked i; XFailed i TimeoutError])
        | BOdd => (l, [XAsked i; XFailed i AssertionError])
        end
      else (l, [])
  end.
(** the functions registered with atexit (library), all of them process.py 318-328 *)
Fixpoint exits (l : list kid) (hooks : list nat) : list kid * list xev :=
  match hooks with
  | [] => (l, [])
  | i :: r => let '(l1, e1) := stop_kid l i in let '(l2, e2) := exits l1 r in (l2, (e1 ++ e2)%list)
  end.
(** the program ends: atexit (library), process.py 278 *)
Definition at_exit (s : xst) : list kid * list xev := exits (x_kids s) (rev (x_hooks s)).
