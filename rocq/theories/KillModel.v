(** Which process a kill() reaches: ChildProcess.kill and poll (teleprox/process.py
    308-316 and 330-334), DaemonProcess.kill (256-263), kill_pid (util.py 10-18), with
    Popen.poll and Popen.kill (CPython 3.11 subprocess.py, library) and the process table of
    a POSIX system.

    A process number stays taken until the process has exited and its parent has asked
    for its exit code; then it may be given to another process.  Not modelled: other code
    in the parent that calls os.wait(), and the permission to signal a process. *)
From Verif Require Import Py.

(** a line of the process table; [r_who] tells processes apart that had the same number
    at different times (lines the system keeps for the processes of process.py 206, 244-278) *)
Record row := mkRow { r_pid : Z; r_who : nat; r_zombie : bool; r_mine : bool }.
(** what start_process returned (process.py 238-241) *)
Inductive handle :=
| HChild (who : nat) (pid : Z) (returncode : bool)    (* proc.returncode is known *)
| HDaemon (who : nat) (pid : Z).
(** the table of processes with the handles returned at process.py 238-241 *)
Record kst := mkK {
  t_rows : list row;
  t_next : nat;
  t_handles : list handle;
  t_signals : list (nat * nat)          (* SIGKILL: through which handle, to which process *)
}.
(** before any call of start_process (process.py 206) *)
Definition kempty : kst := mkK [] 0 [] [].

(** the system looks a process up by number, for process.py 262, 300, 314 *)
Definition by_pid (pid : Z) (r : row) : bool := Z.eqb (r_pid r) pid.
(** the system looks a process up by number, for process.py 262, 300, 314 *)
Definition find_pid (s : kst) (pid : Z) : option row := find (by_pid pid) (t_rows s).
(** the system looks a process up by number, for process.py 262, 300, 314 *)
Definition drop_pid (pid : Z) (l : list row) : list row := filter (fun r => negb (by_pid pid r)) l.

(** a process exits, by itself or because of SIGKILL: it stays in the table for its parent
    if that is us; any other parent asks at once
    (the operating system; processes are started at process.py 206) *)
Fixpoint exits (who : nat) (l : list row) : list row :=
  match l with
  | [] => []
  | r :: rest => if Nat.eqb (r_who r) who
                 then if r_mine r then mkRow (r_pid r) (r_who r) true true :: rest else rest
                 else r :: exits who rest
  end.

(** the list of handles (process.py 238-241) with one changed *)
Fixpoint set_nth {A} (l : list A) (i : nat) (x : A) : list A :=
  match l, i with
  | [], _ => []
  | _ :: r, O => x :: r
  | y :: r, S j => y :: set_nth r j x
  end.

(** steps: processes start and end; the methods at process.py 258-264, 308-334 *)
Inductive kop :=
| KOther (pid : Z)          (* some process is started by someone else *)
| KChild (pid : Z)          (* start_process() *)
| KDaemon (pid : Z)         (* start_process(daemon=True) *)
| KExit (who : nat)         (* a process exits *)
| KPoll (h : nat)           (* poll() *)
| KKill (h : nat).          (* kill() *)

(** a new line of the table; the system gives out free numbers only
    (the operating system; processes are started at process.py 206) *)
Definition enters (s : kst) (pid : Z) (mine : bool) (hs : list handle) : option kst :=
  match find_pid s pid with
  | Some _ => None
  | None => Some (mkK (t_rows s ++ [mkRow pid (t_next s) false mine]) (S (t_next s)) (t_handles s ++ hs) (t_signals s))
  end.

(** Popen.poll: os.waitpid(pid, WNOHANG), unless the code is known (process.py 300, 311, 321, 334) *)
Definition polled (s : kst) (h : nat) (who : nat) (pid : Z) : kst :=
  match find_pid s pid with
  | Some r =>
      if r_mine r then
        if r_zombie r then mkK (drop_pid pid (t_rows s)) (t_next s) (set_nth (t_handles s) h (HChild who pid true)) (t_signals s)
        else s
      else mkK (t_rows s) (t_next s) (set_nth (t_handles s) h (HChild who pid true)) (t_signals s)   (* ECHILD *)
  | None => mkK (t_rows s) (t_next s) (set_nth (t_handles s) h (HChild who pid true)) (t_signals s)
  end.
(** os.kill(pid, SIGKILL); ProcessLookupError is an OSError (util.py 18) *)
Definition os_kill (s : kst) (h : nat) (pid : Z) : res kst :=
  match find_pid s pid with
  | None => Err OSError
  | Some r => Ok (mkK (if r_zombie r then t_rows s else exits (r_who r) (t_rows s)) (t_next s) (t_handles s)
                      (t_signals s ++ [(h, r_who r)]))
  end.

(** process.py 206, 258-264, 308-316, 330-334 *)
Definition kstep (s : kst) (o : kop) : option kst :=
  match o with
  | KOther pid => enters s pid false []
  | KChild pid => enters s pid true [HChild (t_next s) pid false]
  | KDaemon pid => enters s pid false [HDaemon (t_next s) pid]
  | KExit who => Some (mkK (exits who (t_rows s)) (t_next s) (t_handles s) (t_signals s))
  | KPoll h =>
      match nth_error (t_handles s) h with
      | Some (HChild who pid false) => Some (polled s h who pid)
      | Some (HChild _ _ true) => Some s
      | _ => None                                     (* a DaemonProcess has no poll *)
      end
  | KKill h =>
      match nth_error (t_handles s) h with
      | Some (HChild who pid false) =>
          let s1 := polled s h who pid in              (* process.py 311 *)
          match nth_error (t_handles s1) h with
          | Some (HChild _ _ false) =>                 (* 314: Popen.kill *)
              match os_kill s1 h pid with Ok s2 => Some s2 | Err _ => Some s1 end
          | _ => Some s1                               (* 312 *)
          end
      | Some (HChild _ _ true) => Some s
      | Some (HDaemon _ pid) =>                        (* 258-263 *)
          match os_kill s h pid with Ok s2 => Some s2 | Err _ => Some s end
      | None => None
      end
  end.
(** a history of steps (process.py 206-334) *)
Fixpoint krun (s : kst) (os : list kop) : option kst :=
  match os with
  | [] => Some s
  | o :: r => match kstep s o with Some s' => krun s' r | None => None end
  end.
