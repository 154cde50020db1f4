(** Helpers for processes: teleprox/util.py 10-117 and 160-196 (linux branches). *)
From Verif Require Import Py.
Local Open Scope Z_scope.

(** ** Strings (library behaviour) *)
(** str.lstrip(), for spaces (util.py 51) *)
Fixpoint lstrip (s : string) : string :=
  match s with String " " r => lstrip r | _ => s end.
(** str.partition(' '), the parts before and after (util.py 51) *)
Fixpoint partition (s : string) : string * string :=
  match s with
  | EmptyString => (EmptyString, EmptyString)
  | String " " r => (EmptyString, r)
  | String c r => let '(a, b) := partition r in (String c a, b)
  end.
(** str.startswith and [sub in s] (util.py 52) *)
Fixpoint starts (p s : string) : bool :=
  match p, s with
  | EmptyString, _ => true
  | String a p, String b s => Ascii.eqb a b && starts p s
  | _, _ => false
  end.
(** util.py 52 *)
Fixpoint contains (sub s : string) : bool :=
  starts sub s || match s with EmptyString => false | String _ r => contains sub r end.
(** int(s) for a string of digits; anything else raises ValueError (simplified: signs,
    underscores and surrounding blanks are not accepted; ps prints none) (util.py 53) *)
Definition digit (c : ascii) : option Z :=
  let n := Z.of_nat (nat_of_ascii c) - 48 in if (0 <=? n) && (n <=? 9) then Some n else None.
(** util.py 53 *)
Fixpoint digits (acc : Z) (s : string) : option Z :=
  match s with
  | EmptyString => Some acc
  | String c r => match digit c with Some d => digits (10 * acc + d) r | None => None end
  end.
(** util.py 53 *)
Definition to_int (s : string) : res Z :=
  match s with EmptyString => Err ValueError | _ => match digits 0 s with Some n => Ok n | None => Err ValueError end end.

(** ** Processes *)
(** os.kill(pid, SIGKILL) (library): [None] no such process; [Some false] not permitted.
    A process that ended but was not waited for can still be signalled: it counts as
    existing here. *)
Definition procs := dict Z bool.
(** util.py 10-18 *)
Definition kill_pid (ps : procs) (pid : Z) : procs * res unit :=
  match dget ps pid with
  | None => (ps, Err OSError)
  | Some false => (ps, Err OSError)
  | Some true => (ddel ps pid, Ok tt)
  end.
(** util.py 21-34 *)
Fixpoint kill_all (ps : procs) (pids killed : list Z) : procs * list Z :=
  match pids with
  | [] => (ps, killed)
  | pid :: r => match kill_pid ps pid with
                | (ps, Ok _) => kill_all ps r (killed ++ [pid])
                | (ps, Err _) => kill_all ps r killed
                end
  end.
(** util.py 21-34 *)
Definition assert_pids_dead (ps : procs) (pids : list Z) : procs * res unit :=
  let '(ps, killed) := kill_all ps pids [] in
  (ps, match killed with [] => Ok tt | _ => Err AssertionError end).
(** util.py 37-38 *)
Definition assert_pid_dead (ps : procs) (pid : Z) : procs * res unit := assert_pids_dead ps [pid].

(** ProcessCleaner, util.py 89-117: [add] (92-101) with a name and a pid appends a pair.
    [__exit__]: the processes left, and [Err names] (AssertionError naming them) or
    [Ok] (the exception of the block, if any, goes on) *)
Fixpoint clean (ps : procs) (l : list (string * Z)) : procs * list string :=
  match l with
  | [] => (ps, [])
  | (name, pid) :: r =>
      match assert_pid_dead ps pid with
      | (ps, Ok _) => clean ps r
      | (ps, Err _) => let '(ps, f) := clean ps r in (ps, name :: f)
      end
  end.
(** how util.py 103-117 is left *)
Inductive left_by := Quietly | WithException (e : exn) | Reporting (names : list string).
(** util.py 106-117 *)
Definition cleaner_exit (ps : procs) (l : list (string * Z)) (exc : option exn) : procs * left_by :=
  let '(ps, failures) := clean ps l in
  (ps, match failures, exc with
       | _ :: _, None => Reporting failures
       | _, Some e => WithException e
       | [], None => Quietly
       end).

(** find_procs, util.py 46-54: lines printed by ps *)
Fixpoint find_procs (search : string) (lines : list string) : res (list (Z * string)) :=
  match lines with
  | [] => Ok []
  | line :: r =>
      let '(pid, cmd) := partition (lstrip line) in
      if contains search cmd
      then bind (to_int pid) (fun n => bind (find_procs search r) (fun l => Ok ((n, line) :: l)))
      else find_procs search r
  end.
(** kill_procs, util.py 64-78: what ps prints before and after the wait, and the
    processes at the end *)
Fixpoint kill_each (ps : procs) (l : list (Z * string)) : procs * res unit :=
  match l with
  | [] => (ps, Ok tt)
  | (pid, _) :: r => match kill_pid ps pid with
                     | (ps, Ok _) => kill_each ps r
                     | (ps, Err e) => (ps, Err e)
                     end
  end.
(** util.py 64-78 *)
Definition kill_procs (PREFIX search : string) (ps1 ps2 : list string) (ps : procs) : procs * res (list (Z * string)) :=
  match find_procs PREFIX ps1 with
  | Err e => (ps, Err e)
  | Ok [] => (ps, Ok [])
  | Ok _ =>
      match find_procs PREFIX ps2 with
      | Err e => (ps, Err e)
      | Ok [] => (ps, Ok [])
      | Ok l => match kill_each ps l with
                | (ps, Ok _) => (ps, Ok l)
                | (ps, Err e) => (ps, Err e)
                end
      end
  end.

(** netstat on linux, util.py 181-193: lines already split on blanks (184-185).
    [str.lsplit] does not exist: AttributeError. *)
Fixpoint netstat (lines : list (list string)) : res (list (string * string)) :=
  match lines with
  | [] => Ok []
  | parts :: r =>
      if (List.length parts <? 7)%nat || negb (String.eqb (nth 0 parts "") "tcp" || String.eqb (nth 0 parts "") "udp")
      then netstat r
      else Err AttributeError
  end.
