(** The handle of a process that was started through another one: start_process(conda_env=...) (process.py 167-178,
    206, 241) and ChildProcess (process.py 267-334).

    [conda run] (another program) starts the command as its child, waits for it and exits with the same code; a
    SIGKILL ends only the process it is sent to.  Simplified: the standard streams are not captured (StdioModel,
    RedirModel), the server closes and exits when asked, waiting takes less than the timeout, nobody else sends
    signals. *)
From Verif Require Import Py.
Local Open Scope Z_scope.

(** conda_env is None, or not (process.py 168-178) *)
Inductive how := Direct | Conda.
(** the return code of the process that Popen started (None: it runs; process.py 206), the same for the process
    that runs the server (with Direct it is the same process) *)
Record pst := mkP { p_first : option Z; p_server : option Z }.
(** process.py 206: both run *)
Definition pst0 : pst := mkP None None.
(** Popen.poll (library): process.py 330-334 *)
Definition poll (s : pst) : option Z := p_first s.
(** the server's process exits by itself (bootstrap.py 116-125) *)
Definition server_exits (s : pst) (code : Z) : pst :=
  match p_server s with
  | Some _ => s
  | None => mkP (match p_first s with None => Some code | f => f end) (Some code)
  end.
(** ChildProcess.kill (process.py 308-316) *)
Definition kill (h : how) (s : pst) : pst * option Z :=
  match poll s with
  | Some _ => (s, None)
  | None => (mkP (Some (-9)) (match h with Direct => Some (-9) | Conda => p_server s end), Some (-9))
  end.
(** ChildProcess.stop (process.py 318-328) *)
Definition stop (h : how) (s : pst) : pst * option Z :=
  match poll s with
  | Some _ => (s, None)
  | None => let s' := server_exits s 0 in (s', p_first s')
  end.
(** what can happen: process.py 308, 318; bootstrap.py 116-125 *)
Inductive pop := PKill | PStop | PExits (code : Z).
(** one of these (process.py 308-334; bootstrap.py 116-125) *)
Definition pstep (h : how) (s : pst) (o : pop) : pst :=
  match o with PKill => fst (kill h s) | PStop => fst (stop h s) | PExits c => server_exits s c end.
(** a history (process.py 308-334) *)
Definition prun (h : how) (os : list pop) : pst := fold_left (pstep h) os pst0.
