(** The names of threads in log lines: remote.py 20-22, 49-66 and 181, handler.py 105-108.  Names are kept
    by the ident of the thread, and the name for a record is looked up when it is written or sent.

    Simplified: names are numbers; a line shows [None] when it falls back to Python's name of the thread
    (remote.py 181) or to 'thread-<ident>' (remote.py 66); lines are written in order. *)
From Verif Require Import Py.
Local Open Scope nat_scope.

Section Tname.
  (** the ident that the system gave to each thread there ever was
      (threading.Thread.ident, used by remote.py 56 and 65) *)
  Variable ident : nat -> nat.

  (** thread_names (remote.py 22), the records waiting with the ident in them (remote.py 151,
      handler.py 63), the lines with the name shown (handler.py 110-117) *)
  Record tst := mkT { t_names : list (nat * nat); t_queue : list (nat * nat); t_next : nat; t_out : list (nat * option nat) }.
  (** before anything happens (remote.py 22, 151) *)
  Definition tst0 : tst := mkT [] [] 0 [].
  (** thread_names.get (remote.py 66 and 181) *)
  Fixpoint name_of (ns : list (nat * nat)) (i : nat) : option nat :=
    match ns with [] => None | (j, n) :: r => if Nat.eqb i j then Some n else name_of r i end.
  (** a thread names itself (remote.py 49-57), a thread logs (remote.py 160-162, handler.py 73-77), a line is
      written (remote.py 171-183, handler.py 89-92) *)
  Inductive top := TName (t n : nat) | TLog (t : nat) | TWrite.
  (** remote.py 49-66, 160-183; handler.py 73-108 *)
  Definition tstep (s : tst) (o : top) : tst :=
    match o with
    | TName t n => mkT ((ident t, n) :: t_names s) (t_queue s) (t_next s) (t_out s)
    | TLog t => mkT (t_names s) (t_queue s ++ [(t_next s, ident t)])%list (S (t_next s)) (t_out s)
    | TWrite =>
        match t_queue s with
        | [] => s
        | (k, i) :: r => mkT (t_names s) r (t_next s) (t_out s ++ [(k, name_of (t_names s) i)])%list
        end
    end.
  (** a history (remote.py 49-66, 160-183; handler.py 73-108) *)
  Definition trun (s : tst) (os : list top) : tst := fold_left tstep os s.
End Tname.
