(** When the text of a log message is made: handler.py 73-77 [emit], 79-93 [poll_records], 95-103 [format];
    remote.py 160-183.  Both handlers put the record into a queue, and another thread computes
    [msg % args] later.

    Simplified: a message has one argument; the queue is first in, first out (its order is the subject
    of C41 and C43); nothing is dropped. *)
From Verif Require Import Py.
Local Open Scope nat_scope.

(** the argument of a log call: a value that never changes, or a mutable object, by number
    (logging.LogRecord.args, used by handler.py 98 and remote.py 176-178) *)
Inductive arg := Const (v : Z) | Ref (c : nat).
(** the states of mutable objects, the records in the queue (handler.py 63, remote.py 151), the lines
    written or sent *)
Record ast := mkA { a_obj : nat -> Z; a_queue : list (nat * arg); a_next : nat; a_out : list (nat * Z) }.
(** nothing logged yet (handler.py 63, remote.py 151) *)
Definition ast0 (f : nat -> Z) : ast := mkA f [] 0 [].
(** str() of the argument, now (handler.py 98, remote.py 178) *)
Definition show (f : nat -> Z) (a : arg) : Z := match a with Const v => v | Ref c => f c end.
(** steps: the program logs (handler.py 73-77, remote.py 160-162), the program changes an object, the
    thread of the handler writes a line (handler.py 89-92, remote.py 164-183) *)
Inductive aop := ALog (a : arg) | ASet (c : nat) (v : Z) | AWrite.
(** handler.py 73-93, remote.py 160-183 *)
Definition astep (s : ast) (o : aop) : ast :=
  match o with
  | ALog a => mkA (a_obj s) (a_queue s ++ [(a_next s, a)])%list (S (a_next s)) (a_out s)
  | ASet c v => mkA (fun x => if Nat.eqb x c then v else a_obj s x) (a_queue s) (a_next s) (a_out s)
  | AWrite =>
      match a_queue s with
      | [] => s
      | (i, a) :: r => mkA (a_obj s) r (a_next s) (a_out s ++ [(i, show (a_obj s) a)])%list
      end
  end.
(** a history of steps (handler.py 73-93, remote.py 160-183) *)
Definition arun (s : ast) (os : list aop) : ast := fold_left astep os s.
