(** What the process helpers should do. *)
From Verif Require Import Py UtilModel.
Local Open Scope Z_scope.

(** decimal digits, with enough fuel *)
Fixpoint dec (fuel : nat) (n : Z) (acc : string) : string :=
  match fuel with
  | O => acc
  | S f => let acc := String (ascii_of_nat (48 + Z.to_nat (n mod 10))) acc in
           if n <? 10 then acc else dec f (n / 10) acc
  end.
Definition decimal (n : Z) : string := dec (S (Z.to_nat n)) n EmptyString.

(** a process as listed by [ps -e -o pid,command]: blanks, pid, blank, command *)
Record process := mkP { p_blanks : nat; p_pid : Z; p_cmd : string }.
Fixpoint blanks (n : nat) (s : string) : string := match n with O => s | S n => String " " (blanks n s) end.
Definition ps_line (p : process) : string := blanks (p_blanks p) (decimal (p_pid p) ++ String " " (p_cmd p)).
Definition ps_output (k : nat) (l : list process) : list string :=
  blanks k "PID COMMAND" :: map ps_line l ++ [EmptyString].

(** [sub] occurs in [s] *)
Definition occurs (sub s : string) : Prop := exists a b, s = (a ++ sub ++ b)%string.

Definition alive (ps : procs) (pid : Z) : Prop := dget ps pid <> None.
Definition ours (ps : procs) (pid : Z) : Prop := dget ps pid = Some true.
