(** Specification vocabulary for killing processes. *)
From Verif Require Import Py KillModel.

(** the process a handle was made for *)
Definition made_for (h : handle) : nat := match h with HChild who _ _ | HDaemon who _ => who end.
Definition is_child (h : handle) : bool := match h with HChild _ _ _ => true | _ => false end.
(** process [who] is running, under number [pid] *)
Definition running (s : kst) (who : nat) (pid : Z) : Prop :=
  exists r, In r (t_rows s) /\ r_who r = who /\ r_pid r = pid /\ r_zombie r = false.
Definition alive (s : kst) (who : nat) : Prop := exists pid, running s who pid.
