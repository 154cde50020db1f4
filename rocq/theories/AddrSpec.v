(** Specification vocabulary for addresses. *)
From Verif Require Import Py AddrModel.
Local Open Scope Z_scope.

Definition digit_is (c : ascii) (z : Z) : Prop :=
  (c = "0"%char /\ z = 0) \/ (c = "1"%char /\ z = 1) \/ (c = "2"%char /\ z = 2) \/ (c = "3"%char /\ z = 3) \/ (c = "4"%char /\ z = 4) \/
  (c = "5"%char /\ z = 5) \/ (c = "6"%char /\ z = 6) \/ (c = "7"%char /\ z = 7) \/ (c = "8"%char /\ z = 8) \/ (c = "9"%char /\ z = 9).
(** [number d n]: [d] is a decimal number of at least one digit, leading zeros allowed *)
Inductive number : string -> Z -> Prop :=
| number_one c z : digit_is c z -> number (String c EmptyString) z
| number_more d n c z : number d n -> digit_is c z -> number (d ++ String c EmptyString) (10 * n + z).
(** the character that ends a line *)
Definition line_feed : ascii := "010"%char.
(** a host name as far as the syntax of addresses goes *)
Definition one_line (h : string) : Prop := forall a b, h <> (a ++ String line_feed b)%string.
Definition host_name (h : string) : Prop := h <> EmptyString /\ one_line h.
(** [address a h p]: [a] is tcp://h:p *)
Definition address (a h : string) (p : Z) : Prop :=
  exists d, number d p /\ host_name h /\ (a = "tcp://" ++ h ++ ":" ++ d \/ a = "tcp://" ++ h ++ ":" ++ d ++ String line_feed EmptyString)%string.
(** the answer that goes with what the network does *)
Definition status_of (x : attempt) : status := match x with Accepted => SOpen | TimedOut => STimeout | _ => SClosed end.
