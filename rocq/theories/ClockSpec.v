(** What a measurement of the clock offset should give. *)
From Verif Require Import Py.
From Coq Require Import QArith Qabs.
Local Open Scope Q_scope.

(** rounds made one after the other: each local time [lt] is followed by the time [s]
    (local clock) at which the remote clock was read, then by the next round; the remote
    clock shows local time plus [off] *)
Fixpoint honest (off : Q) (rounds : list (Q * Q)) : Prop :=
  match rounds with
  | [] => True
  | (lt, rt) :: r => (exists s, rt == s + off /\ lt <= s /\ match r with [] => True | (lt', _) :: _ => s <= lt' end) /\ honest off r
  end.
(** time from the start of the first round to the start of the last *)
Definition span (rounds : list (Q * Q)) : Q := fst (last rounds (0, 0)) - fst (hd (0, 0) rounds).
(** number of complete round trips *)
Definition trips (rounds : list (Q * Q)) : Q := inject_Z (Z.of_nat (List.length rounds - 1)).
