(** RPCClient.measure_clock_diff, teleprox/client.py 616-630, over the rationals (the
    code uses floating point numbers). *)
From Verif Require Import Py.
From Coq Require Export QArith.
Local Open Scope Q_scope.

(** client.py 622-625: local and remote readings, one of each per round *)
Fixpoint readings (rounds : list (Q * Q)) : list Q * list Q :=
  match rounds with
  | [] => ([], [])
  | (lt, rt) :: r => let '(ls, rs) := readings r in (lt :: ls, rt :: rs)
  end.
(** zip of three (library) *)
Fixpoint zip3 (a b c : list Q) : list (Q * Q * Q) :=
  match a, b, c with x :: a, y :: b, z :: c => (x, y, z) :: zip3 a b c | _, _, _ => [] end.
(** sum(dif), len(dif) (library) *)
Definition qsum (l : list Q) : Q := fold_left Qplus l 0.
(** len(l), client.py 627 *)
Definition qlen (l : list Q) : Q := inject_Z (Z.of_nat (List.length l)).
(** client.py 626-630 *)
Definition estimate (rounds : list (Q * Q)) : Q :=
  let '(ltimes, rtimes) := readings rounds in
  let rtimes := removelast rtimes in
  let dif := map (fun '(rt, lt1, lt2) => rt - ((lt1 + lt2) * (1 # 2))) (zip3 rtimes (tl ltimes) (removelast ltimes)) in
  qsum dif / qlen dif.
