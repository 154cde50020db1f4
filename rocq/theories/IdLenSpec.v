(** Names that are short enough. *)
From Verif Require Import Py NameModel.
Local Open Scope Z_scope.

(** the name a thread was given, or the one made of its number *)
Fixpoint given (l : list (Z * string)) (k : Z) : option string :=
  match l with [] => None | (i, n) :: r => if i =? k then Some n else given r k end.
Definition thread (p : process) (tid : N) : string :=
  match given (pr_threads p) (Z.of_N tid) with Some n => n | None => ("thread-" ++ hex_str tid)%string end.
(** the identity *)
Definition full (p : process) (tid : N) (addr : string) : string :=
  (pr_host p ++ "." ++ pr_name p ++ "." ++ thread p tid ++ ":" ++ addr)%string.
(** the bytes of all four parts, without the three separators *)
Definition total (p : process) (tid : N) (addr : string) : Z :=
  Z.of_nat (String.length (pr_host p)) + Z.of_nat (String.length (pr_name p)) +
  Z.of_nat (String.length (thread p tid)) + Z.of_nat (String.length addr).
