(** Where log records should go. *)
From Verif Require Import Py SetAddrModel.
Local Open Scope nat_scope.

(** the last address that could be set; none could *)
Definition last_set (os : list lop) (n : nat) : Prop :=
  exists l r, os = (l ++ OSet (Good n) :: r)%list /\ forall m, ~ In (OSet (Good m)) r.
Definition never_set (os : list lop) : Prop := forall m, ~ In (OSet (Good m)) os.
(** no attempt failed *)
Definition no_failure (os : list lop) : Prop := ~ In (OSet Bad) os.
Definition no_server (os : list lop) : Prop := forall n, ~ In (OStart n) os.
(** all records that are kept *)
Definition kept (st : logst) : list nat := flat_map sn_kept (l_all st).
