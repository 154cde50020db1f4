(** Specification vocabulary for proxies and threads. *)
From Verif Require Import Py PxThreadModel.
Local Open Scope nat_scope.

(** a request was made in thread [t] with the named proxy [i] (or with an operator) *)
Definition requested (st : xst) (e : xev) : Prop := In e (xs_log st).
(** client [c] was made in thread [t] *)
Definition made_in (st : xst) (c t : nat) : Prop := exists k, nth_error (xs_cl st) c = Some k /\ xc_thread k = t.
(** every proxy is used in one thread only *)
Definition one_thread_each (os : list xop) : Prop := forall i t t', In (XUse t i) os -> In (XUse t' i) os -> t = t'.
(** clients are only closed in their own threads *)
Fixpoint own_closing (st : xst) (os : list xop) : Prop :=
  match os with
  | [] => True
  | o :: r => match o with XClose t c => made_in st c t | _ => True end /\ own_closing (xstep st o) r
  end.
