(** What remote exceptions should say. *)
From Verif Require Import Py ErrTextModel.
Local Open Scope N_scope.

Definition contains (t part : text) : Prop := exists a b, t = (a ++ part ++ b)%list.
(** an exception passes through servers, each the client of the one before *)
Inductive travels : list (fmt * hop) -> pexc -> pexc -> Prop :=
| travels_nil e : travels [] e e
| travels_cons f h r e e1 e2 : reply f h e = Some e1 -> travels r e1 e2 -> travels ((f, h) :: r) e e2.
(** no surrogates in it *)
Definition clean (t : text) : Prop := forall c, In c t -> c < 55296 \/ 57343 < c.
(** everything that is said about the request and the exception *)
Definition clean_req (r : ereq) : Prop :=
  clean (h_caller (er_hop r)) /\ clean (h_req (er_hop r)) /\
  (forall t, In t (h_stack (er_hop r) ++ h_frames (er_hop r))%list -> clean t) /\
  match er_exc r with Plain m c t => clean m /\ clean c /\ clean t | Remote t tb => clean t /\ forall x, In x tb -> clean x end.
