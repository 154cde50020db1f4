(** Specification vocabulary for the reference table: everything is said in
    terms of the history of events, never of the table's fields. *)
From Verif Require Import Py ObjTableModel.

(** A proxy with these IDs was handed out for object [o]. *)
Definition issued (tr : otrace) (oid rid : Z) (o : obj) : Prop :=
  exists ok, In (GetProxy o ok, OProxy oid rid) tr.

(** A request to delete that proxy was carried out. *)
Definition released (tr : otrace) (oid rid : Z) : Prop :=
  In (Delete oid rid, ODeleted) tr.

(** The proxy exists and has not been deleted. *)
Definition outstanding (tr : otrace) (oid rid : Z) (o : obj) : Prop :=
  issued tr oid rid o /\ ~ released tr oid rid.

(** [s] and [tr] are the state and the history after some sequence of events
    in a fresh server. *)
Definition history (s : ostate) (tr : otrace) : Prop :=
  exists ops, orun ostate_init ops = (s, tr).

(** What happens if [op] is done now. *)
Definition outcome (s : ostate) (op : oop) : oout := snd (ostep s op).
Definition after (s : ostate) (op : oop) : ostate := fst (ostep s op).

(** The object cannot be freed by Python because the server refers to it. *)
Definition retained (s : ostate) (o : obj) : Prop :=
  outcome s (Free o) = ONothing /\ dmem (addrs (hp s)) o = true.
