(** Specification vocabulary for what requests do and what comes back. *)
From Verif Require Import Py ObjTableModel ObjTableSpec SerModel SerSpec FrameModel ServerModel ClientModel.

(** Looking up attributes one after the other, left to right: the outcome is the
    last object, or the error of the first lookup that fails. *)
Inductive follows (E : senv) : pyval -> list string -> res pyval -> Prop :=
| fo_end v : follows E v [] (Ok v)
| fo_ok v a v' r x : getattr_of E v a = Ok v' -> follows E v' r x -> follows E v (a :: r) x
| fo_fail v a r e : getattr_of E v a = Err e -> follows E v (a :: r) (Err e).

(** What the object [o] is as a value: some objects are plain values *)
Definition value_at (st : sst) (o : obj) (v : pyval) : Prop :=
  dget (ss_boxes st) o = Some v \/ (dget (ss_boxes st) o = None /\ v = VObj o).

(** [q] is an undeleted proxy, and following its attributes leads to [v] *)
Definition resolves (E : senv) (st : sst) (q : proxyrec) (v : pyval) : Prop :=
  exists tr o w, history (ss_o st) tr /\ outstanding tr (p_oid q) (p_rid q) o /\
    value_at st o w /\ follows E w (p_attrs q) (Ok v).

(** [v] may be proxied in this state: objects exist and are not themselves plain values *)
Definition proxyable (st : sst) (v : pyval) : Prop :=
  match v with
  | VObj o => dmem (addrs (hp (ss_o st))) o = true /\ dget (ss_boxes st) o = None
  | _ => True
  end.

(** [h] says what each of the proxies [ps] stands for at server [s]: its own
    undeleted proxies stand for the objects, others for themselves. *)
Definition stands_for (V : venv) (s : sv) (ps : list proxyrec) (h : proxyrec -> pyval) : Prop :=
  forall q, In q ps ->
    if String.eqb (p_addr q) (sv_addr s) then resolves (ve_ser V) (sv_st s) q (h q)
    else h q = VProxy q.

(** none of the proxies belongs to a server in the client's own thread *)
Definition foreign (k : cl) (ps : list proxyrec) : Prop :=
  forall q, In q ps -> c_local k <> Some (p_addr q).

(** a request that the client is waiting for and that is not a close request *)
Definition waiting (k : cl) (rid : Z) : Prop := dget (c_futs k) rid = Some false.

(** names made of components separated by dots *)
Fixpoint no_dot (s : string) : Prop :=
  match s with EmptyString => True | String c r => c <> "."%char /\ no_dot r end.
Fixpoint dotted (l : list string) : string :=
  match l with
  | [] => ""
  | [a] => a
  | a :: r => (a ++ "." ++ dotted r)%string
  end.
