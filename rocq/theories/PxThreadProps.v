(** C131: a proxy talks through a client of the thread it is used in. *)
From Verif Require Import Py PxThreadModel PxThreadSpec PxThreadProofs.
Local Open Scope nat_scope.

(** When every proxy object is used in one thread only, every request goes through a client made in
    the thread that makes it.  (Operators, and attributes used at once, count for no proxy object.) *)
Theorem C131_own_client_partial : forall os e, one_thread_each os -> requested (xrun os) e ->
  made_in (xrun os) (xe_client e) (xe_thread e).
Proof. exact (fun os e O => own_client os O e). Qed.
Print Assumptions C131_own_client_partial.

(** Operators and attributes used at once may be used in any thread, whatever else is done. *)
Theorem C131_operators_own_client : forall os e, requested (xrun os) e -> xe_proxy e = None ->
  made_in (xrun os) (xe_client e) (xe_thread e).
Proof. exact operators_own. Qed.
Print Assumptions C131_operators_own_client.
(** And when clients are closed in their own threads only, they find an open client. *)
Theorem C131_operators_find_open_client : forall os e, own_closing xst0 os -> requested (xrun os) e -> xe_proxy e = None ->
  xe_ok e = true.
Proof. exact operators_work. Qed.
Print Assumptions C131_operators_find_open_client.

(** Finding: a proxy that was used in one thread sends the requests of another thread through the
    client of the first. *)
Theorem C131_foreign_client_refuted : forall os a t t', t <> t' -> let i := List.length (xs_px (xrun os)) in
  let st := xrun (os ++ [XReceive a; XUse t i; XUse t' i])%list in
  exists e, requested st e /\ xe_thread e = t' /\ made_in st (xe_client e) t /\ ~ made_in st (xe_client e) t'.
Proof. exact foreign. Qed.
Print Assumptions C131_foreign_client_refuted.

(** Finding: a proxy that was used keeps the client when it is closed: its requests fail from then on,
    although operators on the same proxy in the same thread get a new client and work. *)
Theorem C131_closed_client_refuted : forall os a t, own_closing xst0 os -> let i := List.length (xs_px (xrun os)) in
  exists c c', xs_log (xrun (os ++ [XReceive a; XUse t i; XClose t c; XUse t i; XOperate t i])%list) =
    (xs_log (xrun os) ++ [mkXe t (Some i) c true; mkXe t (Some i) c false; mkXe t None c' true])%list.
Proof. exact after_closing. Qed.
Print Assumptions C131_closed_client_refuted.

(** Two threads, two servers, a copy for the second thread; operators in both. *)
Definition demo_ops : list xop :=
  [XReceive 7; XReceive 8; XUse 1 0; XCopy 0; XUse 2 2; XOperate 1 1; XAttr 0; XUse 2 3; XClose 2 1; XOperate 2 0].
Example C131_case : one_thread_each demo_ops /\ own_closing xst0 demo_ops /\
  xs_log (xrun demo_ops) = [mkXe 1 (Some 0) 0 true; mkXe 2 (Some 2) 1 true; mkXe 1 None 2 true; mkXe 2 (Some 3) 1 true; mkXe 2 None 3 true] /\
  1 <> 2.
Proof.
  split; [|split; [|split; [vm_compute; reflexivity|lia]]].
  - intros i t t' A B. cbn in A, B. intuition congruence.
  - cbn. repeat split; try exact I. exists (mkXc 2 7 true). split; reflexivity.
Qed.
