(** Properties C01-C06: the server's proxy reference table. *)
From Verif Require Import Py ObjTableModel ObjTableSpec ObjTableProofs.

(** C01.  Using an object ID yields an object exactly when some proxy issued for
    that object under that ID is undeleted, and then it yields that object. *)
Theorem C01_use_resolves_iff_undeleted :
  forall s tr, history s tr ->
  forall oid r o, outcome s (Use oid r) = OObj o <-> exists rid, outstanding tr oid rid o.
Proof. exact resolves_iff. Qed.
Print Assumptions C01_use_resolves_iff_undeleted.

(** C01, as a user of one proxy sees it: however the history continues, as long
    as the proxy has not been deleted it resolves to its own object. *)
Theorem C01_undeleted_proxy_resolves_to_its_object :
  forall s tr oid rid o,
  history s tr -> issued tr oid rid o -> ~ released tr oid rid ->
  outcome s (Use oid rid) = OObj o.
Proof.
  intros s tr oid rid o H Hi Hr. exact (outstanding_resolves s tr oid rid o H (conj Hi Hr)).
Qed.
Print Assumptions C01_undeleted_proxy_resolves_to_its_object.

(** A history with address re-use: object 0 at address 7 is proxied, released and
    freed; object 1 lands on the same address and is proxied (twice). *)
Definition reuse_ops : list oop :=
  [Alloc 7; GetProxy 0%nat true; Delete 0 0; Free 0%nat;
   Alloc 7; GetProxy 1%nat true; GetProxy 1%nat true; GetProxy 1%nat false; Delete 1 1].
Example reuse_history :
  let '(s, tr) := orun ostate_init reuse_ops in
  history s tr /\ issued tr 1 2 1%nat /\ ~ released tr 1 2 /\
  outcome s (Use 1 2) = OObj 1%nat /\ outcome s (Use 0 0) = OErr KeyError.
Proof.
  vm_compute. split; [exists reuse_ops; reflexivity|].
  split; [exists true; simpl; tauto|]. split; [|auto].
  intro H. repeat (destruct H as [H|H]; [discriminate H|]). destruct H.
Qed.

(** C02. *)
Theorem C02_retained_iff_undeleted_proxy :
  forall s tr, history s tr ->
  forall o, dmem (addrs (hp s)) o = true ->
  (outcome s (Free o) = ONothing <-> exists oid rid, outstanding tr oid rid o).
Proof. exact retained_iff. Qed.
Print Assumptions C02_retained_iff_undeleted_proxy.

Theorem C02_object_of_undeleted_proxy_is_alive :
  forall s tr oid rid o, history s tr -> outstanding tr oid rid o ->
  dmem (addrs (hp s)) o = true.
Proof. exact outstanding_live. Qed.
Print Assumptions C02_object_of_undeleted_proxy_is_alive.

Theorem C02_keyerror_for_ever_after_last_delete :
  forall s tr oid, history s tr ->
  (exists rid o, issued tr oid rid o) ->
  (forall rid o, issued tr oid rid o -> released tr oid rid) ->
  forall ops s2 tr2 rid, orun s ops = (s2, tr2) -> outcome s2 (Use oid rid) = OErr KeyError.
Proof. exact gone_forever. Qed.
Print Assumptions C02_keyerror_for_ever_after_last_delete.

Example C02_case :
  let '(s, tr) := orun ostate_init [Alloc 7; GetProxy 0%nat true; GetProxy 0%nat true; Delete 0 0] in
  dmem (addrs (hp s)) 0%nat = true /\ outcome s (Free 0%nat) = ONothing /\
  outcome (after s (Delete 0 1)) (Free 0%nat) = OFreed /\
  outcome (fst (orun s [Delete 0 1; Free 0%nat; Alloc 7; GetProxy 1%nat true])) (Use 0 0) = OErr KeyError.
Proof. vm_compute. auto. Qed.

(** C03. *)
Theorem C03_same_id_same_object :
  forall s tr oid r1 o1 r2 o2,
  history s tr -> issued tr oid r1 o1 -> issued tr oid r2 o2 -> o1 = o2.
Proof. exact same_id_same_object. Qed.
Print Assumptions C03_same_id_same_object.

Theorem C03_same_object_same_id :
  forall s tr oid1 r1 o ok s2 oid2 r2,
  history s tr -> outstanding tr oid1 r1 o ->
  ostep s (GetProxy o ok) = (s2, OProxy oid2 r2) -> oid2 = oid1.
Proof. exact same_object_same_id. Qed.
Print Assumptions C03_same_object_same_id.

Theorem C03_undeleted_proxies_of_one_object_share_the_id :
  forall s tr oid1 r1 oid2 r2 o,
  history s tr -> outstanding tr oid1 r1 o -> outstanding tr oid2 r2 o -> oid1 = oid2.
Proof. exact outstanding_objects_ids. Qed.
Print Assumptions C03_undeleted_proxies_of_one_object_share_the_id.

(** The case: two objects share the address 7 one after the other (the second
    also after a failed get_proxy) and get the IDs 0 and 1. *)
Example C03_case :
  snd (orun ostate_init [Alloc 7; GetProxy 0%nat true; GetProxy 0%nat true; Delete 0 0; Delete 0 1;
                         GetProxy 0%nat false; Free 0%nat; Alloc 7; GetProxy 1%nat true]) =
  [(Alloc 7, OAlloc 0%nat); (GetProxy 0%nat true, OProxy 0 0); (GetProxy 0%nat true, OProxy 0 1);
   (Delete 0 0, ODeleted); (Delete 0 1, ODeleted); (GetProxy 0%nat false, OErr KeyError);
   (Free 0%nat, OFreed); (Alloc 7, OAlloc 1%nat); (GetProxy 1%nat true, OProxy 1 3)].
Proof. reflexivity. Qed.

(** C04: the [rid]s of any two get_proxy events of a history differ. *)
Theorem C04_reference_ids_unique :
  forall s tr t1 t2 t3 oA okA oidA ridA oB okB oidB ridB,
  history s tr ->
  tr = t1 ++ (GetProxy oA okA, OProxy oidA ridA) :: t2 ++ (GetProxy oB okB, OProxy oidB ridB) :: t3 ->
  ridA <> ridB.
Proof. exact rids_distinct. Qed.
Print Assumptions C04_reference_ids_unique.

Example C04_case :
  exists s, history s [(Alloc 7, OAlloc 0%nat); (GetProxy 0%nat true, OProxy 0 0); (Delete 0 0, ODeleted);
                       (GetProxy 0%nat true, OProxy 1 1)].
Proof.
  exists (fst (orun ostate_init [Alloc 7; GetProxy 0%nat true; Delete 0 0; GetProxy 0%nat true])).
  exists [Alloc 7; GetProxy 0%nat true; Delete 0 0; GetProxy 0%nat true]. reflexivity.
Qed.

(** C05. *)
Theorem C05_delete_undeleted_succeeds :
  forall s tr oid rid o, history s tr -> outstanding tr oid rid o ->
  outcome s (Delete oid rid) = ODeleted.
Proof. exact delete_outstanding. Qed.
Print Assumptions C05_delete_undeleted_succeeds.

Theorem C05_delete_other_is_keyerror_and_changes_nothing :
  forall s tr oid rid, history s tr -> (forall o, ~ outstanding tr oid rid o) ->
  outcome s (Delete oid rid) = OErr KeyError /\ after s (Delete oid rid) = s.
Proof. exact delete_other. Qed.
Print Assumptions C05_delete_other_is_keyerror_and_changes_nothing.

Theorem C05_delete_leaves_other_proxies :
  forall s tr oid rid oid' rid' o',
  history s tr -> outstanding tr oid' rid' o' -> (oid', rid') <> (oid, rid) ->
  outcome (after s (Delete oid rid)) (Use oid' rid') = OObj o'.
Proof. exact delete_leaves_others. Qed.
Print Assumptions C05_delete_leaves_other_proxies.

Example C05_case :
  let '(s, tr) := orun ostate_init [Alloc 7; Alloc 8; GetProxy 0%nat true; GetProxy 1%nat true; GetProxy 0%nat true] in
  outcome s (Delete 0 0) = ODeleted /\
  outcome (after s (Delete 0 0)) (Delete 0 0) = OErr KeyError /\
  outcome s (Delete 0 1) = OErr KeyError /\ outcome s (Delete 5 0) = OErr KeyError /\
  outcome (after s (Delete 0 0)) (Use 0 2) = OObj 0%nat.
Proof. vm_compute. auto 10. Qed.

(** C06 does not hold: [unwrap_proxy] looks only at the object ID.  A deleted
    proxy still gives access to the object in exactly those histories where some
    other proxy of the same ID is undeleted. *)
Theorem C06_deleted_proxy_unusable_refuted :
  exists s tr oid rid o, history s tr /\ released tr oid rid /\ outcome s (Use oid rid) = OObj o.
Proof.
  exists (fst (orun ostate_init [Alloc 7; GetProxy 0%nat true; GetProxy 0%nat true; Delete 0 0])).
  exists (snd (orun ostate_init [Alloc 7; GetProxy 0%nat true; GetProxy 0%nat true; Delete 0 0])).
  exists 0, 0, 0%nat. split; [exists [Alloc 7; GetProxy 0%nat true; GetProxy 0%nat true; Delete 0 0]; reflexivity|]. split; [vm_compute; tauto | reflexivity].
Qed.
Print Assumptions C06_deleted_proxy_unusable_refuted.

Theorem C06_deleted_proxy_usable_iff_another_undeleted_partial :
  forall s tr oid rid, history s tr -> released tr oid rid ->
  ((exists o, outcome s (Use oid rid) = OObj o) <->
   exists rid' o, rid' <> rid /\ outstanding tr oid rid' o).
Proof. exact use_after_delete. Qed.
Print Assumptions C06_deleted_proxy_usable_iff_another_undeleted_partial.
