(** C133: the options of a proxy do not change what its operators mean. *)
From Verif Require Import Py ObjTableModel SerModel ServerModel ClientModel ApiModel RpcDemo ProxyModel ProxySpec ProxyProps SyncOpModel SyncOpSpec SyncOpProofs.
Local Open Scope nat_scope.

(** With the default sync and return_type 'auto' or 'value', a comparison as a condition is the answer
    of the object's method and len(p) is its length; exceptions arrive as RemoteCallException. *)
Theorem C133_condition_partial : forall p m args f q r, made p -> In m comparisons -> plain p ->
  test p m args f q r = bind (at_client r) condition.
Proof. exact test_plain. Qed.
Print Assumptions C133_condition_partial.
Theorem C133_length_partial : forall p f q r, made p -> plain p -> len p f q r = bind (at_client r) length_of.
Proof. exact len_plain. Qed.
Print Assumptions C133_length_partial.

(** Finding: with sync='async' every comparison is true and with 'off' every comparison is false,
    whatever the object's method gives or raises. *)
Theorem C133_always_true_refuted : forall p m args f q r, made p -> In m comparisons -> opt p "sync" = VStr "async" ->
  test p m args f q r = Ok true.
Proof. exact test_async. Qed.
Print Assumptions C133_always_true_refuted.
Theorem C133_always_false_refuted : forall p m args f q r, made p -> In m comparisons -> opt p "sync" = VStr "off" ->
  test p m args f q r = Ok false.
Proof. exact test_off. Qed.
Print Assumptions C133_always_false_refuted.
(** Finding: with return_type='proxy' the condition raises AttributeError. *)
Theorem C133_condition_by_proxy_refuted : forall p m args f q v, made p -> In m comparisons -> opt p "sync" = VStr "sync" ->
  opt p "return_type" = VStr "proxy" -> test p m args f q (Ok v) = Err (RemoteCallException "AttributeError").
Proof. exact test_proxy. Qed.
Print Assumptions C133_condition_by_proxy_refuted.
(** Finding: with any of these, len(p) raises TypeError, whatever the length is. *)
Theorem C133_no_length_refuted : forall p f q n, made p ->
  opt p "sync" = VStr "async" \/ opt p "sync" = VStr "off" \/ (opt p "sync" = VStr "sync" /\ opt p "return_type" = VStr "proxy") ->
  len p f q (Ok n) = Err TypeError.
Proof. exact len_other. Qed.
Print Assumptions C133_no_length_refuted.
(** Finding: with sync='async' or 'off' a loop over a proxy never ends, whatever the object contains. *)
Theorem C133_endless_loop_refuted : forall p f q item n, made p -> opt p "sync" = VStr "async" \/ opt p "sync" = VStr "off" ->
  List.length (fst (py_iter (item_of p f q item) n 0)) = n /\ snd (py_iter (item_of p f q item) n 0) = None.
Proof. exact iter_other. Qed.
Print Assumptions C133_endless_loop_refuted.

(** A plain proxy, and the same proxy with other options; its object has three items. *)
Definition opted (kw : list (string * pyval)) : px := fst (set_options x0 kw).
Definition demo_item (i : nat) : res pyval := if Nat.ltb i 3 then Ok (VInt (Z.of_nat i)) else Err (UserExc "IndexError").
Example C133_case : made x0 /\ plain x0 /\
  test x0 "__lt__" [VInt 5] 9 p0 (Ok (VBool false)) = Ok false /\ len x0 9 p0 (Ok (VInt 3)) = Ok 3%Z /\
  made (opted [("sync", VStr "async")]) /\ opt (opted [("sync", VStr "async")]) "sync" = VStr "async" /\
  test (opted [("sync", VStr "async")]) "__lt__" [VInt 5] 9 p0 (Ok (VBool false)) = Ok true /\
  test (opted [("sync", VStr "off")]) "__lt__" [VInt 5] 9 p0 (Ok (VBool true)) = Ok false /\
  len (opted [("return_type", VStr "proxy")]) 9 p0 (Ok (VInt 3)) = Err TypeError /\
  snd (py_iter (item_of x0 (fun i => i) (fun _ => p0) demo_item) 5 0) = Some (Err (RemoteCallException "IndexError")) /\
  fst (py_iter (item_of (opted [("sync", VStr "async")]) (fun i => i) (fun _ => p0) demo_item) 5 0) = [VObj 0; VObj 1; VObj 2; VObj 3; VObj 4].
Proof.
  split; [exact x0_made|]. split; [split; [reflexivity|left; reflexivity]|]. repeat split; try (vm_compute; reflexivity).
  eapply (made_set x0 [("sync", VStr "async")]); [exact x0_made|repeat constructor; auto|reflexivity].
Qed.
