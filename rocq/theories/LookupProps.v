(** Property C135: which method an operator on a proxy calls. *)
From Verif Require Import Py ObjTableModel SerModel ServerModel ProxyModel ProxySpec LookupModel LookupSpec LookupProofs.
Local Open Scope nat_scope.

(** C135.  Where Python finds a special method for the object, the operator on the proxy makes the same
    call exactly when the object has no attribute of its own with that name. *)
Theorem C135_same_method_partial :
  forall o m, In m (operators ++ printing)%list -> m <> "__rxor__" -> forall f args, python_calls o m f ->
  (by_proxy o m args = Ok (proper f args) <-> ~ shadowed o m).
Proof. exact agree_iff. Qed.
Print Assumptions C135_same_method_partial.

(** Where neither Python nor __getattr__ finds one the client raises RemoteCallException. *)
Theorem C135_missing_partial :
  forall o m, In m (operators ++ printing)%list -> m <> "__rxor__" -> forall args, (forall f, ~ python_calls o m f) -> ~ shadowed o m ->
  (forall own mro hook, o = Inst own mro hook -> hook m = None) ->
  by_proxy o m args = Err (RemoteCallException "AttributeError").
Proof. exact missing. Qed.
Print Assumptions C135_missing_partial.

(** Violated: an attribute of the instance, and for a class the method of its instances, is called in
    place of what Python calls, and without the object. *)
Theorem C135_own_attribute_refuted :
  forall o m, In m (operators ++ printing)%list -> m <> "__rxor__" -> forall args, shadowed o m ->
  exists f, by_proxy o m args = Ok (mkInv f (map Some args)).
Proof. exact shadow_calls. Qed.
Print Assumptions C135_own_attribute_refuted.

(** Violated: __getattr__ of the class is asked for special methods, which Python never does. *)
Theorem C135_getattr_asked_refuted :
  forall own mro hook m f args, In m (operators ++ printing)%list -> m <> "__rxor__" ->
  (forall g, ~ python_calls (Inst own mro hook) m g) -> ~ shadowed (Inst own mro hook) m -> hook m = Some f ->
  by_proxy (Inst own mro hook) m args = Ok (mkInv f (map Some args)).
Proof. exact hook_called. Qed.
Print Assumptions C135_getattr_asked_refuted.

(** A class that defines __add__ (1) and inherits __str__ (2) and __eq__ (3) from object, with the
    metaclass type, which has __str__ (2) and __eq__ (3) from object; an instance, an instance with an
    attribute __add__ (9), an instance of a class that hands all attributes on. *)
Definition d_object : ns := [("__str__", 2); ("__eq__", 3)].
Definition d_cls : list ns := [[("__add__", 1)]; d_object].
Definition o_plain : pobj := Inst [("x", 8)] d_cls (fun _ => None).
Definition o_own : pobj := Inst [("__add__", 9)] d_cls (fun _ => None).
Definition o_hook : pobj := Inst [] [d_object] (fun _ => Some 7).
Definition o_class : pobj := Cls d_cls [[]; d_object].
Example C135_example :
  by_proxy o_plain "__add__" [VInt 5] = Ok (mkInv 1 [None; Some (VInt 5)]) /\
  by_proxy o_own "__add__" [VInt 5] = Ok (mkInv 9 [Some (VInt 5)]) /\
  by_proxy o_hook "__add__" [VInt 5] = Ok (mkInv 7 [Some (VInt 5)]) /\
  by_proxy o_class "__str__" [] = Ok (mkInv 2 []) /\
  by_proxy o_plain "__len__" [] = Err (RemoteCallException "AttributeError").
Proof. vm_compute. repeat split. Qed.
Example C135_example_hyps :
  python_calls o_plain "__add__" 1 /\ ~ shadowed o_plain "__add__" /\ python_calls o_own "__add__" 1 /\ shadowed o_own "__add__" /\
  python_calls o_class "__str__" 2 /\ shadowed o_class "__str__" /\ (forall f, ~ python_calls o_hook "__add__" f) /\
  (forall f, ~ python_calls o_class "__add__" f) /\ In "__add__" operators /\ In "__str__" (operators ++ printing)%list.
Proof.
  split; [now apply defines_iff|]. split; [cbn; intuition discriminate|]. split; [now apply defines_iff|]. split; [cbn; auto|].
  split; [now apply defines_iff|]. split; [exists 2; now apply defines_iff|].
  split; [apply none_defines; reflexivity|]. split; [apply none_defines; reflexivity|].
  split; vm_compute; tauto.
Qed.
