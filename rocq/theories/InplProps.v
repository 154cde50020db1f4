(** C132: in-place operators on proxies work like those on the objects. *)
From Verif Require Import Py ServerModel ProxyModel InplModel InplSpec InplProofs.
Local Open Scope nat_scope.

(** [p op= v] does to the remote objects what [x op= v] does, and the name stands for the proxy to the
    object that x would stand for (exceptions arrive as RemoteCallException), for the operators proxies
    forward, if the class of the object defines the in-place method, and if the result is not of a type
    that is sent by value or the proxy has return_type='proxy'. *)
Theorem C132_like_object_partial : forall W h b op i v, In op inplace_ops -> supports W h op i v ->
  (b = true \/ forall h1 j, object_iop W h op i v = (h1, Ok j) -> kept_remote W h1 j) ->
  proxy_iop W h b op i v = (fst (object_iop W h op i v), as_seen (snd (object_iop W h op i v))).
Proof. exact like_object. Qed.
Print Assumptions C132_like_object_partial.
(** The same for [%=], if the class of the object does not define the in-place method. *)
Theorem C132_modulo_partial : forall W h b i v k c f, nth_error h i = Some (k, c) ->
  w_meth W k "__imod__" = None -> w_meth W k "__mod__" = Some f -> f c v <> NotImpl ->
  (b = true \/ forall h1 j, object_iop W h "mod" i v = (h1, Ok j) -> kept_remote W h1 j) ->
  proxy_iop W h b "mod" i v = (fst (object_iop W h "mod" i v), as_seen (snd (object_iop W h "mod" i v))).
Proof. exact mod_ordinary. Qed.
Print Assumptions C132_modulo_partial.

(** Finding: with the default options, [p += v] for an object of a type that is sent by value (a list,
    an array) changes the object and makes the name stand for a copy; the next [p += w] changes only
    the copy. *)
Theorem C132_becomes_copy_refuted : forall W h op i v w k c f c1 c2, In op inplace_ops -> nth_error h i = Some (k, c) ->
  w_meth W k (iname op) = Some f -> f c v = Self c1 -> f c1 w = Self c2 -> w_sent W k = true ->
  exists h1, proxy_iop W h false op i v = (h1, Ok (HCopy k c1)) /\ nth_error h1 i = Some (k, c1) /\
    name_iop W h1 false op (HCopy k c1) w = (h1, Ok (HCopy k c2)).
Proof. exact becomes_copy. Qed.
Print Assumptions C132_becomes_copy_refuted.
(** Finding: for an object whose class has only the ordinary method (a number, a text, a tuple), the
    proxy raises AttributeError instead of making the new object. *)
Theorem C132_no_fallback_refuted : forall W h b op i v k c f k' c', In op inplace_ops -> nth_error h i = Some (k, c) ->
  w_meth W k (iname op) = None -> w_meth W k (bname op) = Some f -> f c v = New k' c' ->
  proxy_iop W h b op i v = (h, Err (RemoteCallException "AttributeError")) /\
  object_iop W h op i v = ((h ++ [(k', c')])%list, Ok (List.length h)).
Proof. exact no_fallback. Qed.
Print Assumptions C132_no_fallback_refuted.
(** Finding: when the in-place method returns NotImplemented the name becomes a proxy to NotImplemented. *)
Theorem C132_not_implemented_refuted : forall W h b op i v k c f, In op inplace_ops -> nth_error h i = Some (k, c) ->
  w_meth W k (iname op) = Some f -> f c v = NotImpl ->
  proxy_iop W h b op i v = (h, Ok HNot).
Proof. exact not_implemented. Qed.
Print Assumptions C132_not_implemented_refuted.
(** Finding: [p %= v] never changes the object, also when its class defines the in-place method. *)
Theorem C132_modulo_refuted : forall W h b i v k c f g c1 k' c', nth_error h i = Some (k, c) ->
  w_meth W k "__imod__" = Some f -> f c v = Self c1 -> w_meth W k "__mod__" = Some g -> g c v = New k' c' -> c <> c1 ->
  nth_error (fst (object_iop W h "mod" i v)) i = Some (k, c1) /\
  nth_error (fst (proxy_iop W h b "mod" i v)) i = Some (k, c).
Proof. exact mod_not_in_place. Qed.
Print Assumptions C132_modulo_refuted.

(** Class 0 (like an array): in place, sent by value.  Class 1: in place, sent by proxy.  Class 2 (like
    a number): ordinary methods only.  Class 3: gives up in place. *)
Definition demo_classes : classes :=
  mkW (fun k m =>
         if Nat.ltb k 2 && String.eqb m "__iadd__" then Some (fun c v => Self (c + v))
         else if Nat.ltb k 2 && String.eqb m "__imod__" then Some (fun c v => Self (Z.modulo c v))
         else if Nat.eqb k 3 && String.eqb m "__iadd__" then Some (fun _ _ => NotImpl)
         else if String.eqb m "__add__" then Some (fun c v => New k (c + v))
         else if String.eqb m "__mod__" then Some (fun c v => New k (Z.modulo c v))
         else None)
      (fun k => negb (Nat.eqb k 1)).
Definition demo_objs : objs := [(0, 10%Z); (1, 20%Z); (2, 30%Z); (3, 40%Z)].
Example C132_case :
  In "add"%string inplace_ops /\ supports demo_classes demo_objs "add" 1 5 /\
  proxy_iop demo_classes demo_objs false "add" 1 5 = ([(0, 10%Z); (1, 25%Z); (2, 30%Z); (3, 40%Z)], Ok (HProxy 1)) /\
  object_iop demo_classes demo_objs "add" 1 5 = ([(0, 10%Z); (1, 25%Z); (2, 30%Z); (3, 40%Z)], Ok 1) /\
  proxy_iop demo_classes demo_objs false "add" 0 5 = ([(0, 15%Z); (1, 20%Z); (2, 30%Z); (3, 40%Z)], Ok (HCopy 0 15)) /\
  proxy_iop demo_classes demo_objs true "add" 0 5 = ([(0, 15%Z); (1, 20%Z); (2, 30%Z); (3, 40%Z)], Ok (HProxy 0)) /\
  snd (proxy_iop demo_classes demo_objs false "add" 2 5) = Err (RemoteCallException "AttributeError") /\
  snd (object_iop demo_classes demo_objs "add" 2 5) = Ok 4 /\
  snd (proxy_iop demo_classes demo_objs false "add" 3 5) = Ok HNot /\
  snd (object_iop demo_classes demo_objs "add" 3 5) = Ok 4 /\
  snd (proxy_iop demo_classes demo_objs true "mod" 2 7) = Ok (HProxy 4) /\
  snd (proxy_iop demo_classes demo_objs false "mod" 1 7) = Ok (HProxy 4) /\
  snd (object_iop demo_classes demo_objs "mod" 1 7) = Ok 1.
Proof.
  repeat split; try (vm_compute; reflexivity); [left; reflexivity|].
  exists 1, 20%Z, (fun c v => Self (c + v)). repeat split; discriminate.
Qed.
