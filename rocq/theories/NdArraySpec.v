(** Specification vocabulary for arrays: an array is what its elements are. *)
From Verif Require Import Py NdArrayModel.

(** one stride per axis *)
Definition wf_array (a : ndarray) : Prop := List.length (a_strides a) = List.length (a_shape a).
(** an index within the bounds of the shape *)
Definition in_bounds (idx shape : list nat) : Prop := Forall2 lt idx shape.
(** same dtype size, same shape, same element at every index *)
Definition same_array (a b : ndarray) : Prop :=
  a_item a = a_item b /\ a_shape a = a_shape b /\
  forall idx, in_bounds idx (a_shape a) -> elem a idx = elem b idx.

(** all elements lie within the first [size] bytes of the memory *)
Definition within (size : Z) (a : ndarray) : Prop :=
  forall idx, in_bounds idx (a_shape a) ->
  let p := elem_addr (a_off a) idx (a_strides a) in 0 <= p /\ p + Z.of_nat (a_item a) <= size.
