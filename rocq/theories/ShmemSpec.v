(** What shared arrays should do. *)
From Verif Require Import Py ShmemModel.

(** indices of an array *)
Fixpoint in_shape (ix sh : list Z) : Prop :=
  match ix, sh with
  | [], [] => True
  | i :: ix, n :: sh => 0 <= i < n /\ in_shape ix sh
  | _, _ => False
  end.
(** two arrays show the same elements, now and after any writing through either *)
Definition same_array (v w : view) : Prop :=
  v_shape v = v_shape w /\ v_item v = v_item w /\
  forall m ix, in_shape ix (v_shape v) -> read m v ix = read m w ix /\ forall b, write m v ix b = write m w ix b.
Definition linked (s : shst) (seg : string) : Prop := In seg (ss_linked s).
(** every element lies in the memory that was reserved *)
Definition fits (s : shst) (v : view) : Prop :=
  exists size, dget (ss_size s) (v_seg v) = Some size /\
  forall ix, in_shape ix (v_shape v) -> 0 <= addr v ix /\ addr v ix + Z.of_nat (v_item v) <= size.
