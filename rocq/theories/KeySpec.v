(** Specification vocabulary for dictionaries with keys other than text. *)
From Verif Require Import Py ObjTableModel SerModel SerSpec.

(** str or bytes *)
Definition text_key (k : pyval) : Prop := match k with VStr _ | VBytes _ => True | _ => False end.
(** a value that msgpack carries as it is, with at most [n] levels *)
Definition whole (E : senv) (n : nat) (v : pyval) : Prop :=
  sendable E v /\ objs E v = [] /\ proxies v = [] /\ (mdepth E v <= n)%nat.
Definition whole_items (E : senv) (n : nat) (d : list (pyval * pyval)) : Prop :=
  Forall (fun kv => whole E n (fst kv) /\ whole E n (snd kv)) d.
(** a value with, somewhere in it, a dict that has a key other than str and bytes *)
Inductive other_key_in (E : senv) : nat -> pyval -> Prop :=
| ok_here n d k v : whole_items E n d -> In (k, v) d -> ~ text_key k -> other_key_in E (S n) (VDict d)
| ok_list n a v b : Forall (whole E n) a -> other_key_in E n v -> Forall (whole E n) b -> other_key_in E (S n) (VList (a ++ v :: b))
| ok_tuple n a v b : Forall (whole E n) a -> other_key_in E n v -> Forall (whole E n) b -> other_key_in E (S (S n)) (VTuple (a ++ v :: b))
| ok_value n a k v b : whole_items E n a -> Forall (fun kv => text_key (fst kv)) a -> text_key k -> other_key_in E n v -> whole_items E n b ->
    other_key_in E (S n) (VDict (a ++ (k, v) :: b)).
