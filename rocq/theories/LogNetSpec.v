(** Specification vocabulary for forwarding between processes. *)
From Verif Require Import Py LogTreeModel LogTreeSpec LogNetModel.

(** the records that a step makes, by identity *)
Definition logged_ids (o : nop) : list nat :=
  match o with
  | NOp _ (GLog _ _ i) => [i]
  | NOp _ (GUncaught (InMain i)) | NOp _ (GUncaught (InThread i)) | NOp _ (GUncaught (ExitInThread i)) => [i]
  | _ => []
  end.
(** every record is made once *)
Definition made_once (os : list nop) : Prop := NoDup (flat_map logged_ids os).
(** each process that sets the address of its logger uses what get_logger_address returns in
    a process with a smaller number: the one that started it *)
Definition inherited (own : nat -> string) (os : list nop) : Prop :=
  forall os1 p a os2, os = os1 ++ NOp p (GSetAddr a) :: os2 ->
  exists q, (q < p)%nat /\ logger_address (n_proc (nrun own net0 os1) q) (own q) = Some a.
(** no two processes have the same address *)
Definition different (own : nat -> string) : Prop := forall p q, own p = own q -> p = q.
(** how often process p has received record i *)
Definition received (s : net) (p i : nat) : nat :=
  List.length (filter (fun x => Nat.eqb (fst x) p && Nat.eqb (lr_id (snd x)) i) (n_got s)).
Definition is_delivery (o : nop) : Prop := match o with NDeliver _ _ => True | _ => False end.
(** process p forwards to address a *)
Definition forwards (g : gst) (a : string) : Prop := g_making g = None /\ g_sender g <> None /\ g_addr g = Some a.
