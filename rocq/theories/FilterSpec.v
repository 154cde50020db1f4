(** Who should pass a record on. *)
From Verif Require Import Py FilterModel.

(** the record has at least the level of the handler, and no filter refuses it *)
Definition wants (h : fhand) (r : flrec) : Prop :=
  fh_level h <= fr_level r /\ forall f, In f (fh_filters h) -> f r = true.
(** the logger lets the record through *)
Definition lets (l : flog) (r : flrec) : Prop :=
  fl_disabled l = false /\ fl_level l <= fr_level r /\ forall f, In f (fl_filters l) -> f r = true.
(** the handlers here that do not obey their filters *)
Definition own_handle (h : fhand) : Prop := fh_kind h = FSender \/ fh_kind h = FQt.
(** what the library would do: handler [i] passes the record on exactly if the logger and it want to *)
Definition passed_on (l : flog) (r : flrec) (i : nat) : Prop :=
  lets l r /\ exists h, nth_error (fl_hands l) i = Some h /\ wants h r.
