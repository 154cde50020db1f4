(** Specification vocabulary for special methods and options. *)
From Verif Require Import Py ObjTableModel SerModel ServerModel ProxyModel.

(** the comparisons ([==] with another proxy may be answered by the client, C33) *)
Definition comparisons : list string := ["__lt__"; "__le__"; "__gt__"; "__ge__"; "__ne__"]%string.
(** the proxy has the options of a proxy whose options were left alone, as far as they matter here *)
Definition plain (p : px) : Prop := opt p "sync" = VStr "sync" /\ (opt p "return_type" = VStr "auto" \/ opt p "return_type" = VStr "value").
