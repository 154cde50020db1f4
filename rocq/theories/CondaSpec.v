(** What kill, stop and poll should do. *)
From Verif Require Import Py CondaModel.
Local Open Scope Z_scope.

Definition serves (s : pst) : Prop := p_server s = None.
(** what happens first decides: the server exits by itself or because it is asked, or it is killed *)
Definition code_of (o : pop) : Z := match o with PKill => -9 | PStop => 0 | PExits c => c end.
