(** Specification vocabulary for the state of a connection. *)
From Verif Require Import Py ObjTableModel SerModel FrameModel ServerModel ClientModel WireSpec ConnModel.

(** client [k] can decode all of these messages *)
Definition decodable (V : venv) (k : cl) (ps : list payload) : Prop :=
  forall p, In p ps -> exists v, loads V (c_ser k) (c_local k) (c_st k) p = Ok v.
(** one of them is the server's goodbye *)
Definition goodbye (V : venv) (k : cl) (ps : list payload) : Prop :=
  exists p, In p ps /\ loads V (c_ser k) (c_local k) (c_st k) p = Ok notice.

(** asking a future [n] times whether it is done, the answers in order *)
Fixpoint ask_done (V : venv) (n : nat) (k : cl) (inbox : list payload) (rid : Z) : list bool :=
  match n with
  | O => []
  | S n => let '(k1, in1, b) := future_done V k inbox rid in b :: ask_done V n k1 in1 rid
  end.
