(** Specification vocabulary for connecting. *)
From Verif Require Import Py ObjTableModel SerModel FrameModel ServerModel ClientModel WaitModel EnsureModel.

(** the time of a state *)
Definition time_of (s : est) : Z :=
  match e_phase s with ELoop _ now _ _ _ _ => now | EWait _ w => s_now w | EEnd now _ _ => now end.
(** the client in it *)
Definition client_of (s : est) : cl :=
  match e_phase s with ELoop _ _ k _ _ _ => k | EWait _ w => s_cl w | EEnd _ k _ => k end.
(** how it ended *)
Definition ended (s : est) (r : eres) : Prop :=
  match e_phase s with EEnd _ _ r' => r' = r | _ => False end.

(** [p] is an answer to request [rid] *)
Definition answer_for (V : venv) (k : cl) (p : payload) (rid : Z) : Prop :=
  exists d, loads V (c_ser k) (c_local k) (c_st k) p = Ok (VDict d) /\ kget d (VStr "req_id") = Some (VInt rid).

(** every message that arrives in the run satisfies [P], given the state it arrives in *)
Fixpoint arrivals (V : venv) (C : ecfg) (P : est -> payload -> Prop) (s : est) (ls : list wlabel) : Prop :=
  match ls with
  | [] => True
  | l :: r =>
      match l with WArrive p => P s p | _ => True end /\
      match estep V C s l with Some s' => arrivals V C P s' r | None => True end
  end.
(** it answers a ping sent more than [d] ago, or none at all *)
Definition late (V : venv) (d : Z) (s : est) (p : payload) : Prop :=
  forall rid, answer_for V (client_of s) p rid -> exists t, In (rid, t) (e_pings s) /\ t + d < time_of s.

(** a message satisfying [good] arrives, before any other, by the time [limit] (or
    the run ends before that) *)
Fixpoint answered_by (V : venv) (C : ecfg) (good : payload -> Prop) (limit : Z) (s : est) (ls : list wlabel) : Prop :=
  time_of s <= limit /\
  match ls with
  | [] => True
  | WArrive p :: _ => good p
  | l :: r => match estep V C s l with Some s' => answered_by V C good limit s' r | None => True end
  end.
(** the server's answer [v] to request [rid] *)
Definition success (V : venv) (k : cl) (rid : Z) (p : payload) : Prop :=
  exists v, loads V (c_ser k) (c_local k) (c_st k) p =
    Ok (fields [("action", VStr "return"); ("req_id", VInt rid); ("rval", v); ("error", VNone)]).
