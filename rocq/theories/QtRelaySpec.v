(** What the Qt relay should do. *)
From Verif Require Import Py QtRelayModel.

(** requests that arrived *)
Fixpoint arrived (ls : list qlab) : list request :=
  match ls with [] => [] | QArrive m :: t => m :: arrived t | _ :: t => arrived t end.
(** what the Qt thread sent, given whether it had a request to process: follow the run *)
Fixpoint produced (s : qst) (ls : list qlab) : list reply :=
  match ls with
  | [] => []
  | l :: t =>
      (if q_exit s then [] else
       match l with
       | QProcess rs => match q_events s with [] => [] | _ => rs end
       | QSend r => [r]
       | QStop => [("STOP", 0%nat)]
       | _ => []
       end) ++ produced (qstep s l) t
  end.
Definition no_exit (ls : list qlab) : Prop := ~ In QExit ls.
