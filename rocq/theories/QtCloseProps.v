(** Properties of closed QtRPCServers (C120). *)
From Verif Require Import Py SerModel FrameModel ServerModel ClientModel WireSpec QtCloseModel QtCloseSpec QtCloseProofs RpcModel RpcDemo.

(** ** C120: a closed Qt server is closed *)
(** It says so to the other clients, answers True, and leaves the registry. *)
Theorem C120_close_is_told_partial : forall V, good_venv V -> forall s c m s' o b,
  fit_to_close V s c m -> sv_reg s = true -> qt_begin V s c m = (s', o, b) ->
  b = Finished (Ok (VBool true)) None /\ sv_closed s' = true /\ sv_reg s' = false /\
  forall c' t, dget (sv_clients s) c' = Some t -> c' <> c -> tells V o c' t.
Proof. exact qt_close_told. Qed.
Print Assumptions C120_close_is_told_partial.

(** But it goes on executing and answering requests exactly as if it had not been closed. *)
Theorem C120_goes_on_refuted : forall V, good_venv V -> forall s c m s' o b l,
  fit_to_close V s c m -> sv_reg s = true -> qt_begin V s c m = (s', o, b) -> Forall (fun x => ~ asks_close x) l ->
  b = Finished (Ok (VBool true)) None /\ sv_closed s' = true /\ snd (qt_all V s' l) = snd (qt_all V s l).
Proof. exact qt_closed_serves. Qed.
Print Assumptions C120_goes_on_refuted.

(** A second close request fails, after telling all clients once more. *)
Theorem C120_told_again_refuted : forall V, good_venv V -> forall s c m s' o b,
  fit_to_close V s c m -> sv_reg s = false -> qt_begin V s c m = (s', o, b) ->
  b = Finished (Err KeyError) None /\ forall c' t, dget (sv_clients s) c' = Some t -> c' <> c -> tells V o c' t.
Proof. exact qt_close_again. Qed.
Print Assumptions C120_told_again_refuted.

Definition two_clients : sv := mkSv "tcp://s" ["msgpack"; "json"] [("a", "msgpack"); ("b", "json")]%string [] (sv_st demo_sv) false true true.
Definition close_msg : msg := mkMsg 7 "close" "auto" "msgpack" PEmpty.
Definition ping_msg : msg := mkMsg 8 "ping" "auto" "json" PEmpty.
Example C120_fits : fit_to_close demo_V two_clients "a" close_msg /\ sv_reg two_clients = true.
Proof.
  split; [|reflexivity]. repeat split; try discriminate. intros c t [[= <- <-]|[[= <- <-]|[]]]; reflexivity.
Qed.
(** "b" pings the closed server and is answered *)
Example C120_answered : let s' := fst (fst (qt_begin demo_V two_clients "a" close_msg)) in
  (sv_closed s', match snd (qt_all demo_V s' [("b"%string, ping_msg, Ok VNone)]) with [([Sent to _], false)] => to | _ => ""%string end) = (true, "b"%string).
Proof. vm_compute. reflexivity. Qed.
