(** Property C134: futures as concurrent.futures documents them. *)
From Verif Require Import Py ObjTableModel SerModel SerProps FrameModel ServerModel ClientModel WireSpec RpcSpec RpcDemo
  ClientProofs FutModel FutSpec FutProofs.
Local Open Scope nat_scope.

(** C134.  A callback is called as often as it was added to a future that the program keeps, once that has
    an outcome ... *)
Theorem C134_callback_called_partial :
  forall V ser local st os rid cb, let s := frun V (f0 ser local st) os in
  In rid (f_held s) -> forall o, finished (f_cl s) rid o -> called rid cb (f_log s) = added rid cb (f_log s).
Proof. exact exactly. Qed.
Print Assumptions C134_callback_called_partial.

(** ... never more often, ... *)
Theorem C134_callback_not_more :
  forall V ser local st os rid cb, let l := f_log (frun V (f0 ser local st) os) in called rid cb l <= added rid cb l.
Proof. exact at_most. Qed.
Print Assumptions C134_callback_not_more.

(** ... and never before the future has the outcome that the callback is shown. *)
Theorem C134_callback_sees_outcome :
  forall V ser local st os rid cb o, let s := frun V (f0 ser local st) os in
  In (FCalled rid cb o) (f_log s) -> finished (f_cl s) rid o.
Proof. exact called_outcome. Qed.
Print Assumptions C134_callback_sees_outcome.

(** Violated: a callback does not keep its future.  When the program gives a future up that has no outcome
    yet, its callbacks are never called, whatever comes. *)
Theorem C134_callback_lost_refuted :
  forall V ser local st os rid os2, let s := frun V (f0 ser local st) os in
  In rid (f_held s) -> (forall o, ~ finished (f_cl s) rid o) ->
  forall cb o, ~ In (FCalled rid cb o) (f_log (frun V (fstep V s (FDrop rid)) os2)).
Proof. exact dropped_never. Qed.
Print Assumptions C134_callback_lost_refuted.

(** exception() of a completed future agrees with result() ... *)
Theorem C134_exception_done_partial :
  forall V k inbox rid o timeout, finished k rid o ->
  exception_of k inbox rid timeout = (k, inbox, Gives (as_exception o)) /\ result_of V k inbox rid = (k, inbox, Has o).
Proof. exact exception_done. Qed.
Print Assumptions C134_exception_done_partial.

(** ... but violated: with the reply already in the socket result() gives its value, and exception() never
    returns; with a timeout it raises TimeoutError, and the reply still is in the socket. *)
Theorem C134_exception_waits_for_ever_refuted :
  forall V ser local st os rid p rest v, let s := frun V (f0 ser local st) os in
  f_in s = p :: rest -> pending (f_cl s) rid ->
  loads V (c_ser (f_cl s)) (c_local (f_cl s)) (c_st (f_cl s)) p = Ok (reply rid v VNone) ->
  (exists k', result_of V (f_cl s) (f_in s) rid = (k', rest, Has (Ok v))) /\
  forall t, exception_of (f_cl s) (f_in s) rid t = (f_cl s, f_in s, match t with Some _ => TimesOut | None => Never end).
Proof. exact stuck_reached. Qed.
Print Assumptions C134_exception_waits_for_ever_refuted.

(** Two requests.  A callback is added to both; the reply to the first has come. *)
Definition fut_reply (rid v : Z) : payload :=
  match snd (dumps demo_V "msgpack" None st0 (reply rid (VInt v) VNone)) with Ok p => p | Err _ => PJunk end.
Definition fut_ops : list fop :=
  [FSend "ping" None "auto"; FSend "ping" None "auto"; FAdd 0 1; FAdd 1 1; FArrive (fut_reply 0 7)].
Definition fut_s (os : list fop) : futst := frun demo_V (f0 "msgpack" None st0) os.
Example C134_example_stuck :
  f_in (fut_s fut_ops) = [fut_reply 0 7] /\ pending (f_cl (fut_s fut_ops)) 0%Z /\
  loads demo_V "msgpack" None st0 (fut_reply 0 7) = Ok (reply 0 (VInt 7) VNone) /\
  snd (exception_of (f_cl (fut_s fut_ops)) (f_in (fut_s fut_ops)) 0 None) = Never /\
  snd (result_of demo_V (f_cl (fut_s fut_ops)) (f_in (fut_s fut_ops)) 0) = Has (Ok (VInt 7)).
Proof. vm_compute. repeat split. left. reflexivity. Qed.
(** The first reply is read, a second callback is added to the first future, the second future is given up
    before its reply comes. *)
Definition fut_more : list fop := (fut_ops ++ [FRead; FAdd 0 2])%list.
Example C134_example_called :
  In 0%Z (f_held (fut_s fut_more)) /\ finished (f_cl (fut_s fut_more)) 0 (Ok (VInt 7)) /\
  called 0 1 (f_log (fut_s fut_more)) = 1 /\ called 0 2 (f_log (fut_s fut_more)) = 1 /\
  called 1 1 (f_log (fut_s fut_more)) = 0 /\ added 1 1 (f_log (fut_s fut_more)) = 1 /\
  exception_of (f_cl (fut_s fut_more)) [] 0 None = (f_cl (fut_s fut_more), [], Gives None).
Proof. vm_compute. repeat split. left. reflexivity. Qed.
Example C134_example_lost :
  In 1%Z (f_held (fut_s fut_more)) /\ (forall o, ~ finished (f_cl (fut_s fut_more)) 1 o) /\
  called 1 1 (f_log (fut_s (fut_more ++ [FDrop 1; FArrive (fut_reply 1 8); FRead]))) = 0 /\
  called 1 1 (f_log (fut_s (fut_more ++ [FArrive (fut_reply 1 8); FRead]))) = 1.
Proof. split; [vm_compute; auto|]. split; [intros o H; vm_compute in H; discriminate|]. vm_compute. auto. Qed.
