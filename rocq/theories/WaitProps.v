(** Properties C25, C65: waiting for a result. *)
From Verif Require Import Py ObjTableModel SerModel SerProps FrameModel ServerModel ClientModel WireSpec ApiSpec RpcSpec RpcDemo WaitModel WaitProofs WaitProofs2.

(** C25 (times in ns).  In every run of result(timeout = t) called at time [start], whatever
    arrives whenever, and however long (within the bounds) computing takes: the
    TimeoutError is raised later than 1 ms before the timeout, at most one
    iteration of the loop after it, only when the timeout is over or no message
    is waiting, and only if the future is not complete. *)
Theorem C25_timeout_window :
  forall V W start t k inbox req ls s s',
  0 <= w_setup W /\ 0 <= w_msg W /\ 0 <= w_serve W -> 0 <= t -> w_timeout W = Some t ->
  wrun V W (wstart start k inbox req) ls = Some s -> wstep V W s WGo = Some s' -> s_phase s' = PEnd TimedOut ->
  start + t - 1000000 < s_now s' /\
  s_now s' <= start + t + (w_setup W + match w_mode W with Qt => 50000000 | _ => 0 end +
                           Z.max (w_msg W) match w_mode W with Poll => w_serve W | _ => 0 end) /\
  (start + t < s_now s' \/ (s_in s' = [] /\ w_mode W = Plain)) /\
  (forall o, ~ finished (s_cl s') (w_rid W) o).
Proof. exact timeout_window. Qed.
Print Assumptions C25_timeout_window.

(** the call never lasts longer than that, and never gets stuck *)
Theorem C25_call_does_not_outlast_timeout :
  forall V W start t k inbox req ls s,
  0 <= w_setup W /\ 0 <= w_msg W /\ 0 <= w_serve W -> 0 <= t -> w_timeout W = Some t ->
  wrun V W (wstart start k inbox req) ls = Some s -> (forall r, s_phase s <> PEnd r) ->
  s_now s <= start + t + (w_setup W + match w_mode W with Qt => 50000000 | _ => 0 end +
                           Z.max (w_msg W) match w_mode W with Poll => w_serve W | _ => 0 end).
Proof. exact still_waiting. Qed.
Print Assumptions C25_call_does_not_outlast_timeout.

Theorem C25_never_stuck :
  forall V W start t k inbox req ls s,
  0 <= w_setup W /\ 0 <= w_msg W /\ 0 <= w_serve W -> 0 <= t -> w_timeout W = Some t ->
  wrun V W (wstart start k inbox req) ls = Some s -> (forall r, s_phase s <> PEnd r) ->
  (exists s', wstep V W s WGo = Some s') \/ (exists d s', 0 < d /\ wstep V W s (WTick d) = Some s').
Proof. exact never_stuck. Qed.
Print Assumptions C25_never_stuck.

(** timeout=None never times out *)
Theorem C25_no_timeout_without_limit :
  forall V W start k inbox req ls s, w_timeout W = None ->
  wrun V W (wstart start k inbox req) ls = Some s -> s_phase s <> PEnd TimedOut.
Proof. exact no_timeout. Qed.
Print Assumptions C25_no_timeout_without_limit.

(** the result returned is the future's; a completed future is returned whatever
    the timeout; a reply (a result or an error, as the server sends them)
    that is next in line when the loop looks in time is returned *)
Theorem C25_returns_the_outcome :
  forall V W start k inbox req ls s o,
  wrun V W (wstart start k inbox req) ls = Some s -> s_phase s = PEnd (Returned o) -> finished (s_cl s) (w_rid W) o.
Proof. exact returned_outcome. Qed.
Print Assumptions C25_returns_the_outcome.

Theorem C25_completed_future_returned :
  forall V W now k inbox req o, finished k (w_rid W) o ->
  exists s, wrun V W (wstart now k inbox req) [WGo; WGo] = Some s /\ s_phase s = PEnd (Returned o).
Proof. exact done_returns. Qed.
Print Assumptions C25_completed_future_returned.

Theorem C25_next_reply_returned :
  forall V, good_venv V -> forall W s r srv st, s_phase s = PCheck ->
  waiting (s_cl s) (w_rid W) -> (forall o, ~ finished (s_cl s) (w_rid W) o) ->
  (forall t, w_timeout W = Some t -> s_now s <= s_start s + t) ->
  (forall v, carried V (c_ser (s_cl s)) v -> plain_value V v ->
   exists p, dumps V (c_ser (s_cl s)) srv st
       (fields [("action", VStr "return"); ("req_id", VInt (w_rid W)); ("rval", v); ("error", VNone)]) = (st, Ok p) /\
     (s_in s = p :: r -> exists s', wrun V W s [WGo; WGo; WGo; WGo; WGo] = Some s' /\
        s_phase s' = PEnd (Returned (Ok (seen V (c_ser (s_cl s)) v))))) /\
  (forall e, exists p, dumps V (c_ser (s_cl s)) srv st
       (fields [("action", VStr "return"); ("req_id", VInt (w_rid W)); ("rval", VNone);
                ("error", VTuple [VStr (exn_name e); VList [VStr (ve_tb V e)]])]) = (st, Ok p) /\
     (s_in s = p :: r -> exists s', wrun V W s [WGo; WGo; WGo; WGo; WGo] = Some s' /\
        s_phase s' = PEnd (Returned (Err (RemoteCallException (exn_name e)))))).
Proof.
  intros V GV W s r srv st P Wa Nf T. split.
  - intros v C Pl. exact (reply_returned V GV W s r srv st v P Wa Nf T C Pl).
  - intro e. exact (error_returned V GV W s r srv st e P Wa Nf T).
Qed.
Print Assumptions C25_next_reply_returned.

Definition waiter : cl := fst (client_run demo_V (new_client "json" None st0) [OSend "ping" None "auto" Sync; OSend "ping" None "auto" Async]).
Definition answer_to (rid : Z) : payload :=
  PJson (JObj [("action", JStr "return"); ("req_id", JInt rid); ("rval", JStr "pong"); ("error", JNull)]).
(** a timeout of 5.7 ms with one unrelated reply after 2 ms: ends after 2 + 3.1 rounded down *)
Example C25_case :
  let W := mkW Plain 0 (Some 5700000) 1000000 1000000 0 in
  exists s, wrun demo_V W (wstart 100 waiter [] 0) [WGo; WGo; WGo; WTick 2000000; WArrive (answer_to 1); WGo; WTick 600000;
       WGo; WGo; WGo; WTick 3000000; WGo] = Some s /\
    s_phase s = PEnd TimedOut /\ s_now s = 100 + 5600000.
Proof. eexists. vm_compute. auto. Qed.
(** the same with the right reply, which is returned *)
Example C25_case_reply :
  let W := mkW Plain 0 (Some 5700000) 1000000 1000000 0 in
  exists s s', wrun demo_V W (wstart 100 waiter [] 0) [WGo; WGo; WGo; WTick 2000000; WArrive (answer_to 1); WGo; WTick 600000;
       WGo; WArrive (answer_to 0)] = Some s /\ s_phase s = PCheck /\ waiting (s_cl s) 0 /\ s_in s = [answer_to 0] /\
    wrun demo_V W s [WGo; WGo; WGo; WGo; WGo] = Some s' /\ s_phase s' = PEnd (Returned (Ok (VStr "pong"))).
Proof. do 2 eexists. split; [vm_compute; reflexivity|]. vm_compute. repeat split. Qed.

(** C65 does not hold: with timeout=0 the socket is never looked at, even though
    the reply is waiting there (1 ns for taking the two times is enough). *)
Theorem C65_zero_timeout_ignores_waiting_result_refuted :
  exists k p k' o, client_recv demo_V k p = (k', None) /\ finished k' 0 o /\
    forall mode setup msg serve, 1 <= setup ->
    let W := mkW mode 0 (Some 0) setup msg serve in
    exists s, wrun demo_V W (wstart 0 k [p] 0) [WTick 1; WGo; WGo] = Some s /\
      s_phase s = PEnd TimedOut /\ s_in s = [p].
Proof.
  exists waiter, (answer_to 0). do 2 eexists. split; [vm_compute; reflexivity|]. split; [vm_compute; reflexivity|].
  intros mode setup m serve H W.
  assert (L : may_tick W (wstart 0 waiter [answer_to 0] 0) 1 = true).
  { apply andb_true_intro. split; [reflexivity|]. apply Z.leb_le. cbn. lia. }
  cbn [wrun wstep]. rewrite L. cbn. eexists. repeat split.
Qed.
Print Assumptions C65_zero_timeout_ignores_waiting_result_refuted.
