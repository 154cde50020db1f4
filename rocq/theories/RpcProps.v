(** Properties C16-C20, C22, C24, C26, C32: runs of one server with any number of
    clients under every schedule of sends, receives, drops and server steps. *)
From Verif Require Import Py ObjTableModel ObjTableSpec ObjTableProofs SerModel SerSpec SerProps
  FrameModel ServerModel ClientModel WireSpec ServerProofs ServerProofs2 ClientProofs ApiModel ApiSpec
  RpcModel RpcSpec RpcDemo RpcProofs RpcProgress RpcProofs2 RpcProofs3 RpcFindings ApiProofs ApiProofs2.

(** C16.  A finished future has failed because of the disconnect, or its request
    [m] is the one and only one it was made for, the server has carried out [m]
    with outcome [r] and no other outcome, and the future shows [r]. *)
Theorem C16_reply_matches_request :
  forall V, good_venv V -> forall cap s, fresh_server s ->
  forall ls, joins_supported (sv_sers s) ls ->
  let y := yrun V cap (yinit s) ls in
  forall c k rid o, dget (y_cl y) c = Some k -> finished k rid o ->
  (c_disc k = true /\ o = Err RuntimeError) \/
  exists m r, In (EvSent c m) (y_log y) /\ m_req m = rid /\
    (forall m', In (EvSent c m') (y_log y) -> m_req m' = rid -> m' = m) /\
    In (EvDone c m r None) (y_log y) /\ (forall r' x, In (EvDone c m r' x) (y_log y) -> r' = r) /\
    answers V (c_ser k) m r o.
Proof. exact matched. Qed.
Print Assumptions C16_reply_matches_request.

Example C16_case : exists k, dget (y_cl demo_y) "b" = Some k /\
  finished k 1 (Ok (VInt 5)) /\ finished k 2 (Err (RemoteCallException "KeyError")).
Proof. vm_compute. eexists. repeat split. Qed.

(** C17. *)
Theorem C17_executed_in_order_once :
  forall V, good_venv V -> forall cap s, fresh_server s ->
  forall ls, joins_supported (sv_sers s) ls ->
  let y := yrun V cap (yinit s) ls in
  forall c, exists rest, sent_by c (y_log y) = executed_for c (y_log y) ++ rest.
Proof. exact executed_prefix. Qed.
Print Assumptions C17_executed_in_order_once.

Example C17_case :
  let y := yrun demo_V 100 (yinit demo_sv) (firstn 16 demo_run) in
  map m_req (sent_by "b" (y_log y)) = [0; 1; 2; -1] /\ map m_req (executed_for "b" (y_log y)) = [0; 1].
Proof. vm_compute. auto. Qed.

(** C18.  Everything delivered, nothing lost by the network, everything decodable
    (C32 is about the rest), server still running: then every request that wants a
    response and whose future was not dropped is complete. *)
Theorem C18_answered_requests_complete :
  forall V, good_venv V -> forall cap s, fresh_server s ->
  forall ls, joins_supported (sv_sers s) ls ->
  let y := yrun V cap (yinit s) ls in
  forall c k m, quiescent y -> sv_open (y_sv y) = true ->
  (forall p, ~ In (EvLost c p) (y_log y)) -> (forall p e, ~ In (EvRead c p (Some e)) (y_log y)) ->
  In (EvSent c m) (y_log y) -> 0 <= m_req m -> ~ In (EvDrop c (m_req m)) (y_log y) ->
  dget (y_cl y) c = Some k -> exists o, finished k (m_req m) o.
Proof. exact all_complete. Qed.
Print Assumptions C18_answered_requests_complete.

(** ... and that state can always be reached without any loss: in every reachable
    state, letting the server and the clients read and user code return is enough
    to finish everything under way (unless the server has been closed). *)
Theorem C18_everything_can_be_finished :
  forall V, good_venv V -> forall cap s, fresh_server s -> forall ls, joins_supported (sv_sers s) ls ->
  (1 <= cap)%nat -> let y := yrun V cap (yinit s) ls in
  exists ls', Forall delivery ls' /\ let y' := yrun V cap (yinit s) (ls ++ ls') in
    (forall c, queue (y_down y') c = []) /\ y_stack y' = [] /\
    (sv_open (y_sv y') = true -> quiescent y') /\
    (forall c p, In (EvLost c p) (y_log y') -> In (EvLost c p) (y_log y)).
Proof. exact can_drain. Qed.
Print Assumptions C18_everything_can_be_finished.

(** A state in which there is something to finish: requests of both clients on the
    way, one being worked on. *)
Example C18_unfinished :
  let y := yrun demo_V 100 (yinit demo_sv) (firstn 15 demo_run) in
  ~ quiescent y /\ y_stack y <> [] /\ sv_open (y_sv y) = true.
Proof. vm_compute. repeat split; try discriminate. intros (_ & _ & H). discriminate H. Qed.

(** No request is answered twice. *)
Theorem C18_at_most_one_reply :
  forall V, good_venv V -> forall cap s, fresh_server s -> forall ls c rid, joins_supported (sv_sers s) ls ->
  (List.length (replied c rid (y_log (yrun V cap (yinit s) ls))) <= 1)%nat.
Proof. exact replied_le_one. Qed.
Print Assumptions C18_at_most_one_reply.

Theorem C18_no_reply_to_off :
  forall V, good_venv V -> forall cap s, fresh_server s ->
  forall ls, joins_supported (sv_sers s) ls ->
  forall c m r p, In (EvReply c m r p) (y_log (yrun V cap (yinit s) ls)) -> 0 <= m_req m.
Proof. exact no_reply_to_off. Qed.
Print Assumptions C18_no_reply_to_off.

Example C18_case : quiescent demo_y /\ sv_open (y_sv demo_y) = true /\
  existsb (fun e => match e with EvLost _ _ | EvRead _ _ (Some _) | EvDrop _ _ => true | _ => false end) (y_log demo_y) = false /\
  (exists k, dget (y_cl demo_y) "a" = Some k /\ finished k 1 (Ok (VInt 7))) /\
  List.length (executed_for "b" (y_log demo_y)) = 4%nat /\ List.length (replied "b" 1 (y_log demo_y)) = 1%nat.
Proof.
  split; [apply quiet; vm_compute; reflexivity|]. vm_compute. repeat split. eexists. repeat split.
Qed.

(** C19.  A request whose user code raised [e]: the server is exactly as the code
    left it and still able to serve, and the caller is told the type of [e]; with
    sync='off' nobody is told. *)
Theorem C19_failure_is_reported :
  forall V, good_venv V -> forall s a t e, served V s (a_caller a) t -> m_action (a_msg a) <> "close" ->
  (0 <= m_req (a_msg a) -> exists p, finish_request V s a (Err e) = (s, [Sent (a_caller a) p], None) /\
     forall k, c_ser k = t -> waiting k (m_req (a_msg a)) ->
       finished (fst (client_recv V k p)) (m_req (a_msg a)) (Err (RemoteCallException (exn_name e)))) /\
  (m_req (a_msg a) < 0 -> finish_request V s a (Err e) = (s, [Hook e], None)).
Proof. exact failure_reported. Qed.
Print Assumptions C19_failure_is_reported.

(** A request that fails before any user code runs (undecodable options, unknown
    name, wrong IDs, unknown action, ...) changes neither names nor proxies. *)
Theorem C19_failed_action_changes_nothing :
  forall V, good_venv V -> forall s c m s' os e x tr,
  ve_utf8 V c = true -> smem (m_ser m) (sv_sers s) = true -> sv_open s = true ->
  m_action m <> "close" -> history (ss_o (sv_st s)) tr ->
  begin_request V s c m = (s', os, Finished (Err e) x) ->
  x = None /\ sv_names s' = sv_names s /\ sv_st s' = sv_st s /\ sv_open s' = true /\ sv_closed s' = sv_closed s.
Proof. exact begin_failed. Qed.
Print Assumptions C19_failed_action_changes_nothing.

(** Whatever is requested, the server's loop only ever ends because somebody asked
    it to close. *)
Theorem C19_only_close_stops_the_server :
  forall V, good_venv V -> forall cap s, fresh_server s ->
  forall ls, joins_supported (sv_sers s) ls ->
  let y := yrun V cap (yinit s) ls in
  y_dead y = true \/ sv_open (y_sv y) = false ->
  exists c m, In (EvExec c m) (y_log y) /\ m_action m = "close".
Proof. exact dead_only_after_close. Qed.
Print Assumptions C19_only_close_stops_the_server.

Example C19_case :
  let y := yrun demo_V 100 (yinit demo_sv) (firstn 15 demo_run ++ [SReturn (Err ValueError); CRecv "a"]) in
  (exists k, dget (y_cl y) "a" = Some k /\ finished k 1 (Err (RemoteCallException "ValueError"))) /\
  sv_open (y_sv y) = true /\ dget (sv_names (y_sv y)) "x" = Some (VInt 5).
Proof. vm_compute. split; [eexists; repeat split|]. split; reflexivity. Qed.

(** C20 does not hold: any request for a response from a client using a serializer the
    server does not have ends the server without any answer, and for good. *)
Theorem C20_unsupported_serializer_kills_server_refuted :
  forall V, good_venv V -> forall cap y c k action opts rt sync,
  dget (y_cl y) c = Some k -> smem (c_ser k) (sv_sers (y_sv y)) = false -> queue (y_up y) c = [] ->
  y_dead y = false -> sv_open (y_sv y) = true -> sv_closed (y_sv y) = false -> y_stack y = [] ->
  c_disc k = false -> c_open k = true -> 0 <= c_next k -> sync <> Off ->
  ve_utf8 V action = true -> ve_utf8 V rt = true -> ve_utf8 V (c_ser k) = true ->
  match opts with None => True | Some v => supported V (c_ser k) v /\ objs (ve_ser V) v = [] end ->
  let y' := yrun V cap y [CSend c action opts rt sync; SRecv c] in
  exists m, m_action m = action /\ m_ser m = c_ser k /\
    server_events (y_log y') = server_events (y_log y) ++ [EvExec c m] /\
    y_dead y' = true /\ sv_closed (y_sv y') = false /\
    forall ls, server_events (y_log (yrun V cap y' ls)) = server_events (y_log y').
Proof. exact unsupported_kills. Qed.
Print Assumptions C20_unsupported_serializer_kills_server_refuted.

(** a ping from a json client ends a server that has only msgpack *)
Definition msgpack_only : sv := mkSv "tcp://s" ["msgpack"] [] [] st0 false true true.
Example C20_case :
  let y := yrun demo_V 100 (yinit msgpack_only) [Join "j" "json" None st0; say "j" rq_ping "auto" Sync; SRecv "j"] in
  fresh_server msgpack_only /\ y_dead y = true /\ sv_closed (y_sv y) = false /\
  (exists m, In (EvExec "j" m) (y_log y) /\ m_action m = "ping" /\ smem (m_ser m) (sv_sers msgpack_only) = false) /\
  forall c m r p, ~ In (EvReply c m r p) (y_log y).
Proof.
  vm_compute. split; [repeat split|]. split; [reflexivity|]. split; [reflexivity|]. split.
  - eexists. split; [right; left; reflexivity|]. split; reflexivity.
  - intros c m r p H. repeat (destruct H as [H|H]; [discriminate H|]). exact H.
Qed.

(** In general: such a request is never carried out, and changes no name, proxy,
    nor whether the server is closed or registered; but nothing is ever sent, and if
    a response was wanted then an exception leaves [_process_one].  Missing for C20:
    the error reply and the survival of the loop. *)
Theorem C20_unsupported_serializer_partial :
  forall V s c m, smem (m_ser m) (sv_sers s) = false ->
  exists s' os x, begin_request V s c m = (s', os, Finished (Err ValueError) x) /\
    (forall to p, ~ In (Sent to p) os) /\
    sv_names s' = sv_names s /\ sv_st s' = sv_st s /\ sv_closed s' = sv_closed s /\ sv_reg s' = sv_reg s /\
    (0 <= m_req m -> x <> None) /\ (m_req m < 0 -> x = None).
Proof. exact unsupported. Qed.
Print Assumptions C20_unsupported_serializer_partial.

(** C22.  When the server reads a close request of [c]: every other client it has
    executed a request of gets exactly one notice, which that client can read as
    such; nobody else gets any; [c] is sent one message if it wants an answer, which
    makes its future True; the server leaves the registry; and whatever happens later, the server executes and
    sends nothing more. *)
Theorem C22_closing_tells_every_client_once :
  forall V, good_venv V -> forall cap s, fresh_server s -> forall ls c m opts,
  joins_supported (sv_sers s) ls ->
  let y := yrun V cap (yinit s) ls in
  sv_open (y_sv y) = true -> next_request y c = Some m -> m_action m = "close" -> options V (y_sv y) m = Ok opts ->
  let y' := ystep V cap y (SRecv c) in
  (forall c', c' <> c -> executed_for c' (y_log y) <> [] ->
     exists p, told c' (y_log y') = [p] /\
       forall k srv st, dget (y_cl y) c' = Some k -> loads V (c_ser k) srv st p = Ok notice) /\
  (forall c', c' = c \/ executed_for c' (y_log y) = [] -> told c' (y_log y') = []) /\
  (0 <= m_req m -> exists p, replied c (m_req m) (y_log y') = [p] /\
     forall k, dget (y_cl y) c = Some k -> pending k (m_req m) -> m_rt m <> "proxy" ->
       finished (fst (client_recv V k p)) (m_req m) (Ok (VBool true))) /\
  sv_reg (y_sv y') = false /\
  forall ls', sv_reg (y_sv (yrun V cap y' ls')) = false /\
    server_events (y_log (yrun V cap y' ls')) = server_events (y_log y').
Proof. exact closing. Qed.
Print Assumptions C22_closing_tells_every_client_once.

Example C22_case :
  let y := yrun demo_V 100 (yinit demo_sv) (demo_run ++ [say "a" rq_close "auto" Sync]) in
  sv_open (y_sv y) = true /\ executed_for "b" (y_log y) <> [] /\
  (exists m, next_request y "a" = Some m /\ m_action m = "close" /\ options demo_V (y_sv y) m = Ok VNone) /\
  exists k, dget (y_cl (yrun demo_V 100 y [SRecv "a"; CRecv "b"])) "b" = Some k /\ c_disc k = true.
Proof.
  cbv zeta. split; [vm_compute; reflexivity|]. split; [vm_compute; discriminate|]. split.
  - exists (mkMsg 2 "close" "auto" "msgpack" PEmpty). vm_compute. auto.
  - vm_compute. eexists. split; reflexivity.
Qed.

(** C24 does not hold: after close_server(sync='off') the requester never learns,
    whatever happens next. *)
Theorem C24_closer_never_learns_refuted :
  forall V, good_venv V -> forall cap s ls c k m opts, fresh_server s -> joins_supported (sv_sers s) ls ->
  let y := yrun V cap (yinit s) ls in
  sv_open (y_sv y) = true -> y_stack y = [] -> next_request y c = Some m -> m_action m = "close" ->
  options V (y_sv y) m = Ok opts -> m_req m < 0 ->
  dget (y_cl y) c = Some k -> c_disc k = false -> queue (y_down y) c = [] ->
  let y' := ystep V cap y (SRecv c) in
  sv_closed (y_sv y') = true /\ In (EvDone c m (Ok (VBool true)) None) (y_log y') /\
  forall ls' k', dget (y_cl (yrun V cap y' ls')) c = Some k' -> c_disc k' = false.
Proof. exact closer_cut_off. Qed.
Print Assumptions C24_closer_never_learns_refuted.

Example C24_never_learns_case :
  let ls := [Join "a" "msgpack" None st0; say "a" rq_close "auto" Off] in
  let y := yrun demo_V 100 (yinit demo_sv) ls in
  joins_supported (sv_sers demo_sv) ls /\ sv_open (y_sv y) = true /\ y_stack y = [] /\
  (exists m, next_request y "a" = Some m /\ m_action m = "close" /\ options demo_V (y_sv y) m = Ok VNone /\ m_req m = -1) /\
  (exists k, dget (y_cl y) "a" = Some k /\ c_disc k = false) /\ queue (y_down y) "a" = [].
Proof.
  cbv zeta. split; [repeat (constructor; [first [exact I|reflexivity]|]); constructor|].
  split; [vm_compute; reflexivity|]. split; [vm_compute; reflexivity|].
  split; [exists (mkMsg (-1) "close" "auto" "msgpack" PEmpty); repeat split; vm_compute; reflexivity|].
  split; [|vm_compute; reflexivity]. exists (new_client "msgpack" None st0). split; vm_compute; reflexivity.
Qed.

(** If it asked for a response and kept the future, it does.  Missing for C24: the
    requests made with sync='off' and those whose future is gone. *)
Theorem C24_closer_learns_partial :
  forall V, good_venv V -> forall cap s, fresh_server s ->
  forall ls, joins_supported (sv_sers s) ls ->
  let y := yrun V cap (yinit s) ls in
  forall c k m, dget (y_cl y) c = Some k -> In (EvDone c m (Ok (VBool true)) None) (y_log y) -> m_action m = "close" ->
  0 <= m_req m -> m_rt m <> "proxy" -> ~ In (EvDrop c (m_req m)) (y_log y) -> queue (y_down y) c = [] ->
  (forall p, ~ In (EvLost c p) (y_log y)) -> (forall p e, ~ In (EvRead c p (Some e)) (y_log y)) ->
  c_disc k = true.
Proof. exact closer_learns. Qed.
Print Assumptions C24_closer_learns_partial.

(** and no client ever believes itself disconnected from a server that is not closed *)
Theorem C24_disconnected_only_after_close_partial :
  forall V, good_venv V -> forall cap s, fresh_server s ->
  forall ls, joins_supported (sv_sers s) ls ->
  let y := yrun V cap (yinit s) ls in
  forall c k, dget (y_cl y) c = Some k -> c_disc k = true -> sv_closed (y_sv y) = true.
Proof. exact disc_only_after_close. Qed.
Print Assumptions C24_disconnected_only_after_close_partial.

Example C24_case :
  let y := yrun demo_V 100 (yinit demo_sv) (demo_run ++ [say "a" rq_close "auto" Sync; SRecv "a"; CRecv "a"]) in
  exists k, dget (y_cl y) "a" = Some k /\ c_disc k = true /\ queue (y_down y) "a" = [].
Proof. vm_compute. eexists. repeat split. Qed.

(** C26.  The published names always are what the assignments made them ... *)
Theorem C26_name_is_latest_assignment :
  forall V, good_venv V -> forall cap s, fresh_server s -> forall ls k,
  joins_supported (sv_sers s) ls ->
  dget (sv_names (y_sv (yrun V cap (yinit s) ls))) k = latest V cap (yinit s) ls k (dget (sv_names s) k).
Proof. exact names_latest. Qed.
Print Assumptions C26_name_is_latest_assignment.

(** ... reading a name gives the latest assignment or KeyError ... *)
Theorem C26_reading_gives_latest :
  forall V, good_venv V -> forall cap s, fresh_server s -> forall ls c m k d,
  joins_supported (sv_sers s) ls ->
  let y := yrun V cap (yinit s) ls in
  sv_open (y_sv y) = true -> next_request y c = Some m -> m_action m = "get_item" ->
  options V (y_sv y) m = Ok (VDict d) -> kget d (VStr "name") = Some (VStr k) ->
  In (EvDone c m (match latest V cap (yinit s) ls k (dget (sv_names s) k) with
                  | Some v => Ok v | None => Err KeyError end) None)
     (y_log (ystep V cap y (SRecv c))).
Proof. exact read_name. Qed.
Print Assumptions C26_reading_gives_latest.

(** ... and client[n] = v and client[n] send requests the server reads as exactly that. *)
Theorem C26_setitem_arrives :
  forall V, good_venv V -> forall k n v rt sync, c_disc k = false -> c_open k = true ->
  supported V (c_ser k) (fields [("name", VStr n); ("obj", v)]) -> objs (ve_ser V) v = [] ->
  exists k' m r, send V k (rq_action (rq_setitem n v)) (rq_opts (rq_setitem n v)) rt sync = (k', Some m, r) /\
    m_action m = "set_item" /\
    forall s h, stands_for V s (proxies v) h ->
      options V s m = Ok (fields [("name", VStr n); ("obj", subst h (seen V (c_ser k) v))]).
Proof. exact set_item_arrives. Qed.
Print Assumptions C26_setitem_arrives.

Theorem C26_getitem_arrives :
  forall V, good_venv V -> forall k n rt sync, c_disc k = false -> c_open k = true ->
  exists k' m r, send V k (rq_action (rq_getitem n)) (rq_opts (rq_getitem n)) rt sync = (k', Some m, r) /\
    m_action m = "get_item" /\ forall s, options V s m = Ok (fields [("name", VStr n)]).
Proof. exact get_item_arrives. Qed.
Print Assumptions C26_getitem_arrives.

Example C26_case :
  latest demo_V 100 (yinit demo_sv) demo_run "x" None = Some (VInt 5) /\
  latest demo_V 100 (yinit demo_sv) demo_run "f" None = Some (VObj 0%nat) /\
  latest demo_V 100 (yinit demo_sv) demo_run "nothing" None = None /\
  exists k, dget (y_cl demo_y) "b" = Some k /\ finished k 1 (Ok (VInt 5)) /\
    finished k 2 (Err (RemoteCallException "KeyError")).
Proof. vm_compute. repeat split. eexists. repeat split. Qed.

(** C32 does not hold: user code returned a dict that uses the reserved key; the
    reply is delivered and read, reading it raises, and the request stays pending. *)
Definition poison : pyval := VDict [(VStr "___type_name___", VStr "date"); (VStr "data", VStr "x")].
Theorem C32_undecodable_reply_leaves_request_pending_refuted :
  forall V, good_venv V -> forall s a, served V s (a_caller a) "msgpack" -> 0 <= m_req (a_msg a) ->
  m_action (a_msg a) <> "close" -> m_rt (a_msg a) <> "proxy" ->
  exists p e, finish_request V s a (Ok poison) = (s, [Sent (a_caller a) p], None) /\
    forall k, c_ser k = "msgpack" -> client_recv V k p = (k, Some e).
Proof. exact undecodable_result. Qed.
Print Assumptions C32_undecodable_reply_leaves_request_pending_refuted.

(** in a run: everything is delivered and read, and the request is still pending *)
Example C32_case :
  exists ls, let y := yrun demo_V 100 (yinit demo_sv) ls in
    joins_supported (sv_sers demo_sv) ls /\ quiescent y /\ sv_open (y_sv y) = true /\
    exists k m p e, dget (y_cl y) "a" = Some k /\ pending k (m_req m) /\ m_req m = 1 /\
      In (EvDone "a" m (Ok poison) None) (y_log y) /\ In (EvRead "a" p (Some e)) (y_log y).
Proof.
  exists (firstn 15 demo_run ++ [SReturn (Ok poison); SRecv "b"; SRecv "b"; SRecv "b"; CRecv "a"; CRecv "b"; CRecv "b"; CRecv "b"]).
  cbv zeta. split; [repeat (constructor; [first [exact I|reflexivity]|]); constructor|]. split; [apply quiet; vm_compute; reflexivity|].
  split; [vm_compute; reflexivity|].
  vm_compute. do 4 eexists. split; [reflexivity|]. split; [left; shelve|]. split; [shelve|].
  split; (repeat (first [left; reflexivity|right])).
  Unshelve. all: reflexivity.
Qed.

(** The true part: an undecodable reply changes nothing at all in the client (the
    exception is raised in whatever call was reading).  Missing for C32: that the
    request it answers fails. *)
Theorem C32_undecodable_reply_changes_nothing_partial :
  forall V c p e, loads V (c_ser c) (c_local c) (c_st c) p = Err e -> client_recv V c p = (c, Some e).
Proof. exact undecodable. Qed.
Print Assumptions C32_undecodable_reply_changes_nothing_partial.
