(** Properties C104-C106: what a client says about its connection and its futures. *)
From Verif Require Import Py ObjTableModel SerModel SerProps FrameModel ServerModel ClientModel WireSpec
  ApiModel RpcModel RpcSpec RpcDemo ClientProofs RpcProofs ConnModel ConnSpec ConnProofs.

(** C104.  disconnected() says True only when the server has closed ... *)
Theorem C104_true_only_if_closed :
  forall V, good_venv V -> forall cap s, fresh_server s -> forall ls, joins_supported (sv_sers s) ls ->
  let y := yrun V cap (yinit s) ls in
  forall c k, dget (y_cl y) c = Some k -> c_open k = true ->
  (forall p, In p (queue (y_down y) c) -> loads V (c_ser k) (c_local k) (c_st k) p <> Err ZMQError) ->
  snd (disconnected V k (queue (y_down y) c)) = Ok true -> sv_closed (y_sv y) = true.
Proof. exact true_only_if_closed. Qed.
Print Assumptions C104_true_only_if_closed.

(** ... so for a server that is running it says False ... *)
Theorem C104_running_server_false :
  forall V, good_venv V -> forall cap s, fresh_server s -> forall ls, joins_supported (sv_sers s) ls ->
  let y := yrun V cap (yinit s) ls in
  forall c k, dget (y_cl y) c = Some k -> c_open k = true -> decodable V k (queue (y_down y) c) ->
  sv_closed (y_sv y) = false -> snd (disconnected V k (queue (y_down y) c)) = Ok false.
Proof. exact running_false. Qed.
Print Assumptions C104_running_server_false.

(** ... once the server's goodbye has come it says True, and nothing keeps waiting ... *)
Theorem C104_goodbye_noticed :
  forall V, good_venv V -> forall cap s, fresh_server s -> forall ls, joins_supported (sv_sers s) ls ->
  let y := yrun V cap (yinit s) ls in
  forall c k, dget (y_cl y) c = Some k -> c_open k = true -> c_disc k = false ->
  decodable V k (queue (y_down y) c) -> goodbye V k (queue (y_down y) c) ->
  exists k', disconnected V k (queue (y_down y) c) = (k', [], Ok true) /\ (forall rid, ~ pending k' rid) /\
    (forall rid, pending k rid -> exists o, finished k' rid o).
Proof. exact goodbye_noticed. Qed.
Print Assumptions C104_goodbye_noticed.

(** ... when it says False there was no goodbye, and every reply that was waiting has
    been delivered to its future ... *)
Theorem C104_false_delivers_replies :
  forall V, good_venv V -> forall cap s, fresh_server s -> forall ls, joins_supported (sv_sers s) ls ->
  let y := yrun V cap (yinit s) ls in
  forall c k, dget (y_cl y) c = Some k -> c_open k = true -> decodable V k (queue (y_down y) c) ->
  snd (disconnected V k (queue (y_down y) c)) = Ok false ->
  ~ goodbye V k (queue (y_down y) c) /\
  exists k', disconnected V k (queue (y_down y) c) = (k', [], Ok false) /\
    (forall p m r, In p (queue (y_down y) c) -> In (EvReply c m r p) (y_log y) -> pending k (m_req m) ->
       exists o, finished k' (m_req m) o).
Proof. exact false_delivers. Qed.
Print Assumptions C104_false_delivers_replies.

(** ... True is said for ever, and nothing is sent any more ... *)
Theorem C104_true_for_ever :
  forall V k inbox k' rest, disconnected V k inbox = (k', rest, Ok true) ->
  forall os inbox', disconnected V (fst (client_run V k' os)) inbox' = (fst (client_run V k' os), inbox', Ok true) /\
    snd (client_run V k' os) = [].
Proof. exact true_for_ever. Qed.
Print Assumptions C104_true_for_ever.

(** ... and asking does nothing but deliver messages: the client is as after some
    number of deliveries, and the server is as it was. *)
Theorem C104_asking_only_delivers :
  forall V, good_venv V -> forall cap s, fresh_server s -> forall ls, joins_supported (sv_sers s) ls ->
  let y := yrun V cap (yinit s) ls in
  forall c k, dget (y_cl y) c = Some k -> c_open k = true ->
  (forall p, In p (queue (y_down y) c) -> loads V (c_ser k) (c_local k) (c_st k) p <> Err ZMQError) ->
  exists n k' rest r, disconnected V k (queue (y_down y) c) = (k', rest, r) /\
    (forall b, r = Ok b -> c_disc k' = b) /\
    let y' := yrun V cap (yinit s) (ls ++ repeat (CRecv c) n) in
    dget (y_cl y') c = Some k' /\ queue (y_down y') c = rest /\ y_sv y' = y_sv y.
Proof. exact asking_delivers. Qed.
Print Assumptions C104_asking_only_delivers.

(** "b" has asked for "x" and twice for what does not exist; two replies are waiting.
    Then "a" closes the server while "b" waits for a third. *)
Definition conn_run : list label :=
  [Join "a" "msgpack" None st0; Join "b" "json" None st0; say "b" (rq_setitem "x" (VInt 5)) "auto" Async;
   say "b" (rq_getitem "x") "auto" Async; SRecv "b"; SRecv "b"; say "b" (rq_getitem "y") "auto" Async].
Definition close_run : list label := conn_run ++ [CSend "a" "close" None "auto" Sync; SRecv "a"].
Lemma conn_joins : joins_supported (sv_sers demo_sv) conn_run.
Proof. repeat (constructor; [first [exact I|reflexivity]|]). constructor. Qed.
Lemma close_joins : joins_supported (sv_sers demo_sv) close_run.
Proof. repeat (constructor; [first [exact I|reflexivity]|]). constructor. Qed.

Example C104_case_running : exists k, let y := yrun demo_V 100 (yinit demo_sv) conn_run in
  dget (y_cl y) "b" = Some k /\ c_open k = true /\ sv_closed (y_sv y) = false /\
  decodable demo_V k (queue (y_down y) "b") /\ List.length (queue (y_down y) "b") = 2%nat /\ pending k 1 /\
  exists k', disconnected demo_V k (queue (y_down y) "b") = (k', [], Ok false) /\ finished k' 1 (Ok (VInt 5)) /\ pending k' 2.
Proof.
  eexists. cbv zeta. split; [vm_compute; reflexivity|]. split; [reflexivity|]. split; [reflexivity|].
  split; [|split; [reflexivity|split; [vm_compute; auto|]]].
  - intros p Hp. vm_compute in Hp. destruct Hp as [<-|[<-|[]]]; eexists; vm_compute; reflexivity.
  - eexists. split; [vm_compute; reflexivity|]. split; [reflexivity|vm_compute; auto].
Qed.
Example C104_case_closed : exists k, let y := yrun demo_V 100 (yinit demo_sv) close_run in
  dget (y_cl y) "b" = Some k /\ c_open k = true /\ c_disc k = false /\ pending k 2 /\
  decodable demo_V k (queue (y_down y) "b") /\ goodbye demo_V k (queue (y_down y) "b") /\
  exists k', disconnected demo_V k (queue (y_down y) "b") = (k', [], Ok true) /\ finished k' 1 (Ok (VInt 5)) /\
    finished k' 2 (Err RuntimeError).
Proof.
  eexists. cbv zeta. split; [vm_compute; reflexivity|]. split; [reflexivity|]. split; [reflexivity|]. split; [vm_compute; auto|].
  split; [|split].
  - intros p Hp. vm_compute in Hp. destruct Hp as [<-|[<-|[<-|[]]]]; eexists; vm_compute; reflexivity.
  - eexists. split; [vm_compute; right; right; left; reflexivity|vm_compute; reflexivity].
  - eexists. split; [vm_compute; reflexivity|]. split; reflexivity.
Qed.

(** C105.  close_server() of a client whose socket is open: it asks the server to close
    unless it is known to have closed (C104), and says True by itself only if it has ... *)
Theorem C105_without_asking_only_if_closed_partial :
  forall V, good_venv V -> forall cap s, fresh_server s -> forall ls, joins_supported (sv_sers s) ls ->
  let y := yrun V cap (yinit s) ls in
  forall c k rt sync k' rest m, dget (y_cl y) c = Some k -> c_open k = true ->
  (forall p, In p (queue (y_down y) c) -> loads V (c_ser k) (c_local k) (c_st k) p <> Err ZMQError) ->
  close_server V k (queue (y_down y) c) rt sync = (k', rest, m, Ok AlreadyClosed) -> sv_closed (y_sv y) = true.
Proof. exact already_only_if_closed. Qed.
Print Assumptions C105_without_asking_only_if_closed_partial.

(** ... the request it sends is one "close" request, and its answer is awaited unless
    sync is 'off' ... *)
Theorem C105_asks_the_server :
  forall V k inbox rt sync k1 rest, disconnected V k inbox = (k1, rest, Ok false) -> c_open k = true -> sync <> BadSync ->
  exists k2 m fut, close_server V k inbox rt sync = (k2, rest, Some m, Ok (Requested fut)) /\
    m_action m = "close" /\ m_opts m = PEmpty /\ m_ser m = c_ser k /\ m_rt m = rt /\
    match sync with Off => fut = None /\ m_req m < 0 | _ => fut = Some (m_req m) /\ pending k2 (m_req m) end.
Proof. exact close_server_asks. Qed.
Print Assumptions C105_asks_the_server.

(** ... if it is known to have closed, True is returned without error ... *)
Theorem C105_known_to_have_closed :
  forall V k inbox rt sync k1 rest, disconnected V k inbox = (k1, rest, Ok true) ->
  close_server V k inbox rt sync = (k1, rest, None, Ok AlreadyClosed).
Proof. exact close_server_known. Qed.
Print Assumptions C105_known_to_have_closed.

(** ... and an answer True to that request means that the server has closed. *)
Theorem C105_answer_true_means_closed_partial :
  forall V, good_venv V -> forall cap s, fresh_server s -> forall ls, joins_supported (sv_sers s) ls ->
  let y := yrun V cap (yinit s) ls in
  forall c k m, In (EvSent c m) (y_log y) -> m_action m = "close" -> dget (y_cl y) c = Some k ->
  finished k (m_req m) (Ok (VBool true)) -> sv_closed (y_sv y) = true.
Proof. exact close_true_closed. Qed.
Print Assumptions C105_answer_true_means_closed_partial.

Definition close_done : list label := close_run ++ [CRecv "a"; CRecv "a"].
Example C105_case : exists k m, let y := yrun demo_V 100 (yinit demo_sv) close_done in
  dget (y_cl y) "a" = Some k /\ In (EvSent "a" m) (y_log y) /\ m_action m = "close" /\
  finished k (m_req m) (Ok (VBool true)) /\ sv_closed (y_sv y) = true /\
  close_server demo_V k [] "auto" Sync = (k, [], None, Ok AlreadyClosed).
Proof.
  eexists. eexists. cbv zeta. split; [vm_compute; reflexivity|].
  split; [vm_compute; repeat first [left; reflexivity|right]|]. repeat split.
Qed.

(** C105 does not hold for a client that has been closed: close_server() then sends
    nothing and returns True although the server is running and goes on. *)
Theorem C105_closed_client_refuted :
  exists ls k k' rest, joins_supported (sv_sers demo_sv) ls /\ let y := yrun demo_V 100 (yinit demo_sv) ls in
  dget (y_cl y) "a" = Some k /\ sv_closed (y_sv y) = false /\ sv_open (y_sv y) = true /\
  close_server demo_V (close_client k) (queue (y_down y) "a") "auto" Sync = (k', rest, None, Ok AlreadyClosed).
Proof.
  exists conn_run. do 3 eexists. split; [exact conn_joins|]. cbv zeta. split; [vm_compute; reflexivity|].
  split; [reflexivity|]. split; [reflexivity|]. vm_compute. reflexivity.
Qed.
Print Assumptions C105_closed_client_refuted.

Ltac somewhere := (left; reflexivity) + (right; somewhere).
(** C106 does not hold: whatever has arrived, the future of a request that is pending is
    not done, however often it is asked. *)
Theorem C106_never_done_refuted :
  forall V k inbox rid, pending k rid -> dget (c_done k) rid = None ->
  forall n b, In b (ask_done V n k inbox rid) -> b = false.
Proof. exact never_done. Qed.
Print Assumptions C106_never_done_refuted.
(** a run in which the reply has arrived *)
Example C106_arrived_case :
  joins_supported (sv_sers demo_sv) conn_run /\ let y := yrun demo_V 100 (yinit demo_sv) conn_run in
  exists k, dget (y_cl y) "b" = Some k /\ c_open k = true /\ pending k 1 /\ dget (c_done k) 1 = None /\
  exists m r p, In (EvReply "b" m r p) (y_log y) /\ In p (queue (y_down y) "b") /\ m_req m = 1.
Proof.
  split; [exact conn_joins|]. cbv zeta. eexists. split; [vm_compute; reflexivity|].
  split; [reflexivity|]. split; [vm_compute; auto|]. split; [vm_compute; reflexivity|].
  do 3 eexists. split; [|split]; [vm_compute; somewhere|vm_compute; somewhere|reflexivity].
Qed.

(** done() tells whether the result has been delivered to the future, and changes
    nothing.  Missing for C106: replies that have arrived but which nobody has read. *)
Theorem C106_done_when_delivered_partial :
  forall V k inbox rid, exists b, future_done V k inbox rid = (k, inbox, b) /\
  (b = true <-> exists o, finished k rid o).
Proof. exact done_iff. Qed.
Print Assumptions C106_done_when_delivered_partial.

(** After disconnected() every reply that had arrived is done. *)
Theorem C106_done_after_disconnected_partial :
  forall V, good_venv V -> forall cap s, fresh_server s -> forall ls, joins_supported (sv_sers s) ls ->
  let y := yrun V cap (yinit s) ls in
  forall c k p m r, dget (y_cl y) c = Some k -> c_open k = true -> c_disc k = false ->
  decodable V k (queue (y_down y) c) -> In p (queue (y_down y) c) -> In (EvReply c m r p) (y_log y) -> pending k (m_req m) ->
  exists k' b, disconnected V k (queue (y_down y) c) = (k', [], Ok b) /\
    future_done V k' [] (m_req m) = (k', [], true).
Proof. exact done_after. Qed.
Print Assumptions C106_done_after_disconnected_partial.
