(** Properties C14, C21, C23, C30, C31: one client. *)
From Verif Require Import Py ObjTableModel SerModel SerSpec SerProps
  FrameModel FrameProofs ServerModel ClientModel WireSpec ClientProofs ApiModel ApiSpec RpcModel RpcSpec RpcDemo RpcProofs2 ClientProofs2
  NameModel NameSpec NameProofs.

(** C14. *)
Theorem C14_unserializable_argument_rejected :
  forall V, good_venv V -> forall c action v rt sync,
  c_local c = None -> c_disc c = false -> supported V (c_ser c) v -> objs (ve_ser V) v <> [] ->
  exists c', send V c action (Some v) rt sync = (c', None, Err TypeError) /\
    c_futs c' = c_futs c /\ c_done c' = c_done c.
Proof. exact send_rejects. Qed.
Print Assumptions C14_unserializable_argument_rejected.

Example C14_case :
  let c := new_client "json" None st0 in
  let v := fields [("obj", VProxy p0); ("args", VTuple [VInt 1; VList [VObj 3%nat]]); ("kwargs", fields [])] in
  objs (ve_ser demo_V) v = [3%nat] /\ supported demo_V (c_ser c) v /\
  exists c', send demo_V c "call_obj" (Some v) "auto" Sync = (c', None, Err TypeError).
Proof.
  cbv zeta. split; [reflexivity|]. split.
  - split; [|vm_compute; repeat constructor].
    cbn. repeat split; try (eexists; (split; [reflexivity|discriminate])); discriminate.
  - eexists. vm_compute. reflexivity.
Qed.

(** C21.  Whatever a client does and whatever data it receives: a completed future
    keeps its outcome for ever, is not pending any more, ... *)
Theorem C21_outcome_is_final :
  forall V ser local st os os' rid o,
  finished (fst (client_run V (new_client ser local st) os)) rid o ->
  finished (fst (client_run V (new_client ser local st) (os ++ os'))) rid o.
Proof. exact done_for_ever. Qed.
Print Assumptions C21_outcome_is_final.

Theorem C21_completed_is_not_pending :
  forall V ser local st os rid o,
  finished (fst (client_run V (new_client ser local st) os)) rid o ->
  ~ pending (fst (client_run V (new_client ser local st) os)) rid.
Proof. exact done_not_pending. Qed.
Print Assumptions C21_completed_is_not_pending.

(** ... and a reply to a request that is not pending (answered, dropped, never
    made, or failed by a disconnect) changes nothing and raises nothing. *)
Theorem C21_stray_reply_ignored :
  forall V c p d rid,
  loads V (c_ser c) (c_local c) (c_st c) p = Ok (VDict d) ->
  field d "action" = Ok (VStr "return") -> field d "req_id" = Ok (VInt rid) -> ~ pending c rid ->
  client_recv V c p = (c, None).
Proof. exact stray. Qed.
Print Assumptions C21_stray_reply_ignored.

(** In particular every reply carrying a plain result, as the server writes it. *)
Theorem C21_stray_result_ignored :
  forall V, good_venv V -> forall c srv st rid v,
  carried V (c_ser c) v -> plain_value V v -> ~ pending c rid ->
  exists p, dumps V (c_ser c) srv st
      (fields [("action", VStr "return"); ("req_id", VInt rid); ("rval", v); ("error", VNone)]) = (st, Ok p) /\
    client_recv V c p = (c, None).
Proof. exact stray_result. Qed.
Print Assumptions C21_stray_result_ignored.

Definition pong (rid : Z) : payload :=
  PJson (JObj [("action", JStr "return"); ("req_id", JInt rid); ("rval", JStr "pong"); ("error", JNull)]).
Example C21_case :
  let c := fst (client_run demo_V (new_client "json" None st0)
                  [OSend "ping" None "auto" Async; OSend "ping" None "auto" Async; ODrop 1; ORecv (pong 0)]) in
  finished c 0 (Ok (VStr "pong")) /\
  client_recv demo_V c (pong 0) = (c, None) /\ client_recv demo_V c (pong 1) = (c, None) /\
  client_recv demo_V c (pong 5) = (c, None).
Proof. vm_compute. auto. Qed.

(** C23. *)
Theorem C23_disconnect_fails_everything :
  forall V c p, loads V (c_ser c) (c_local c) (c_st c) p = Ok notice ->
  let c' := fst (client_recv V c p) in
  snd (client_recv V c p) = None /\ c_disc c' = true /\
  (forall rid, pending c rid -> finished c' rid (Err RuntimeError)) /\ (forall rid, ~ pending c' rid) /\
  forall os, snd (client_run V c' os) = [] /\
    forall action opts rt sync, send V (fst (client_run V c' os)) action opts rt sync =
      (fst (client_run V c' os), None, Err RuntimeError).
Proof. exact notice_received. Qed.
Print Assumptions C23_disconnect_fails_everything.

(** Every client reads the notice of its server that way. *)
Theorem C23_notice_fails_everything :
  forall V, good_venv V -> forall c srv st,
  exists p, dumps V (c_ser c) srv st (fields [("action", VStr "disconnect")]) = (st, Ok p) /\
    let c' := fst (client_recv V c p) in
    snd (client_recv V c p) = None /\ c_disc c' = true /\
    (forall rid, pending c rid -> finished c' rid (Err RuntimeError)) /\ (forall rid, ~ pending c' rid) /\
    forall os, snd (client_run V c' os) = [] /\
    forall action opts rt sync, send V (fst (client_run V c' os)) action opts rt sync =
        (fst (client_run V c' os), None, Err RuntimeError).
Proof. exact notice_breaks. Qed.
Print Assumptions C23_notice_fails_everything.

Example C23_case :
  let c := fst (client_run demo_V (new_client "json" None st0) [OSend "ping" None "auto" Async; OSend "ping" None "auto" Async]) in
  let bye := PJson (JObj [("action", JStr "disconnect")]) in
  loads demo_V (c_ser c) (c_local c) (c_st c) bye = Ok notice /\ pending c 0 /\ pending c 1.
Proof. vm_compute. auto. Qed.

(** C30. *)
Theorem C30_framing_lossless :
  forall utf8 name m, utf8 (m_action m) = true -> utf8 (m_rt m) = true -> utf8 (m_ser m) = true ->
  read_one utf8 name (client_frames m) = Ok (name, m).
Proof. intros utf8 name m A B C. exact (read_frames utf8 name m (conj A (conj B C))). Qed.
Print Assumptions C30_framing_lossless.

(** what [send] puts on the wire is such a message with the given fields *)
Theorem C30_message_carries_request :
  forall V c action opts rt sync c' m r,
  send V c action opts rt sync = (c', Some m, r) ->
  m_action m = action /\ m_rt m = rt /\ m_ser m = c_ser c /\
  (sync = Off -> m_req m = -1) /\ (sync <> Off -> m_req m = c_next c).
Proof.
  intros V c action opts rt sync c' m r H. destruct (send_cases V c action opts rt sync c' (Some m) r H) as (_ & A & B & C & _ & D).
  repeat split; auto; destruct sync; intros; try congruence; tauto.
Qed.
Print Assumptions C30_message_carries_request.

(** and every connected client does send its request, whose options the server reads
    as the ones given ([h] says what the proxies in them stand for) *)
Theorem C30_request_arrives :
  forall V, good_venv V -> forall c action opts rt sync name,
  c_disc c = false -> c_open c = true ->
  ve_utf8 V action = true -> ve_utf8 V rt = true -> ve_utf8 V (c_ser c) = true ->
  match opts with None => True | Some v => supported V (c_ser c) v /\ objs (ve_ser V) v = [] end ->
  exists c' m r, send V c action opts rt sync = (c', Some m, r) /\
    read_one (ve_utf8 V) name (client_frames m) = Ok (name, m) /\
    m_action m = action /\ m_rt m = rt /\ m_ser m = c_ser c /\
    (sync = Off -> m_req m = -1) /\ (sync <> Off -> m_req m = c_next c) /\
    forall s h, match opts with None => True | Some v => stands_for V s (proxies v) h end ->
      options V s m = Ok (match opts with None => VNone | Some v => subst h (seen V (c_ser c) v) end).
Proof. exact request_sent. Qed.
Print Assumptions C30_request_arrives.

Example C30_case : read_one (fun _ => true) "me" (client_frames (mkMsg (-1) "close" "auto" "json" (PJson (JInt 3)))) =
  Ok ("me", mkMsg (-1) "close" "auto" "json" (PJson (JInt 3))).
Proof. reflexivity. Qed.

(** C31 does not hold: two children started under the same name have clients with
    the same identity ... *)
Theorem C31_same_named_children_collide_refuted :
  forall host name addr pid pid' tid tid',
  identity (child host pid name tid) tid addr = identity (child host pid' name tid') tid' addr.
Proof.
  intros. unfold identity, child, set_process_name, set_thread_name, get_thread_name. cbn [pr_host pr_name pr_threads new_process].
  rewrite !dget_dset_same. reflexivity.
Qed.
Print Assumptions C31_same_named_children_collide_refuted.

(** ... while processes with default names never collide, on whatever hosts (host
    names contain no colon) ... *)
Theorem C31_default_names_unique_partial :
  forall h pid tid a h' pid' tid' a', free_of ":" h -> free_of ":" h' ->
  identity (new_process h pid) tid a = identity (new_process h' pid') tid' a' ->
  h = h' /\ pid = pid' /\ tid = tid' /\ a = a'.
Proof. exact default_identity_inj. Qed.
Print Assumptions C31_default_names_unique_partial.

(** ... and in general differently named processes or threads do not, however the names
    were chosen, if they contain neither dots nor colons.  Missing for C31: names chosen twice, and
    names with dots or colons. *)
Theorem C31_distinct_names_unique_partial :
  forall q os tid h p t a q' os' tid' h' p' t' a', called os tid h p t -> called os' tid' h' p' t' ->
  free_of ":" h -> free_of ":" p -> free_of ":" t -> free_of "." p -> free_of "." t ->
  free_of ":" h' -> free_of ":" p' -> free_of ":" t' -> free_of "." p' -> free_of "." t' ->
  identity (name_all q os) tid a = identity (name_all q' os') tid' a' -> h = h' /\ p = p' /\ t = t' /\ a = a'.
Proof. exact called_identity_inj. Qed.
Print Assumptions C31_distinct_names_unique_partial.

Example C31_case :
  identity (new_process "my.host" 4711) 31 "tcp://1.2.3.4:5" = "my.host.process-4711.thread-1f:tcp://1.2.3.4:5" /\
  identity (child "h" 7 "worker" 255) 255 "tcp://x" = "h.worker.main_thread:tcp://x" /\
  client_name "h" "a.b" "c" "x" = client_name "h" "a" "b.c" "x".
Proof. vm_compute. auto. Qed.
Example C31_names_case :
  let os := [NProcess "first"; NHost "lab"; NThread 5 "gui"; NProcess "rig"; NThread 6 "camera"] in
  called os 5 "lab" "rig" "gui" /\ called os 6 "lab" "rig" "camera" /\
  identity (name_all (new_process "my.host" 4711) os) 5 "tcp://x" = "lab.rig.gui:tcp://x" /\
  identity (name_all (new_process "my.host" 4711) os) 6 "tcp://x" = "lab.rig.camera:tcp://x".
Proof.
  cbv zeta. split; [|split; [|split; vm_compute; reflexivity]].
  - split; [|split]; [exists [NProcess "first"], (NHost "lab"); eexists
      |exists [NProcess "first"; NHost "lab"; NThread 5 "gui"], (NProcess "rig"); eexists
      |exists [NProcess "first"; NHost "lab"], (NThread 5 "gui"); eexists];
      (split; [reflexivity|split; [reflexivity|cbn; intuition (subst; reflexivity)]]).
  - split; [|split]; [exists [NProcess "first"], (NHost "lab"); eexists
      |exists [NProcess "first"; NHost "lab"; NThread 5 "gui"], (NProcess "rig"); eexists
      |exists [NProcess "first"; NHost "lab"; NThread 5 "gui"; NProcess "rig"], (NThread 6 "camera"); eexists];
      (split; [reflexivity|split; [reflexivity|cbn; intuition (subst; reflexivity)]]).
Qed.
