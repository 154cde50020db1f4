(** Requests on the wire, replies nobody waits for, and notices, as the other side produces them. *)
From Verif Require Import Py ObjTableModel SerModel SerSpec SerProofs SerProofs2 SerProofsJ
  FrameModel FrameProofs ServerModel ClientModel WireSpec WireProofs ServerProofs ServerProofs2 ClientProofs ApiModel ApiSpec ApiProofs
  RpcModel RpcSpec RpcProofs2.

Section Client2.
  Variable V : venv.
  Hypothesis GV : good_venv V.

  (** what the server reads as the options, [h] saying what the proxies stand for *)
  Lemma request_sent c action opts rt sync name : c_disc c = false -> c_open c = true ->
    ve_utf8 V action = true -> ve_utf8 V rt = true -> ve_utf8 V (c_ser c) = true ->
    match opts with None => True | Some v => supported V (c_ser c) v /\ objs (ve_ser V) v = [] end ->
    exists c' m r, send V c action opts rt sync = (c', Some m, r) /\
      read_one (ve_utf8 V) name (client_frames m) = Ok (name, m) /\
      m_action m = action /\ m_rt m = rt /\ m_ser m = c_ser c /\
      (sync = Off -> m_req m = -1) /\ (sync <> Off -> m_req m = c_next c) /\
      forall s h, match opts with None => True | Some v => stands_for V s (proxies v) h end ->
        options V s m = Ok (match opts with None => VNone | Some v => subst h (seen V (c_ser c) v) end).
  Proof.
    intros D O Ua Ur Us Ho.
    assert (G : exists c' m r, send V c action opts rt sync = (c', Some m, r) /\
      forall s h, match opts with None => True | Some v => stands_for V s (proxies v) h end ->
        options V s m = Ok (match opts with None => VNone | Some v => subst h (seen V (c_ser c) v) end)).
    { destruct opts as [v|].
      - destruct Ho as [Su Ob]. destruct (request_arrives V GV c action v rt sync D O Su Ob) as (c' & m & r & S & _ & _ & _ & Op). eauto.
      - unfold send. rewrite D. destruct sync; cbn [set_next c_open c_ser c_futs]; rewrite O; eexists _, _, _; (split; [reflexivity|]); reflexivity. }
    destruct G as (c' & m & r & S & Op). destruct (send_cases V c action opts rt sync c' (Some m) r S) as (_ & A & B & C & _ & Q).
    exists c', m, r. split; [exact S|]. split; [apply read_frames; repeat split; congruence|].
    repeat (apply conj; [assumption|]). split; [|split; [|exact Op]]; intro X; destruct sync; try congruence; tauto.
  Qed.

  Lemma stray_result c srv st rid v : carried V (c_ser c) v -> plain_value V v -> ~ pending c rid ->
    exists p, dumps V (c_ser c) srv st (reply rid v VNone) = (st, Ok p) /\ client_recv V c p = (c, None).
  Proof.
    intros C [O P] N. destruct (reply_send V GV (c_ser c) "" srv st rid v C (alive_none _ _ _ O) (or_introl O))
      as (st' & p & tr & v' & D & _ & _ & _ & A & St & U).
    specialize (St O). subst st'. destruct (arrives_plain V _ _ _ _ A O) as [-> ->]. exists p. split; [exact D|].
    pose proof (U (c_local c) (c_st c) VProxy) as L. rewrite P in L. specialize (L ltac:(intros ? [])).
    unfold reply, fields in L. cbn [map] in L. eapply stray; [exact L|reflexivity|reflexivity|exact N].
  Qed.

  Lemma notice_breaks c srv st : exists p, dumps V (c_ser c) srv st notice = (st, Ok p) /\
    let c' := fst (client_recv V c p) in
    snd (client_recv V c p) = None /\ c_disc c' = true /\
    (forall rid, pending c rid -> finished c' rid (Err RuntimeError)) /\ (forall rid, ~ pending c' rid) /\
    forall os, snd (client_run V c' os) = [] /\
      forall action opts rt sync, send V (fst (client_run V c' os)) action opts rt sync =
        (fst (client_run V c' os), None, Err RuntimeError).
  Proof.
    destruct (notice_wire V GV (c_ser c) srv st) as (p & D & L). exists p. split; [exact D|]. apply notice_received. apply L.
  Qed.
End Client2.
