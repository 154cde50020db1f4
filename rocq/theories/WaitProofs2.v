(** Replies as the server produces them end the wait. *)
From Verif Require Import Py ObjTableModel SerModel SerSpec SerProofs SerProofs2 SerProofsJ
  FrameModel FrameProofs ServerModel ClientModel WireSpec WireProofs ServerProofs ServerProofs2 ClientProofs ApiModel ApiSpec ApiProofs
  RpcModel RpcSpec RpcProofs2 ClientProofs2 WaitModel WaitProofs.

Section Wait2.
  Variable V : venv.
  Hypothesis GV : good_venv V.
  Variable W : wcfg.

  Lemma reply_read k srv st rid v : carried V (c_ser k) v -> plain_value V v -> waiting k rid ->
    exists p k', dumps V (c_ser k) srv st (reply rid v VNone) = (st, Ok p) /\
      client_recv V k p = (k', None) /\ finished k' rid (Ok (seen V (c_ser k) v)).
  Proof.
    intros C [O P] N. destruct (reply_send V GV (c_ser k) "" srv st rid v C (alive_none _ _ _ O) (or_introl O))
      as (st' & p & tr & v' & D & _ & _ & _ & A & St & U).
    specialize (St O). subst st'. destruct (arrives_plain V _ _ _ _ A O) as [-> ->].
    pose proof (U (c_local k) (c_st k) VProxy) as L. rewrite P in L. specialize (L ltac:(intros ? [])). rewrite subst_id in L.
    exists p. eexists. split; [exact D|]. unfold client_recv. rewrite L, process_reply_ok, N. cbn [complete].
    split; [reflexivity|]. apply dget_dset_same.
  Qed.

  Lemma error_read k srv st rid e : waiting k rid ->
    exists p k', dumps V (c_ser k) srv st (reply rid VNone (error_value V e)) = (st, Ok p) /\
      client_recv V k p = (k', None) /\ finished k' rid (Err (RemoteCallException (exn_name e))).
  Proof.
    intro N. destruct (reply_error V GV (c_ser k) srv st rid e) as (p & D & L). exists p. eexists. split; [exact D|].
    unfold client_recv. rewrite L. rewrite process_reply_err, N. cbn [complete].
    split; [reflexivity|]. apply dget_dset_same.
  Qed.

  (** the reply to the request waited for is next in line *)
  Lemma reply_returned s r srv st v : s_phase s = PCheck -> waiting (s_cl s) (w_rid W) ->
    (forall o, ~ finished (s_cl s) (w_rid W) o) -> (forall t, w_timeout W = Some t -> s_now s <= s_start s + t) ->
    carried V (c_ser (s_cl s)) v -> plain_value V v ->
    exists p, dumps V (c_ser (s_cl s)) srv st (reply (w_rid W) v VNone) = (st, Ok p) /\
      (s_in s = p :: r -> exists s', wrun V W s [WGo; WGo; WGo; WGo; WGo] = Some s' /\
                            s_phase s' = PEnd (Returned (Ok (seen V (c_ser (s_cl s)) v)))).
  Proof.
    intros P Wa Nf T C Pl. destruct (reply_read (s_cl s) srv st (w_rid W) v C Pl Wa) as (p & k' & D & R & F).
    exists p. split; [exact D|]. intro IN. eapply next_returned; eauto.
    destruct (dget (c_done (s_cl s)) (w_rid W)) as [o|] eqn:E; [|reflexivity]. exfalso. exact (Nf o E).
  Qed.
  Lemma error_returned s r srv st e : s_phase s = PCheck -> waiting (s_cl s) (w_rid W) ->
    (forall o, ~ finished (s_cl s) (w_rid W) o) -> (forall t, w_timeout W = Some t -> s_now s <= s_start s + t) ->
    exists p, dumps V (c_ser (s_cl s)) srv st (reply (w_rid W) VNone (VTuple [VStr (exn_name e); VList [VStr (ve_tb V e)]])) = (st, Ok p) /\
      (s_in s = p :: r -> exists s', wrun V W s [WGo; WGo; WGo; WGo; WGo] = Some s' /\
                            s_phase s' = PEnd (Returned (Err (RemoteCallException (exn_name e))))).
  Proof.
    intros P Wa Nf T. destruct (error_read (s_cl s) srv st (w_rid W) e Wa) as (p & k' & D & R & F).
    exists p. split; [exact D|]. intro IN. eapply next_returned; eauto.
    destruct (dget (c_done (s_cl s)) (w_rid W)) as [o|] eqn:E; [|reflexivity]. exfalso. exact (Nf o E).
  Qed.
End Wait2.
