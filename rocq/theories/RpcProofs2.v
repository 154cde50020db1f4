(** One client on its own; published names; failing requests. *)
From Verif Require Import Py ObjTableModel SerModel SerSpec SerProofs SerProofs2 SerProofsJ
  FrameModel FrameProofs ServerModel ClientModel WireSpec WireProofs ServerProofs ServerProofs2 ClientProofs RpcModel RpcSpec
  RpcInv RpcInv2 RpcInv3 RpcInv4 RpcProofs.

Section One.
  Variable V : venv.

  Lemma cop_ok c o : futures_ok c -> futures_ok (fst (cop_step V c o)) /\ keeps c (fst (cop_step V c o)).
  Proof.
    intro F. destruct o; cbn [cop_step].
    - destruct (send V c action opts rt sync) as [[c' m] r] eqn:S. apply (ok_send V _ _ _ _ _ _ _ _ F S).
    - destruct (client_recv V c p) as [c' x] eqn:S. apply (ok_recv V _ _ _ _ F S).
    - apply ok_drop. exact F.
    - split; [|intros ? ? H; exact H]. destruct F. constructor; assumption.
  Qed.
  Lemma run_ok os : forall c, futures_ok c -> futures_ok (fst (client_run V c os)) /\ keeps c (fst (client_run V c os)).
  Proof.
    induction os as [|o os IH]; intros c F; [split; [exact F|intros ? ? H; exact H]|].
    cbn [client_run]. destruct (cop_step V c o) as [c1 m1] eqn:S. destruct (cop_ok c o F) as [F1 K1].
    rewrite S in F1, K1. cbn [fst] in F1, K1. destruct (IH c1 F1) as [F2 K2].
    destruct (client_run V c1 os) as [c2 m2]. cbn [fst] in *. split; [exact F2|]. intros rid x H. apply K2, K1, H.
  Qed.
  Lemma client_run_app os os' : forall c, fst (client_run V c (os ++ os')) = fst (client_run V (fst (client_run V c os)) os').
  Proof.
    induction os as [|o os IH]; intro c; [reflexivity|]. cbn [app client_run]. destruct (cop_step V c o) as [c1 m1].
    specialize (IH c1). destruct (client_run V c1 (os ++ os')) as [c2 m2], (client_run V c1 os) as [c3 m3]. exact IH.
  Qed.

  Lemma done_for_ever ser local st os os' rid o :
    finished (fst (client_run V (new_client ser local st) os)) rid o ->
    finished (fst (client_run V (new_client ser local st) (os ++ os'))) rid o.
  Proof.
    intro H. rewrite client_run_app. apply (run_ok os'); [|exact H]. apply run_ok, new_ok.
  Qed.
  Lemma done_not_pending ser local st os rid o :
    finished (fst (client_run V (new_client ser local st) os)) rid o ->
    ~ pending (fst (client_run V (new_client ser local st) os)) rid.
  Proof.
    intros H P. assert (F : futures_ok (fst (client_run V (new_client ser local st) os))) by apply run_ok, new_ok.
    unfold finished in H. rewrite (fo_disj _ F _ P) in H. discriminate.
  Qed.
  Lemma stray c p d rid : loads V (c_ser c) (c_local c) (c_st c) p = Ok (VDict d) ->
    field d "action" = Ok (VStr "return") -> field d "req_id" = Ok (VInt rid) -> ~ pending c rid ->
    client_recv V c p = (c, None).
  Proof.
    intros L A R N. unfold client_recv. rewrite L. cbn [process_msg]. rewrite A. cbn [String.eqb Ascii.eqb Bool.eqb].
    rewrite R. assert (D : dget (c_futs c) rid = None) by (apply dget_None; exact N).
    rewrite D. reflexivity.
  Qed.

  (** ** disconnection *)
  Lemma disc_step c o : c_disc c = true -> c_futs c = [] ->
    c_disc (fst (cop_step V c o)) = true /\ c_futs (fst (cop_step V c o)) = [] /\ snd (cop_step V c o) = [].
  Proof.
    intros D F. destruct o; cbn [cop_step].
    - rewrite (send_disconnected V c _ _ _ _ D). auto.
    - split; [|split; [|reflexivity]]; unfold client_recv; destruct (loads _ _ _ _ _) as [v|]; auto; cbn [fst];
        (destruct v; cbn [process_msg]; auto; destruct (field d "action") as [[]|]; auto;
         destruct (String.eqb s "return");
         [destruct (field d "req_id") as [[]|]; auto; rewrite F; cbn; auto|
          destruct (String.eqb s "disconnect"); auto]).
    - cbn. rewrite F. auto.
    - auto.
  Qed.
  Lemma disc_run os : forall c, c_disc c = true -> c_futs c = [] ->
    c_disc (fst (client_run V c os)) = true /\ c_futs (fst (client_run V c os)) = [] /\ snd (client_run V c os) = [].
  Proof.
    induction os as [|o os IH]; intros c D F; [auto|]. cbn [client_run]. destruct (disc_step c o D F) as (D1 & F1 & M1).
    destruct (cop_step V c o) as [c1 m1]. cbn [fst snd] in *. destruct (IH c1 D1 F1) as (D2 & F2 & M2).
    destruct (client_run V c1 os) as [c2 m2]. cbn [fst snd] in *. subst. auto.
  Qed.

  Lemma notice_received c p : loads V (c_ser c) (c_local c) (c_st c) p = Ok notice ->
    let c' := fst (client_recv V c p) in
    snd (client_recv V c p) = None /\ c_disc c' = true /\
    (forall rid, pending c rid -> finished c' rid (Err RuntimeError)) /\
    (forall rid, ~ pending c' rid) /\
    forall os, snd (client_run V c' os) = [] /\
      forall action opts rt sync, send V (fst (client_run V c' os)) action opts rt sync
                                  = (fst (client_run V c' os), None, Err RuntimeError).
  Proof.
    intro L. rewrite (recv_notice V c p L). cbn [fst snd]. split; [reflexivity|]. split; [reflexivity|].
    split; [|split].
    - intros rid P. unfold finished. rewrite disconnected_done. apply smem_In in P. rewrite P. reflexivity.
    - intros rid P. destruct P.
    - intro os. destruct (disc_run os (server_disconnected c) eq_refl eq_refl) as (D & _ & M). split; [exact M|].
      intros. apply send_disconnected. exact D.
  Qed.

  (** a message that cannot be decoded changes nothing at the client *)
  Lemma undecodable c p e : loads V (c_ser c) (c_local c) (c_st c) p = Err e -> client_recv V c p = (c, Some e).
  Proof. intro L. unfold client_recv. rewrite L. reflexivity. Qed.
End One.

(** ** Published names *)
Section Names.
  Variable V : venv.
  Hypothesis GV : good_venv V.
  Variable cap : nat.
  Variable sers : list string.

  Definition assigned (y : sys) (l : label) (k : string) : option pyval :=
    match assignment V y l with
    | Some (k', v) => if String.eqb k' k then Some v else dget (sv_names (y_sv y)) k
    | None => dget (sv_names (y_sv y)) k
    end.

  Lemma process_names s action opts c s' o r k : process_action V s action opts c = (s', o, r) ->
    dget (sv_names s') k =
      match (if String.eqb action "set_item" then
               match opts with
               | VDict d => match kget d (VStr "name"), kget d (VStr "obj") with
                            | Some (VStr k'), Some v => Some (k', v)
                            | _, _ => None end
               | _ => None end
             else None) with
      | Some (k', v) => if String.eqb k' k then Some v else dget (sv_names s) k
      | None => dget (sv_names s) k
      end.
  Proof.
    destruct (String.eqb_spec action "set_item") as [->|N].
    - unfold process_action. cbn [String.eqb Ascii.eqb Bool.eqb opt].
      destruct opts; cbn [opt]; try (intros [= <- _ _]; reflexivity). unfold field.
      destruct (kget d (VStr "obj")) as [v|]; [|destruct (kget d (VStr "name")) as [[]|]; intros [= <- _ _]; reflexivity].
      destruct (kget d (VStr "name")) as [[]|]; intros [= <- _ _]; try reflexivity.
      cbn [set_names sv_names]. destruct (String.eqb_spec s0 k) as [->|Ne]; [apply dget_dset_same|].
      apply dget_dset_other. congruence.
    - intro H. destruct (String.eqb_spec action "close") as [->|NC].
      + unfold process_action in H. cbn [String.eqb Ascii.eqb Bool.eqb] in H.
        destruct (send_disconnects V (set_closed s) c (sv_clients (set_closed s))) as [os [x|]].
        * injection H as <- _ _. reflexivity.
        * destruct (sv_reg (set_closed s)); injection H as <- _ _; reflexivity.
      + destruct (process_kept V s action opts c s' o r NC H) as (_ & _ & E). rewrite (E N). reflexivity.
  Qed.

  Lemma begin_names s c m s' os b k : ve_utf8 V c = true -> smem (m_ser m) (sv_sers s) = true ->
    begin_request V s c m = (s', os, b) ->
    dget (sv_names s') k =
      match (if String.eqb (m_action m) "set_item" then
               match options V s m with
               | Ok (VDict d) => match kget d (VStr "name"), kget d (VStr "obj") with
                            | Some (VStr k'), Some v => Some (k', v)
                            | _, _ => None end
               | _ => None end
             else None) with
      | Some (k', v) => if String.eqb k' k then Some v else dget (sv_names s) k
      | None => dget (sv_names s) k
      end.
  Proof.
    intros U S. unfold begin_request. fold (with_client s c m).
    change (sv_sers (with_client s c m)) with (sv_sers s). rewrite S, U.
    change (match m_opts m with PEmpty => Ok VNone | p => loads V (m_ser m) (Some (sv_addr (with_client s c m))) (sv_st (with_client s c m)) p end)
      with (options V s m).
    destruct (options V s m) as [opts|e].
    - destruct (process_action V (with_client s c m) (m_action m) opts c) as [[s2 o] r] eqn:P.
      pose proof (process_names _ _ _ _ _ _ _ k P) as H. change (sv_names (with_client s c m)) with (sv_names s) in H.
      destruct r as [r|f args kw].
      + destruct (finish_request V s2 (mkAct c m) r) as [[s3 o3] x] eqn:F. intros [= <- _ _].
        destruct (finish_shell V _ _ _ _ _ _ F) as (_ & _ & _ & _ & En & _). rewrite En, H.
        destruct (String.eqb (m_action m) "set_item"); [|reflexivity]. destruct opts; reflexivity.
      + intros [= <- _ _]. rewrite H. destruct (String.eqb (m_action m) "set_item"); [|reflexivity]. destruct opts; reflexivity.
    - destruct (finish_request V (with_client s c m) (mkAct c m) (Err e)) as [[s3 o3] x] eqn:F. intros [= <- _ _].
      destruct (finish_shell V _ _ _ _ _ _ F) as (_ & _ & _ & _ & En & _). rewrite En.
      destruct (String.eqb (m_action m) "set_item"); reflexivity.
  Qed.

  Lemma names_step y l k : Inv V sers [] None y ->
    dget (sv_names (y_sv (ystep V cap y l))) k = assigned y l k.
  Proof.
    intro I. unfold assigned. destruct l; cbn [ystep assignment].
    - destruct (_ || _); reflexivity.
    - destruct (dget (y_cl y) c) as [q|]; [|reflexivity]. destruct (_ && _); [|reflexivity].
      destruct (send V q action opts rt sync) as [[k' [m|]] res]; reflexivity.
    - destruct (dget (y_cl y) c) as [q|]; [|reflexivity]. destruct (queue (y_down y) c) as [|p r]; [reflexivity|].
      destruct (client_recv V q p) as [k' e]; reflexivity.
    - destruct (dget (y_cl y) c) as [q|]; reflexivity.
    - destruct (dget (y_cl y) c) as [q|]; reflexivity.
    - destruct (sv_open (y_sv y)) eqn:O; [|unfold can_read; rewrite O, andb_false_r; reflexivity].
      destruct (i_open _ _ _ _ _ I O) as [Cl De].
      assert (CR : can_read y = true) by (unfold can_read; rewrite De, O, Cl; destruct (y_stack y); reflexivity).
      rewrite CR. pose proof (next_up V sers y c I) as Q. destruct (next_request y c) as [m|]; [|rewrite Q; reflexivity].
      destruct Q as (rest & Q). rewrite Q. destruct (known_client V sers y c m I rest Q) as (kk & K & Es & R & U & Sm).
      rewrite (read_frames _ c m R). cbn [logged set_up y_sv y_stack]. pose proof (i_sers _ _ _ _ _ I) as Sers.
      rewrite <- Sers in Sm.
      destruct (begin_request V (y_sv y) c m) as [[s' os] [r x|a g args kw]] eqn:B;
        pose proof (begin_names _ _ _ _ _ _ k U Sm B) as H; rewrite <- H.
      + destruct (escaped_frame (logged (emit cap (set_sv (logged (set_up y (dset (y_up y) c rest)) (EvExec c m)) s') c m r os) (EvDone c m r x)) x) as [E1 _].
        cbn [logged set_up y_sv y_stack y_cl y_up y_down y_log y_dead set_sv] in *. rewrite E1. cbn [logged y_sv].
        match goal with |- context [emit cap ?z c m r os] => destruct (emit_frame cap os z c m r) as (F & _); rewrite F end. reflexivity.
      + match goal with |- context [emit cap ?z c m ?r os] => destruct (emit_frame cap os z c m r) as (F & _) end.
        cbn [set_stack y_sv]. rewrite F. reflexivity.
    - destruct u; cbn [user_step set_sv y_sv]; try reflexivity. cbn [set_names sv_names].
      destruct (String.eqb_spec k0 k) as [->|Ne]; [apply dget_dset_same|apply dget_dset_other; congruence].
    - destruct (y_stack y) as [|a rest]; [reflexivity|].
      destruct (finish_request V (y_sv y) a r) as [[s' os] x] eqn:F.
      destruct (finish_shell V _ _ _ _ _ _ F) as (_ & _ & _ & _ & En & _).
      match goal with |- context [escaped ?z ?w] => destruct (escaped_frame z w) as [E1 _] end.
      rewrite E1. cbn [logged y_sv].
      match goal with |- context [emit cap ?z ?c ?m r os] => destruct (emit_frame cap os z c m r) as (F' & _); rewrite F' end.
      cbn [set_stack set_sv y_sv]. rewrite En. reflexivity.
  Qed.

  Lemma names_run ls k : forall y, Inv V sers [] None y -> joins_supported sers ls ->
    dget (sv_names (y_sv (yrun V cap y ls))) k = latest V cap y ls k (dget (sv_names (y_sv y)) k).
  Proof.
    induction ls as [|l ls IH]; intros y I J; [reflexivity|]. inversion J; subst. cbn [yrun latest].
    rewrite IH; [|apply inv_step; assumption|assumption]. rewrite (names_step y l k I). reflexivity.
  Qed.
End Names.

Section Names2.
  Variable V : venv.
  Hypothesis GV : good_venv V.
  Variable cap : nat.
  Variable s : sv.
  Hypothesis FS : fresh_server s.

  Lemma names_latest ls k : joins_supported (sv_sers s) ls ->
    dget (sv_names (y_sv (yrun V cap (yinit s) ls))) k = latest V cap (yinit s) ls k (dget (sv_names s) k).
  Proof.
    intro J. rewrite (names_run V GV cap (sv_sers s) ls k (yinit s) (inv_init V (sv_sers s) s FS eq_refl) J). reflexivity.
  Qed.

  (** reading a name *)
  Lemma read_name ls c m k d : joins_supported (sv_sers s) ls ->
    let y := yrun V cap (yinit s) ls in
    sv_open (y_sv y) = true -> next_request y c = Some m ->
    m_action m = "get_item" -> options V (y_sv y) m = Ok (VDict d) -> kget d (VStr "name") = Some (VStr k) ->
    In (EvDone c m (match latest V cap (yinit s) ls k (dget (sv_names s) k) with
                    | Some v => Ok v | None => Err KeyError end) None)
       (y_log (ystep V cap y (SRecv c))).
  Proof.
    intros J y O NQ A Op Nm. pose proof (run_inv V GV cap s FS ls J) as I. fold y in I.
    pose proof (open_reads V s y I O) as CR. pose proof (next_up V _ y c I) as Q. rewrite NQ in Q. destruct Q as (rest & Q).
    pose proof (names_latest ls k J) as L. fold y in L. rewrite <- L.
    cbn [ystep]. rewrite CR, Q. destruct (known_client V _ y c m I rest Q) as (kk & K & Es & R & U & Sm).
    rewrite (read_frames _ c m R). cbn [logged set_up y_sv y_stack]. pose proof (i_sers _ _ _ _ _ I) as Sers.
    rewrite <- Sers in Sm.
    assert (B : exists s' os, begin_request V (y_sv y) c m =
              (s', os, Finished (match dget (sv_names (y_sv y)) k with Some v => Ok v | None => Err KeyError end) None)).
    { unfold begin_request. fold (with_client (y_sv y) c m). change (sv_sers (with_client (y_sv y) c m)) with (sv_sers (y_sv y)).
      rewrite Sm, U. unfold options in Op. 
      change (sv_addr (with_client (y_sv y) c m)) with (sv_addr (y_sv y)).
      change (sv_st (with_client (y_sv y) c m)) with (sv_st (y_sv y)). rewrite Op, A.
      unfold process_action. cbn [String.eqb Ascii.eqb Bool.eqb opt bind]. unfold field. rewrite Nm. cbn [bind].
      change (sv_names (with_client (y_sv y) c m)) with (sv_names (y_sv y)).
      set (r := match dget (sv_names (y_sv y)) k with Some v => Ok v | None => Err KeyError end).
      destruct (finish_answer V GV (with_client (y_sv y) c m) (mkAct c m) r (m_ser m)) as (s' & o & F & _).
      - apply with_client_served; assumption.
      - cbn. rewrite A. discriminate.
      - rewrite F. eauto. }
    destruct B as (s' & os & ->).
    match goal with |- context [escaped ?z ?w] => destruct (escaped_frame z w) as [_ E2]; rewrite E2 end.
    cbn [logged y_log]. apply in_or_app. right. left. reflexivity.
  Qed.
End Names2.

(** ** Requests in a format the server does not have *)
Section Unsupported.
  Variable V : venv.

  Lemma unsupported s c m : smem (m_ser m) (sv_sers s) = false ->
    exists s' os x, begin_request V s c m = (s', os, Finished (Err ValueError) x) /\
      (forall to p, ~ In (Sent to p) os) /\
      sv_names s' = sv_names s /\ sv_st s' = sv_st s /\ sv_closed s' = sv_closed s /\ sv_reg s' = sv_reg s /\
      (0 <= m_req m -> x <> None) /\ (m_req m < 0 -> x = None).
  Proof.
    intro S. unfold begin_request. fold (with_client s c m). change (sv_sers (with_client s c m)) with (sv_sers s). rewrite S.
    unfold finish_request. cbn [a_caller a_msg].
    destruct (Z.leb_spec 0 (m_req m)).
    - assert (SE : exists x, send_error V (with_client s c m) c (m_req m) ValueError = (with_client s c m, [], Some x)).
      { unfold send_error, send_result. destruct (ve_utf8 V c); [|eauto]. unfold with_client at 1. cbn [set_clients sv_clients].
        rewrite dget_dset_same. change (sv_sers (with_client s c m)) with (sv_sers s). rewrite S. eauto. }
      destruct SE as (x & ->). exists (with_client s c m), [], (Some x).
      repeat split; auto; try discriminate; try lia.
    - destruct (String.eqb (m_action m) "close"); eexists _, _, None; (split; [reflexivity|]); cbn;
        repeat split; auto; try lia; intros to p [H'|[]]; discriminate.
  Qed.
End Unsupported.
