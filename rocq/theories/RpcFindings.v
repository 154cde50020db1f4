(** What goes wrong, for every run: a message in an unsupported serializer ends the
    server, a close request without response never reaches its sender's client, and a
    reply that cannot be decoded is read and forgotten. *)
From Verif Require Import Py ObjTableModel SerModel SerSpec SerProofs SerProofs2 SerProofsJ
  FrameModel FrameProofs ServerModel ClientModel WireSpec WireProofs ServerProofs ServerProofs2 ClientProofs ApiModel ApiSpec ApiProofs
  RpcModel RpcSpec RpcInv RpcInv2 RpcInv3 RpcInv4 RpcProofs RpcProofs2 ClientProofs2.

Section Findings.
  Variable V : venv.
  Hypothesis GV : good_venv V.
  Variable cap : nat.

  (** ** a server that reads nothing and runs no user code *)
  Definition idle (y : sys) : Prop := can_read y = false /\ y_stack y = [].
  Lemma idle_step y l : idle y -> idle (ystep V cap y l) /\ server_events (y_log (ystep V cap y l)) = server_events (y_log y).
  Proof.
    intros [C S]. destruct l; cbn [ystep].
    - destruct (_ || _); split; try split; auto.
    - destruct (dget (y_cl y) c) as [k|]; [|split; [split|]; auto]. destruct (_ && _); [|split; [split|]; auto].
      destruct (send V k action opts rt sync) as [[k' m] r]. destruct m; (split; [split; auto|]); [|reflexivity].
      cbn [logged y_log]. unfold server_events. rewrite filter_app. cbn. apply app_nil_r.
    - destruct (dget (y_cl y) c) as [k|]; [|split; [split|]; auto]. destruct (queue (y_down y) c); [split; [split|]; auto|].
      destruct (client_recv V k p) as [k' e]. split; [split; auto|]. cbn [logged y_log]. unfold server_events. rewrite filter_app. cbn. apply app_nil_r.
    - destruct (dget (y_cl y) c) as [k|]; [|split; [split|]; auto]. split; [split; auto|].
      cbn [logged y_log]. unfold server_events. rewrite filter_app. cbn. apply app_nil_r.
    - destruct (dget (y_cl y) c) as [k|]; (split; [split|]; auto).
    - rewrite C. split; [split|]; auto.
    - split; [|reflexivity]. split; [|exact S]. destruct u; exact C.
    - rewrite S. split; [split|]; auto.
  Qed.
  Lemma idle_run ls : forall y, idle y -> idle (yrun V cap y ls) /\ server_events (y_log (yrun V cap y ls)) = server_events (y_log y).
  Proof.
    induction ls as [|l ls IH]; intros y I; [auto|]. cbn [yrun]. destruct (idle_step y l I) as [I' E].
    destruct (IH _ I') as [I'' E']. rewrite E', E. auto.
  Qed.

  Lemma unsupported_kills y c k action opts rt sync :
    dget (y_cl y) c = Some k -> smem (c_ser k) (sv_sers (y_sv y)) = false -> queue (y_up y) c = [] ->
    y_dead y = false -> sv_open (y_sv y) = true -> sv_closed (y_sv y) = false -> y_stack y = [] ->
    c_disc k = false -> c_open k = true -> 0 <= c_next k -> sync <> Off ->
    ve_utf8 V action = true -> ve_utf8 V rt = true -> ve_utf8 V (c_ser k) = true ->
    match opts with None => True | Some v => supported V (c_ser k) v /\ objs (ve_ser V) v = [] end ->
    let y' := yrun V cap y [CSend c action opts rt sync; SRecv c] in
    exists m, m_action m = action /\ m_ser m = c_ser k /\
      server_events (y_log y') = server_events (y_log y) ++ [EvExec c m] /\
      y_dead y' = true /\ sv_closed (y_sv y') = false /\
      forall ls, server_events (y_log (yrun V cap y' ls)) = server_events (y_log y').
  Proof.
    intros K Un Q De Op Cl St Di Co Nx Sy Ua Ur Us Ho.
    destruct (request_sent V GV k action opts rt sync c Di Co Ua Ur Us Ho) as (k' & m & r & S & R & A & _ & Es & _ & Rq & _).
    cbn [yrun ystep]. rewrite K, Ua, Ur. cbn [andb]. rewrite S. cbn [set_cl y_up]. rewrite Q. cbn [app].
    match goal with |- context [can_read ?x] => set (y1 := x); assert (CR : can_read y1 = true) end.
    { unfold y1, can_read. cbn [logged set_up set_cl y_dead y_sv y_stack]. rewrite De, Op, St, Cl. reflexivity. }
    rewrite CR. assert (Q1 : queue (y_up y1) c = [client_frames m]).
    { unfold y1, queue. cbn [logged set_up set_cl y_up]. rewrite dget_dset_same. reflexivity. }
    rewrite Q1, R. assert (Un' : smem (m_ser m) (sv_sers (y_sv (logged (set_up y1 (dset (y_up y1) c [])) (EvExec c m)))) = false) by (rewrite Es; exact Un).
    destruct (unsupported V _ c m Un') as (s' & os & x & -> & No & _ & _ & Cd & _ & Xn & _).
    assert (Xs : x <> None) by (apply Xn; rewrite (Rq Sy); exact Nx).
    destruct x as [x|]; [|congruence].
    assert (Em : forall os y c m r, (forall to p, ~ In (Sent to p) os) -> emit cap y c m r os = y).
    { clear. induction os as [|[to p|e] os IH]; intros y c m r N; [reflexivity|exfalso; apply (N to p); left; reflexivity|].
      cbn [emit]. apply IH. intros to p I. apply (N to p). right. exact I. }
    rewrite Em by exact No. set (y2 := logged (set_sv _ _) _).
    assert (S2 : y_stack y2 = []) by (unfold y2, y1; cbn [logged set_sv set_up set_cl y_stack]; exact St).
    unfold escaped. rewrite S2. set (y3 := mkSys _ _ _ _ _ _ _).
    exists m. split; [exact A|]. split; [exact Es|]. split; [|split; [reflexivity|split]].
    - unfold y3, y2, y1. cbn [logged set_sv set_up set_cl y_log]. unfold server_events. rewrite !filter_app. cbn. rewrite !app_nil_r. reflexivity.
    - unfold y3, y2. cbn [logged set_sv y_sv]. rewrite Cd. exact Cl.
    - intro ls. apply idle_run. split; reflexivity.
  Qed.

  (** ** a client that nothing is under way to *)
  Definition cut_off (c : string) (y : sys) : Prop :=
    idle y /\ queue (y_down y) c = [] /\ forall k, dget (y_cl y) c = Some k -> c_disc k = false.
  Lemma send_disc k action opts rt sync : c_disc (fst (fst (send V k action opts rt sync))) = c_disc k.
  Proof.
    unfold send. destruct (c_disc k) eqn:D; [exact D|].
    destruct sync; destruct opts as [v|]; cbn [set_next c_open c_ser c_futs c_local c_st];
      try (destruct (dumps _ _ _ _ _) as [st' [p|e]]; cbn [set_cst c_open]);
      cbn; try (destruct (c_open k)); exact D.
  Qed.
  Lemma cut_off_step c y l : cut_off c y -> cut_off c (ystep V cap y l).
  Proof.
    intros (I & Q & D). split; [apply idle_step; exact I|]. destruct l; cbn [ystep].
    - destruct (_ || _); [auto|]. cbn [set_down set_up set_cl y_down y_cl]. unfold queue.
      destruct (String.eqb_spec c0 c) as [->|N].
      + rewrite !dget_dset_same. split; [reflexivity|]. intros k [= <-]. reflexivity.
      + rewrite !dget_dset_other by congruence. auto.
    - destruct (dget (y_cl y) c0) as [k|] eqn:K; [|auto]. destruct (_ && _); [|auto].
      pose proof (send_disc k action opts rt sync) as SD. destruct (send V k action opts rt sync) as [[k' m] r]. cbn [fst] in SD.
      assert (X : forall k0, dget (dset (y_cl y) c0 k') c = Some k0 -> c_disc k0 = false).
      { intros k0 H. destruct (String.eqb_spec c0 c) as [->|N].
        - rewrite dget_dset_same in H. injection H as <-. rewrite SD. auto.
        - rewrite dget_dset_other in H by congruence. auto. }
      destruct m; cbn [logged set_up set_cl y_down y_cl]; auto.
    - destruct (dget (y_cl y) c0) as [k|] eqn:K; [|auto]. destruct (queue (y_down y) c0) as [|p rest] eqn:Q0; [auto|].
      assert (N : c0 <> c) by congruence. destruct (client_recv V k p) as [k' e].
      cbn [logged set_down set_cl y_down y_cl]. unfold queue in *. rewrite !dget_dset_other by congruence. auto.
    - destruct (dget (y_cl y) c0) as [k|] eqn:K; [|auto]. cbn [logged set_cl y_down y_cl]. split; [exact Q|].
      intros k0 H. destruct (String.eqb_spec c0 c) as [->|N].
      + rewrite dget_dset_same in H. injection H as <-. cbn. auto.
      + rewrite dget_dset_other in H by congruence. auto.
    - destruct (dget (y_cl y) c0) as [k|] eqn:K; [|auto]. cbn [set_cl y_down y_cl]. split; [exact Q|].
      intros k0 H. destruct (String.eqb_spec c0 c) as [->|N].
      + rewrite dget_dset_same in H. injection H as <-. cbn. auto.
      + rewrite dget_dset_other in H by congruence. auto.
    - destruct I as [-> _]. auto.
    - auto.
    - destruct I as [_ ->]. auto.
  Qed.
  Lemma cut_off_run c ls : forall y, cut_off c y -> cut_off c (yrun V cap y ls).
  Proof. induction ls as [|l ls IH]; intros y C; [exact C|]. cbn [yrun]. apply IH, cut_off_step, C. Qed.

  Lemma emit_queue c : forall os y c0 m r, (forall p, ~ In (Sent c p) os) ->
    queue (y_down (emit cap y c0 m r os)) c = queue (y_down y) c.
  Proof.
    induction os as [|[to p|e] os IH]; intros y c0 m r N; [reflexivity| |].
    - cbn [emit]. rewrite IH by (intros q H; apply (N q); right; exact H). assert (to <> c) by (intros ->; apply (N p); left; reflexivity).
      unfold deliver. destruct (_ && _); cbn [logged y_down]; [|reflexivity]. unfold queue. rewrite dget_dset_other by congruence. reflexivity.
    - cbn [emit]. apply IH. intros q H. apply (N q). right. exact H.
  Qed.
  Lemma notices_not_to c l os : notices V c l os -> forall p, ~ In (Sent c p) os.
  Proof.
    unfold notices. intros H p J. set (l' := filter _ l) in H. assert (X : forall ct, In ct l' -> fst ct <> c).
    { intros ct Hct. apply filter_In in Hct. destruct Hct as [_ Hct]. destruct (String.eqb_spec (fst ct) c); [discriminate|assumption]. }
    clearbody l'. induction H as [|ct o l1 l2 (q & -> & _) F IH]; [destruct J|]. destruct J as [J|J].
    - injection J as J _. apply (X ct); [left; reflexivity|exact J].
    - apply IH; [exact J|]. intros ct' H'. apply X. right. exact H'.
  Qed.

  Lemma closer_cut_off s ls c k m opts : fresh_server s -> joins_supported (sv_sers s) ls ->
    let y := yrun V cap (yinit s) ls in
    sv_open (y_sv y) = true -> y_stack y = [] -> next_request y c = Some m -> m_action m = "close" ->
    options V (y_sv y) m = Ok opts -> m_req m < 0 ->
    dget (y_cl y) c = Some k -> c_disc k = false -> queue (y_down y) c = [] ->
    let y' := ystep V cap y (SRecv c) in
    sv_closed (y_sv y') = true /\ In (EvDone c m (Ok (VBool true)) None) (y_log y') /\
    forall ls' k', dget (y_cl (yrun V cap y' ls')) c = Some k' -> c_disc k' = false.
  Proof.
    intros FS J y O St NQ A Op Rq K Di Qd. pose proof (run_inv V GV cap s FS ls J) as I. pose proof (run_sock V GV cap s FS ls J) as Ks. fold y in I, Ks.
    pose proof (open_reads V s y I O) as CR. pose proof (next_up V _ y c I) as Q. rewrite NQ in Q. destruct Q as (rest & Q).
    cbn [ystep]. rewrite CR, Q.
    destruct (known_client V _ y c m I rest Q) as (k1 & Kc & Es & R & U & Sm).
    rewrite (read_frames _ c m R). cbn [logged set_up y_sv y_stack]. pose proof (i_sers _ _ _ _ _ I) as Sers.
    pose proof Sm as Sm'. rewrite <- Sers in Sm'.
    destruct (close_answer V GV (y_sv y) c m opts U Sm' O A) as (s' & os & o & B & N & An & O' & C' & R' & Cl' & _).
    { intros c' t H. rewrite Sers. apply (sers_known V _ y I c' t H). }
    { apply (k_reg _ Ks O). }
    { exact Op. }
    rewrite B. set (y1 := set_sv _ s').
    cbn [escaped]. set (y2 := emit cap y1 c m (Ok (VBool true)) (os ++ o)).
    change (escaped (logged y2 (EvDone c m (Ok (VBool true)) None)) None) with (logged y2 (EvDone c m (Ok (VBool true)) None)).
    destruct (emit_frame cap (os ++ o) y1 c m (Ok (VBool true))) as (F1 & F2 & F3 & F4 & F5). fold y2 in F1, F2, F3, F4, F5.
    assert (Nq : forall p, ~ In (Sent c p) (os ++ o)).
    { intros p H. apply in_app_or in H. destruct H as [H|H]; [exact (notices_not_to _ _ _ N p H)|].
      unfold answer in An. replace (0 <=? m_req m) with false in An by (symmetry; apply Z.leb_gt; lia).
      unfold hooks in An. rewrite Forall_forall in An. exact (An _ H). }
    split; [cbn [logged y_sv]; rewrite F1; exact C'|]. split; [cbn [logged y_log]; apply in_or_app; right; left; reflexivity|].
    intros ls' k' H. apply (cut_off_run c ls' (logged y2 (EvDone c m (Ok (VBool true)) None))); [|exact H].
    split; [split|split].
    - unfold can_read. cbn [logged y_dead y_sv y_stack]. rewrite F1. unfold y1. cbn [set_sv y_sv]. rewrite O'.
      destruct (y_dead y2); reflexivity.
    - cbn [logged y_stack]. rewrite F2. exact St.
    - cbn [logged y_down]. unfold y2. rewrite emit_queue by exact Nq. exact Qd.
    - cbn [logged y_cl]. rewrite F4. unfold y1. cbn [set_sv logged set_up y_cl]. intros k0 H0. congruence.
  Qed.

  (** ** a reply that cannot be decoded *)
  Definition no_date : pyval := VDict [(VStr "___type_name___", VStr "date"); (VStr "data", VStr "x")].
  Lemma no_date_pack n st srv rid : exists w e, pack (ve_ser V) (S (S (S (S n)))) srv st (reply rid no_date VNone) = (st, Ok w) /\
    forall srv2 st2, unpack (ve_ser V) srv2 st2 w = Err e.
  Proof.
    destruct (int_fits rid) eqn:F.
    - eexists _, _. split.
      + cbn -[int_fits]. rewrite F. reflexivity.
      + intros. cbn. reflexivity.
    - destruct (ge_int _ (gv_ser V GV) rid) as (x & D & L). eexists _, _. split.
      + cbn -[int_fits]. rewrite F. assert (Ee : encode (ve_ser V) srv st (VInt rid) = (st, Ok (fields [(encode_key, VStr "pickle"); ("pickle_str", VBytes x)]))).
        { unfold encode. rewrite (ge_types _ (gv_ser V GV)) by discriminate. unfold encode_value. cbn. rewrite D. reflexivity. }
        rewrite Ee. cbn. reflexivity.
      + intros. cbn. rewrite L. reflexivity.
  Qed.
  Lemma no_date_packs st srv rid : exists w e, msgpack_dumps (ve_ser V) srv st (reply rid no_date VNone) = (st, Ok w) /\
    forall srv2 st2, unpack (ve_ser V) srv2 st2 w = Err e.
  Proof. exact (no_date_pack 508 st srv rid). Qed.
  Lemma undecodable_result s a : served V s (a_caller a) "msgpack" -> 0 <= m_req (a_msg a) ->
    m_action (a_msg a) <> "close" -> m_rt (a_msg a) <> "proxy" ->
    exists p e, finish_request V s a (Ok no_date) = (s, [Sent (a_caller a) p], None) /\
      forall k, c_ser k = "msgpack" -> client_recv V k p = (k, Some e).
  Proof.
    intros (U & Dc & Sm & O) Rq Ac Rt. destruct (no_date_packs (sv_st s) (Some (sv_addr s)) (m_req (a_msg a))) as (w & e & P & L).
    exists (PPack w), e. split.
    - unfold finish_request. replace (0 <=? m_req (a_msg a)) with true by (symmetry; apply Z.leb_le; exact Rq).
      assert (A : (if String.eqb (m_rt (a_msg a)) "auto" then auto_proxy V s no_date
         else if String.eqb (m_rt (a_msg a)) "proxy" then make_proxy V s no_date else (s, Ok no_date)) = (s, Ok no_date)).
      { destruct (String.eqb_spec (m_rt (a_msg a)) "auto").
        - unfold auto_proxy. rewrite (ge_types _ (gv_ser V GV)) by discriminate. reflexivity.
        - destruct (String.eqb_spec (m_rt (a_msg a)) "proxy"); [contradiction|reflexivity]. }
      rewrite A. unfold send_result. rewrite U, Dc, Sm. unfold dumps. cbn [String.eqb Ascii.eqb Bool.eqb]. rewrite P. cbn [bind].
      assert (Es : set_st s (sv_st s) = s) by (destruct s; reflexivity). rewrite Es. unfold sock_send. rewrite O.
      destruct (String.eqb_spec (m_action (a_msg a)) "close"); [contradiction|reflexivity].
    - intros k Es. unfold client_recv, loads. rewrite Es. cbn [String.eqb Ascii.eqb Bool.eqb]. rewrite L. reflexivity.
  Qed.
End Findings.
