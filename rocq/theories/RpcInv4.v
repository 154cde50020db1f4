(** Receiving replies; the invariant holds in every run. *)
From Verif Require Import Py ObjTableModel SerModel SerSpec SerProofs SerProofs2 SerProofsJ
  FrameModel FrameProofs ServerModel ClientModel WireSpec WireProofs ServerProofs ServerProofs2 ClientProofs RpcModel RpcSpec RpcInv RpcInv2 RpcInv3.
From Coq Require Import Permutation.

Section Inv4.
  Variable V : venv.
  Hypothesis GV : good_venv V.
  Variable cap : nat.
  Variable sers : list string.
  Notation Inv := (Inv V sers).

  Ltac inlog := repeat match goal with
    | H : In _ (_ ++ [_]) |- _ => apply in_app_or in H; destruct H as [H|[H|[]]]; [|try discriminate H]
    end.
  Hint Resolve inl inr : core.
  Ltac red_y := cbn [logged set_sv set_stack set_cl set_up set_down y_sv y_stack y_dead y_cl y_up y_down y_log].

  (** what [complete] does to the fields that matter *)
  Lemma complete_disc k rid b o : c_disc (complete k rid b o) = true ->
    c_disc k = true \/ (b = true /\ o = Ok (VBool true)).
  Proof.
    unfold complete. destruct b; [|auto]. destruct o as [[]|]; auto. destruct b; auto.
  Qed.
  Lemma complete_disc_mono k rid b o : c_disc k = true -> c_disc (complete k rid b o) = true.
  Proof.
    intro D. unfold complete. destruct b; [|exact D]. destruct o as [[]|]; try exact D. destruct b; auto.
  Qed.
  Lemma complete_ser k rid b o : c_ser (complete k rid b o) = c_ser k.
  Proof. unfold complete. destruct b; [|reflexivity]. destruct o as [[]|]; try reflexivity. destruct b; reflexivity. Qed.
  Lemma complete_next k rid b o : c_next (complete k rid b o) = c_next k.
  Proof. unfold complete. destruct b; [|reflexivity]. destruct o as [[]|]; try reflexivity. destruct b; reflexivity. Qed.
  Lemma complete_futs k rid b o i w : dget (c_futs (complete k rid b o)) i = Some w -> dget (c_futs k) i = Some w.
  Proof. unfold complete. destruct b; [|auto]. destruct o as [[]|]; auto. destruct b; [discriminate|auto]. Qed.
  Lemma complete_close k rid : c_disc (complete k rid true (Ok (VBool true))) = true.
  Proof. reflexivity. Qed.
  Lemma complete_done k rid b o i o' : dget (c_done (complete k rid b o)) i = Some o' ->
    (i = rid /\ o' = o) \/ dget (c_done k) i = Some o' \/ (o' = Err RuntimeError /\ c_disc (complete k rid b o) = true).
  Proof.
    assert (G : dget (dset (c_done k) rid o) i = Some o' -> (i = rid /\ o' = o) \/ dget (c_done k) i = Some o').
    { rewrite dget_dset. destruct (eqb_reflect i rid); [intros [= <-]; auto|auto]. }
    assert (G2 : forall c1, c_done c1 = dset (c_done k) rid o -> dget (c_done (server_disconnected c1)) i = Some o' ->
      (i = rid /\ o' = o) \/ dget (c_done k) i = Some o' \/ (o' = Err RuntimeError)).
    { intros c1 E. rewrite disconnected_done, E. destruct (smem _ _); [intros [= <-]; auto|]. intro H. destruct (G H); auto. }
    unfold complete. destruct b; [|cbn; intro H; destruct (G H); auto].
    destruct o as [[]|]; try (cbn; intro H; destruct (G H); auto; fail).
    destruct b; [|cbn; intro H; destruct (G H); auto].
    intro H. apply (G2 (set_done k (dset (c_done k) rid (Ok (VBool true))))) in H; [|reflexivity].
    destruct H as [?|[?|?]]; auto.
  Qed.
  Lemma complete_pend k rid b o i : In i (dkeys (c_futs k)) ->
    In i (dkeys (c_futs (complete (set_futs k (ddel (c_futs k) rid)) rid b o))) \/
    In i (dkeys (c_done (complete (set_futs k (ddel (c_futs k) rid)) rid b o))).
  Proof.
    intro J. set (k1 := set_futs k (ddel (c_futs k) rid)).
    assert (A : In i (dkeys (c_futs k1)) \/ i = rid).
    { destruct (Z.eq_dec i rid); [auto|]. left. apply dkey_dget in J. destruct J as [w J].
      eapply dget_Some_key. cbn. rewrite dget_ddel_other by congruence. exact J. }
    assert (B : In i (dkeys (c_futs k1)) \/ In i (dkeys (dset (c_done k1) rid o))).
    { destruct A as [A| ->]; [auto|]. right. apply dkeys_dset. auto. }
    assert (C : In i (dkeys (c_done (server_disconnected (set_done k1 (dset (c_done k1) rid o)))))).
    { destruct B as [B|B].
      - eapply dget_Some_key. rewrite disconnected_done. apply smem_In in B. cbn [set_done c_futs]. rewrite B. reflexivity.
      - apply dkey_dget in B. destruct B as [w B]. 
        destruct (dget (c_done (server_disconnected (set_done k1 (dset (c_done k1) rid o)))) i) eqn:D; [eapply dget_Some_key; eauto|].
        rewrite disconnected_done in D. destruct (smem _ _); [discriminate|]. cbn [set_done c_done] in D. congruence. }
    unfold complete. destruct b; [|exact B]. destruct o as [[]|]; try exact B. destruct b; [right; exact C|exact B].
  Qed.

  Lemma inv_crecv y c : Inv [] None y -> Inv [] None (ystep V cap y (CRecv c)).
  Proof.
    intro I. cbn [ystep]. destruct (dget (y_cl y) c) as [k|] eqn:K; [|exact I].
    destruct (queue (y_down y) c) as [|p rest] eqn:Q; [exact I|].
    destruct (client_recv V k p) as [k' e] eqn:R.
    pose proof (i_cl _ _ _ _ _ I c k K) as (U1 & U2 & U3 & F).
    destruct (ok_recv V k p k' e F R) as [F' Kp].
    assert (W : In (EvTell c p) (y_log y) \/ exists m r, In (EvReply c m r p) (y_log y)).
    { apply (i_down _ _ _ _ _ I). rewrite Q. cbn. auto. }
    (* facts about one reply with this payload *)
    assert (One : forall m r, In (EvReply c m r p) (y_log y) ->
      (exists x, e = Some x /\ k' = k) \/ (e = None /\ dget (c_futs k) (m_req m) = None /\ k' = k) \/
      (exists o, e = None /\ dget (c_futs k) (m_req m) = Some (String.eqb (m_action m) "close") /\
         k' = complete (set_futs k (ddel (c_futs k) (m_req m))) (m_req m) (String.eqb (m_action m) "close") o /\
         answers V (c_ser k) m r o)).
    { intros m r J. destruct (i_reply _ _ _ _ _ I _ _ _ _ J) as (Rp & Z0 & X).
      pose proof (exec_sent V sers _ _ _ _ _ I X) as Sm.
      destruct (i_sent _ _ _ _ _ I _ _ Sm) as (k1 & K1 & Es & _). rewrite K in K1. injection K1 as <-. rewrite Es in Rp.
      destruct (recv_reply V k m r p Rp) as [(x & R1)|[(G & R1)|(b & o & G & R1 & A)]]; rewrite R in R1.
      - injection R1 as -> ->. eauto.
      - injection R1 as -> ->. auto.
      - right; right. destruct (i_futs _ _ _ _ _ I _ _ _ _ K G) as (m' & Sm' & E' & ->).
        assert (m' = m) by (symmetry; eapply (sent_unique V sers); eauto). subst m'.
        exists o. injection R1 as -> ->. auto. }
    assert (Tell : In (EvTell c p) (y_log y) -> k' = server_disconnected k /\ e = None).
    { intro J. destruct (i_tell _ _ _ _ _ I _ _ J) as (_ & _ & k1 & K1 & L). rewrite K in K1. injection K1 as <-.
      rewrite (recv_notice V k p (L _ _)) in R. injection R as <- <-. auto. }
    assert (Gser : c_ser k' = c_ser k).
    { destruct W as [W|(m & r & W)]; [apply Tell in W; destruct W as [-> _]; reflexivity|].
      destruct (One _ _ W) as [(x & _ & ->)|[(_ & _ & ->)|(o & _ & _ & -> & _)]]; auto. rewrite complete_ser; reflexivity. }
    assert (Gnext : c_next k' = c_next k).
    { destruct W as [W|(m & r & W)]; [apply Tell in W; destruct W as [-> _]; reflexivity|].
      destruct (One _ _ W) as [(x & _ & ->)|[(_ & _ & ->)|(o & _ & _ & -> & _)]]; auto. rewrite complete_next; reflexivity. }
    assert (Gfuts : forall i w, dget (c_futs k') i = Some w -> dget (c_futs k) i = Some w).
    { destruct W as [W|(m & r & W)]; [apply Tell in W; destruct W as [-> _]; cbn; discriminate|].
      destruct (One _ _ W) as [(x & _ & ->)|[(_ & _ & ->)|(o & _ & _ & -> & _)]]; auto.
      intros i w H. apply complete_futs in H. cbn in H. rewrite dget_ddel in H by apply F.
      destruct (eqb i (m_req m)); [discriminate|exact H]. }
    assert (Gpend : forall i, In i (dkeys (c_futs k)) -> In i (dkeys (c_futs k')) \/ In i (dkeys (c_done k'))).
    { destruct W as [W|(m & r & W)].
      - apply Tell in W; destruct W as [-> _]. intros i J. right. eapply dget_Some_key. rewrite disconnected_done.
        apply smem_In in J. rewrite J. reflexivity.
      - destruct (One _ _ W) as [(x & _ & ->)|[(_ & _ & ->)|(o & _ & _ & -> & _)]]; auto.
        intros i J. apply complete_pend. exact J. }
    assert (Gkeys : forall i, In i (dkeys (c_done k)) -> In i (dkeys (c_done k'))).
    { intros i J. apply dkey_dget in J. destruct J as [o J]. eapply dget_Some_key. apply Kp. exact J. }
    assert (Gmono : c_disc k = true -> c_disc k' = true).
    { destruct W as [W|(m & r & W)]; [apply Tell in W; destruct W as [-> _]; reflexivity|].
      destruct (One _ _ W) as [(x & _ & ->)|[(_ & _ & ->)|(o & _ & _ & -> & _)]]; auto.
      intro D. apply complete_disc_mono. exact D. }
    assert (Gdisc : c_disc k' = true -> sv_closed (y_sv y) = true).
    { intro D. destruct W as [W|(m & r & W)]; [apply (i_tell _ _ _ _ _ I _ _ W)|].
      destruct (One _ _ W) as [(x & _ & ->)|[(_ & _ & ->)|(o & _ & _ & -> & A)]]; try (eapply (i_disc _ _ _ _ _ I); eauto; fail).
      apply complete_disc in D. destruct D as [D|[D1 D2]]; [eapply (i_disc _ _ _ _ _ I); eauto|].
      subst o. destruct r as [v|x]; [|cbn in A; discriminate].
      destruct (i_redone _ _ _ _ _ I _ _ _ _ W) as [D|[[] _]].
      eapply (i_did _ _ _ _ _ I); eauto. apply String.eqb_eq. exact D1. }
    assert (Gdone : forall i o, dget (c_done k') i = Some o ->
      (c_disc k' = true /\ o = Err RuntimeError) \/
      exists m r q, In (EvReply c m r q) (y_log y) /\ m_req m = i /\ answers V (c_ser k') m r o /\
        (m_action m = "close" -> o = Ok (VBool true) -> c_disc k' = true)).
    { assert (Old : forall i o, dget (c_done k) i = Some o ->
        (c_disc k' = true /\ o = Err RuntimeError) \/
        exists m r q, In (EvReply c m r q) (y_log y) /\ m_req m = i /\ answers V (c_ser k') m r o /\
          (m_action m = "close" -> o = Ok (VBool true) -> c_disc k' = true)).
      { intros i o D. destruct (i_done _ _ _ _ _ I _ _ _ _ K D) as [[? ?]|(m & r & q & A1 & A2 & A3 & A4)]; [auto|].
        right. exists m, r, q. rewrite Gser. auto 10. }
      intros i o D. destruct W as [W|(m & r & W)].
      - apply Tell in W; destruct W as [E1 _]. subst k'. rewrite disconnected_done in D.
        destruct (smem i _); [injection D as <-; auto|]. apply Old. exact D.
      - destruct (One _ _ W) as [(x & _ & E1)|[(_ & _ & E1)|(o1 & _ & _ & E1 & A)]]; try (apply Old; rewrite <- E1; exact D).
        rewrite E1 in D. apply complete_done in D. destruct D as [[-> ->]|[D|[-> D]]].
        + right. exists m, r, p. rewrite Gser. repeat (apply conj; auto). intros Ca ->. rewrite E1, Ca. reflexivity.
        + apply Old. exact D.
        + left. rewrite E1. auto. }
    assert (Grep : forall m r, In (EvReply c m r p) (y_log y) ->
      (exists x, e = Some x) \/
      (e = None /\ ~ In (m_req m) (dkeys (c_futs k')) /\
       (m_action m = "close" -> r = Ok (VBool true) -> m_rt m <> "proxy" ->
        In (EvDrop c (m_req m)) (y_log y) \/ c_disc k' = true))).
    { intros m r J. destruct (i_reply _ _ _ _ _ I _ _ _ _ J) as (_ & Z0 & X).
      pose proof (exec_sent V sers _ _ _ _ _ I X) as Sm.
      assert (Simple : m_rt m <> "proxy" -> simple V (c_ser k) (m_rt m) (VBool true)).
      { intro Rt. split; [exact Rt|]. split; [|split; reflexivity].
        unfold carried. pose proof (gv_limit V GV). destruct (String.eqb _ _); split; try (cbn; lia); constructor. }
      assert (Seen : seen V (c_ser k) (VBool true) = VBool true) by (unfold seen; destruct (String.eqb _ _); reflexivity).
      destruct (One _ _ J) as [(x & -> & _)|[(-> & N & E1)|(o & -> & G & E1 & A)]]; [eauto| |].
      - right. split; [reflexivity|]. split; [rewrite E1; intro L; apply dkey_dget in L; destruct L as [w L]; congruence|].
        intros Ca Er Rt. destruct (i_pend _ _ _ _ _ I _ _ _ Sm Z0 K) as [L|[L|L]]; [|clear L|auto].
        + apply dkey_dget in L; destruct L as [w L]; congruence.
        + destruct (i_pend _ _ _ _ _ I _ _ _ Sm Z0 K) as [L|[L|L]]; [apply dkey_dget in L; destruct L as [w L]; congruence| |auto].
          apply dkey_dget in L. destruct L as [o L].
          destruct (i_done _ _ _ _ _ I _ _ _ _ K L) as [[D _]|(m1 & r1 & q & A1 & A2 & A3 & A4)]; [auto|].
          destruct (i_reply _ _ _ _ _ I _ _ _ _ A1) as (_ & _ & X1).
          pose proof (exec_sent V sers _ _ _ _ _ I X1) as Sm1.
          assert (m1 = m) by (symmetry; eapply (sent_unique V sers); eauto). subst m1.
          assert (r1 = r /\ q = p) as [-> ->].
          { pose proof (i_once _ _ _ _ _ I) as ND. clear - ND A1 J.
            assert (G : forall log, NoDup (all_rep log) -> In (EvReply c m r1 q) log -> In (EvReply c m r p) log -> r1 = r /\ q = p).
            { induction log as [|x log IH]; intros N H1 H2; [destruct H1|].
              assert (NI : forall r p, x = EvReply c m r p -> In (c, m_req m) (all_rep log) -> False).
              { intros r0 p0 -> Hin. cbn in N. inversion N; auto. }
              destruct H1 as [H1|H1], H2 as [H2|H2].
              - rewrite H1 in H2. injection H2. auto.
              - exfalso. apply (NI r1 q H1). apply in_all_rep. eauto.
              - exfalso. apply (NI r p H2). apply in_all_rep. eauto.
              - apply IH; auto. destruct x; cbn in N; try exact N. inversion N; auto. }
            exact (G _ ND A1 J). }
          right. apply Gmono. apply A4; [exact Ca|]. subst r. cbn in A3. destruct A3 as [A3 _].
          rewrite (A3 (Simple Rt)), Seen. reflexivity.
      - right. split; [reflexivity|]. split.
        + rewrite E1. intro L. apply dkey_dget in L. destruct L as [w L]. apply complete_futs in L. cbn in L.
          rewrite dget_ddel_same in L by apply F. discriminate.
        + intros Ca -> Rt. right. cbn in A. destruct A as [A _]. rewrite (A (Simple Rt)), Seen in E1.
          rewrite E1, Ca. reflexivity. }
    clear One Tell W.
    destruct I as [H1 H2 H3 H4 H5 H6 H7 H8 H9 H10 H11 H12 H13 H14 H15 H16 H17 H18 H18b H19 H20 H21 H22 H23 H24].
    assert (G : forall c0 k0, dget (dset (y_cl y) c k') c0 = Some k0 ->
      (c0 = c /\ k0 = k') \/ (c0 <> c /\ dget (y_cl y) c0 = Some k0)).
    { intros c0 k0. rewrite dget_dset. destruct (eqb_reflect c0 c) as [->|N]; [intros [= <-]; auto|auto]. }
    assert (G' : forall c0 k1, dget (y_cl y) c0 = Some k1 -> exists k0, dget (dset (y_cl y) c k') c0 = Some k0 /\
      c_ser k0 = c_ser k1 /\ c_next k1 <= c_next k0).
    { intros c0 k1 D. rewrite dget_dset. destruct (eqb_reflect c0 c) as [->|N].
      - exists k'. rewrite K in D. injection D as <-. repeat split; auto; lia.
      - exists k1. repeat split; auto; lia. }
    constructor; red_y; auto.
    - intros c0 k0 D. destruct (G _ _ D) as [[-> ->]|[_ D1]]; [rewrite Gser; auto|auto].
    - intro c0. rewrite sent_app, exec_app by discriminate. auto.
    - intros c0 m J; inlog. destruct (H4 _ _ J) as (k1 & D1 & B1 & B2 & B3). destruct (G' _ _ D1) as (k0 & D0 & A1 & A2).
      exists k0. rewrite A1. repeat (apply conj; [assumption|]). lia.
    - intro c0. rewrite sent_app by discriminate. auto.
    - rewrite all_exec_app, all_done_app, !app_nil_r. exact H6.
    - intros; inlog; eauto.
    - intros c0 t J. destruct (H8 _ _ J) as (m0 & I' & E). eauto.
    - intros c0 m0 r q J; inlog. destruct (H10 _ _ _ _ J) as (A & B & D); auto.
    - intros c0 m0 r q J; inlog. destruct (H11 _ _ _ _ J) as [?|[[] _]]; auto.
    - intros c0 q J; inlog. destruct (H12 _ _ J) as (B1 & B2 & k1 & D1 & B3). destruct (G' _ _ D1) as (k0 & D0 & A1 & A2).
      repeat (apply conj; [assumption|]). exists k0. rewrite A1. auto.
    - intros c0 q J. assert (J' : In q (queue (y_down y) c0)).
      { destruct (String.eqb_spec c c0) as [<-|N]; [rewrite queue_dset_same in J; rewrite Q; cbn; auto|].
        rewrite queue_dset_other in J by exact N. exact J. }
      destruct (H13 _ _ J') as [?|(m0 & r0 & ?)]; eauto.
    - intros c0 m0 r0 x0 J; inlog. specialize (H14 _ _ _ _ J). destruct x0; [exact H14|]. intro Z0. destruct (H14 Z0); eauto.
    - intros; inlog; eauto.
    - intros; inlog; eauto.
    - intros c0 k0 i o D E. destruct (G _ _ D) as [[-> ->]|[_ D1]].
      + destruct (Gdone _ _ E) as [?|(m0 & r0 & q & ? & ? & ? & ?)]; eauto 12.
      + destruct (H19 _ _ _ _ D1 E) as [?|(m0 & r0 & q & ? & ? & ? & ?)]; eauto 12.
    - intros c0 k0 i b D E. destruct (G _ _ D) as [[-> ->]|[_ D1]].
      + destruct (H20 _ _ _ _ K (Gfuts _ _ E)) as (m0 & ? & ? & ?); eauto.
      + destruct (H20 _ _ _ _ D1 E) as (m0 & ? & ? & ?); eauto.
    - intros c0 k0 m J Z0 D; inlog. destruct (G _ _ D) as [[-> ->]|[_ D1]].
      + destruct (H21 _ _ _ J Z0 K) as [L|[?|?]]; auto. destruct (Gpend _ L); auto.
      + destruct (H21 _ _ _ J Z0 D1) as [L|[?|?]]; auto.
    - intros c0 k0 m r q J D; inlog. destruct (G _ _ D) as [[-> ->]|[N D1]].
      + rewrite queue_dset_same. destruct (H22 _ _ _ _ _ J K) as [L|[?|[(e0 & ?)|(? & N & W)]]]; eauto 10.
        * rewrite Q in L. destruct L as [<-|L]; [|auto]. right; right.
          destruct (Grep _ _ J) as [[x ->]|(-> & N & W)]; [eauto|]. right. repeat (apply conj; auto).
          intros A B C. destruct (W A B C); auto.
        * right; right; right. repeat (apply conj; auto).
          -- intro L. apply N. apply dkey_dget in L. destruct L as [w L]. eapply dget_Some_key. eauto.
          -- intros A B C. destruct (W A B C); auto.
      + rewrite queue_dset_other by congruence.
        destruct (H22 _ _ _ _ _ J D1) as [L|[?|[(e0 & ?)|(? & N' & W)]]]; eauto 10.
        right; right; right. repeat (apply conj; auto). intros A B C. destruct (W A B C); auto.
    - intros c0 k0 D E. destruct (G _ _ D) as [[-> ->]|[_ D1]]; eauto.
    - rewrite all_rep_app, app_nil_r. exact H24.
  Qed.

  Lemma inv_join y c ser local st : Inv [] None y -> smem ser sers = true ->
    Inv [] None (ystep V cap y (Join c ser local st)).
  Proof.
    intros I S. cbn [ystep]. destruct (dmem (y_cl y) c) eqn:M; [exact I|]. destruct (ve_utf8 V c) eqn:U; [|exact I].
    destruct (String.eqb ser "msgpack" || String.eqb ser "json") eqn:T; [|exact I]. cbn [orb negb].
    assert (Us : ve_utf8 V ser = true).
    { apply orb_true_iff in T. destruct T as [T|T]; apply String.eqb_eq in T; subst; [apply gv_msgpack|apply gv_json]; exact GV. }
    assert (N : dget (y_cl y) c = None).
    { unfold dmem in M. destruct (dget (y_cl y) c); [discriminate|reflexivity]. }
    assert (NS : sent_by c (y_log y) = []).
    { destruct (sent_by c (y_log y)) as [|m l] eqn:E; [reflexivity|]. exfalso.
      destruct (i_sent _ _ _ _ _ I c m) as (k & K & _); [apply in_sent; rewrite E; cbn; auto|congruence]. }
    assert (NX : forall m, ~ In (EvSent c m) (y_log y)).
    { intros m J. apply in_sent in J. rewrite NS in J. destruct J. }
    assert (NR : forall m r p, ~ In (EvReply c m r p) (y_log y)).
    { intros m r p J. destruct (i_reply _ _ _ _ _ I _ _ _ _ J) as (_ & _ & X). exact (NX m (exec_sent V sers _ _ _ _ _ I X)). }
    destruct I as [H1 H2 H3 H4 H5 H6 H7 H8 H9 H10 H11 H12 H13 H14 H15 H16 H17 H18 H18b H19 H20 H21 H22 H23 H24].
    assert (G : forall c0 k0, dget (dset (y_cl y) c (new_client ser local st)) c0 = Some k0 ->
      (c0 = c /\ k0 = new_client ser local st) \/ (c0 <> c /\ dget (y_cl y) c0 = Some k0)).
    { intros c0 k0. rewrite dget_dset. destruct (eqb_reflect c0 c) as [->|Ne]; [intros [= <-]; auto|auto]. }
    assert (G' : forall c0 k1, dget (y_cl y) c0 = Some k1 -> dget (dset (y_cl y) c (new_client ser local st)) c0 = Some k1).
    { intros c0 k1 D. rewrite dget_dset_other; [exact D|congruence]. }
    constructor; red_y; auto.
    - intros c0 k0 D. destruct (G _ _ D) as [[-> ->]|[_ D1]]; [|auto]. cbn. repeat (apply conj; auto). apply new_ok.
    - intro c0. destruct (String.eqb_spec c c0) as [<-|Ne]; [|rewrite queue_dset_other by exact Ne; auto].
      rewrite queue_dset_same. exists []. split; [reflexivity|]. destruct (H3 c) as (ms & _ & E). rewrite NS in E |- *.
      symmetry in E. apply app_eq_nil in E. destruct E as [-> _]. reflexivity.
    - intros c0 m J. destruct (H4 _ _ J) as (k & K & B). exists k. split; [apply G'; exact K|exact B].
    - intros c0 p J. destruct (H12 _ _ J) as (A & B & k & K & D). repeat (apply conj; auto). exists k. auto.
    - intros c0 p J. destruct (String.eqb_spec c c0) as [<-|Ne]; [rewrite queue_dset_same in J; destruct J|].
      rewrite queue_dset_other in J by exact Ne. auto.
    - intros c0 k0 i o D E. destruct (G _ _ D) as [[-> ->]|[_ D1]]; [discriminate|eauto].
    - intros c0 k0 i b D E. destruct (G _ _ D) as [[-> ->]|[_ D1]]; [discriminate|eauto].
    - intros c0 k0 m J Z0 D. destruct (G _ _ D) as [[-> ->]|[_ D1]]; [destruct (NX _ J)|eauto].
    - intros c0 k0 m r p J D. destruct (G _ _ D) as [[-> ->]|[Ne D1]]; [destruct (NR _ _ _ J)|].
      rewrite queue_dset_other by congruence. eauto.
    - intros c0 k0 D E. destruct (G _ _ D) as [[-> ->]|[_ D1]]; [discriminate|eauto].
  Qed.

  Lemma inv_step y l : Inv [] None y -> match l with Join _ ser _ _ => smem ser sers = true | _ => True end ->
    Inv [] None (ystep V cap y l).
  Proof.
    intros I J. destruct l; [apply inv_join; auto|apply inv_csend; auto|apply inv_crecv; auto|apply inv_drop; auto
      |apply inv_clocal; auto|apply inv_srecv; auto| |apply inv_sreturn; auto].
    cbn [ystep]. apply inv_sv; [exact I|]. destruct u; repeat split.
  Qed.

  Lemma inv_run ls : forall y, Inv [] None y -> joins_supported sers ls -> Inv [] None (yrun V cap y ls).
  Proof.
    induction ls as [|l ls IH]; intros y I J; [exact I|]. inversion J; subst. cbn [yrun]. apply IH; [|assumption].
    apply inv_step; assumption.
  Qed.

  Lemma inv_init s : fresh_server s -> sv_sers s = sers -> Inv [] None (yinit s).
  Proof.
    intros (C & Cl & O & R) S. constructor; cbn; auto; try (intros; tauto); try (intros; discriminate).
    - intro c. exists []. auto.
    - intro c. constructor.
    - rewrite C. cbn. tauto.
    - rewrite C. constructor.
    - constructor.
  Qed.
End Inv4.
