(** Every step of the system preserves the invariant (continued). *)
From Verif Require Import Py ObjTableModel SerModel SerSpec SerProofs SerProofs2 SerProofsJ
  FrameModel FrameProofs ServerModel ClientModel WireSpec WireProofs ServerProofs ServerProofs2 ClientProofs RpcModel RpcSpec RpcInv RpcInv2.
From Coq Require Import Permutation.

Section Inv3.
  Variable V : venv.
  Hypothesis GV : good_venv V.
  Variable cap : nat.
  Variable sers : list string.
  Notation Inv := (Inv V sers).

  Ltac inlog := repeat match goal with
    | H : In _ (_ ++ [_]) |- _ => apply in_app_or in H; destruct H as [H|[H|[]]]; [|try discriminate H]
    end.
  Hint Resolve inl inr : core.
  Ltac red_y := cbn [logged set_sv set_stack set_cl set_up set_down y_sv y_stack y_dead y_cl y_up y_down y_log].

  (** with the socket closed, a request that expects a reply ends in an exception *)
  Lemma finish_closed_x s a r s' o x : sv_open s = false -> 0 <= m_req (a_msg a) ->
    finish_request V s a r = (s', o, x) -> x <> None.
  Proof.
    intros O Z0. rewrite finish_eq. apply Z.leb_le in Z0. rewrite Z0.
    assert (SE : forall s0 c req e s1 o1 x1, sv_open s0 = false -> send_error V s0 c req e = (s1, o1, x1) -> x1 <> None).
    { intros s0 c req e s1 o1 x1 O0. unfold send_error. destruct (ve_utf8 V c); [|intros [= _ _ <-]; discriminate].
      destruct (send_closed V s0 c req VNone (error_value V e) O0) as (sx & xx & -> & _). intros [= _ _ <-]. discriminate. }
    assert (G : forall s1 o1 x1, respond V s (a_caller a) (a_msg a) r = (s1, o1, x1) -> x1 <> None).
    { intros s1 o1 x1. destruct r as [v|e]; cbn [respond].
      - destruct (chosen V s (m_rt (a_msg a)) v) as [s0 [v'|e]] eqn:C; pose proof (chosen_shell V _ _ _ _ _ C) as (O0 & _);
          [|intros [= _ _ <-]; discriminate]. rewrite O in O0.
        destruct (send_closed V s0 (a_caller a) (m_req (a_msg a)) v' VNone O0) as (sx & xx & -> & Ox & _).
        destruct (send_error V sx (a_caller a) (m_req (a_msg a)) xx) as [[s2 o2] x2] eqn:S2.
        intros [= _ _ <-]. eapply SE; eauto.
      - eapply SE; eauto. }
    destruct (respond V s (a_caller a) (a_msg a) r) as [[s1 o1] x1]. specialize (G _ _ _ eq_refl).
    destruct x1; [intros [= _ _ <-]; discriminate|contradiction].
  Qed.

  Lemma inv_weak y c m r : Inv [(c, m)] None y ->
    (m_action m = "close" -> (exists v, r = Ok v) -> sv_closed (y_sv y) = true) -> Inv [(c, m)] (Some r) y.
  Proof.
    intros [H1 H2 H3 H4 H5 H6 H7 H8 H9 H10 H11 H12 H13 H14 H15 H16 H17 H18 H18b H19 H20 H21 H22 H23 H24] X.
    constructor; auto.
    - intros c0 m0 r0 p J. destruct (H11 _ _ _ _ J) as [?|[_ ?]]; [auto|discriminate].
    - intros c0 m0 r0 [E|[]] [= <-]. injection E as <- <-. auto.
  Qed.

  Lemma inv_finish y c m r o x : Inv [(c, m)] None y -> In (EvExec c m) (y_log y) ->
    (m_action m = "close" -> (exists v, r = Ok v) -> sv_closed (y_sv y) = true) ->
    match x with None => answer V c (m_ser m) m r o | Some _ => hooks o /\ sv_open (y_sv y) = false end ->
    Inv [] None (escaped (logged (emit cap y c m r o) (EvDone c m r x)) x).
  Proof.
    intros I X Cl A.
    destruct (emit_frame cap o y c m r) as (F1 & F2 & F3 & F4 & F5).
    assert (I2 : Inv [(c, m)] (Some r) (emit cap y c m r o) /\
      match x with
      | None => 0 <= m_req m -> exists p, In (EvReply c m r p) (y_log (emit cap y c m r o))
      | Some _ => sv_open (y_sv (emit cap y c m r o)) = false /\
                  forall r' p, ~ In (EvReply c m r' p) (y_log (emit cap y c m r o))
      end).
    { destruct x as [e|].
      - destruct A as [A O]. rewrite emit_hooks by exact A. split; [apply inv_weak; auto|]. split; [exact O|].
        intros r' p J. destruct (i_reply _ _ _ _ _ I _ _ _ _ J) as (_ & Z0 & _).
        apply (unanswered V sers y c m I Z0 X). apply in_all_rep. eauto.
      - unfold answer in A. destruct (Z.leb_spec 0 (m_req m)).
        + destruct A as (p & -> & R). cbn [emit]. rewrite String.eqb_refl. split.
          * destruct (i_sent _ _ _ _ _ I c m (exec_sent V sers _ _ _ _ _ I X)) as (k & K & _).
            eapply (inv_reply V cap sers y c m r p k); auto. apply (unanswered V sers y c m I H X).
          * intros _. exists p. unfold deliver. destruct (_ && _); cbn; auto.
        + rewrite emit_hooks by exact A. split; [apply inv_weak; auto|]. lia. }
    destruct I2 as [I2 Y2]. apply inv_escaped.
    - apply inv_done; [exact I2|exact Y2].
    - intro N. red_y. destruct x; [|contradiction]. tauto.
  Qed.

  Lemma known_client y c m : Inv [] None y -> forall rest, queue (y_up y) c = client_frames m :: rest ->
    exists k, dget (y_cl y) c = Some k /\ m_ser m = c_ser k /\ readable (ve_utf8 V) m /\
      ve_utf8 V c = true /\ smem (m_ser m) sers = true.
  Proof.
    intros I rest Q. destruct (i_up _ _ _ _ _ I c) as (ms & E & L). rewrite Q in E. apply cons_frames in E.
    destruct E as (ms' & -> & _).
    assert (S : In (EvSent c m) (y_log y)) by (apply in_sent; rewrite L; apply in_or_app; cbn; auto).
    destruct (i_sent _ _ _ _ _ I c m S) as (k & K & Es & R & _). exists k. destruct (i_cl _ _ _ _ _ I c k K) as (U & Sm & _).
    rewrite Es. auto.
  Qed.

  Lemma sers_known y : Inv [] None y -> forall c t, In (c, t) (sv_clients (y_sv y)) ->
    (exists k, dget (y_cl y) c = Some k /\ c_ser k = t) /\ smem t sers = true.
  Proof.
    intros I c t J. destruct (i_clients _ _ _ _ _ I c t J) as (m & X & E).
    destruct (i_sent _ _ _ _ _ I c m (exec_sent V sers _ _ _ _ _ I X)) as (k & K & Es & _).
    destruct (i_cl _ _ _ _ _ I c k K) as (_ & S & _). split; [exists k; split; congruence|congruence].
  Qed.

  Lemma inv_srecv y c : Inv [] None y -> Inv [] None (ystep V cap y (SRecv c)).
  Proof.
    intro I. cbn [ystep]. destruct (can_read y) eqn:CR; [|exact I]. destruct (queue (y_up y) c) as [|f rest] eqn:Q; [exact I|].
    assert (O : sv_open (y_sv y) = true).
    { unfold can_read in CR. destruct (y_dead y); [discriminate|]. destruct (sv_open (y_sv y)); [reflexivity|discriminate]. }
    assert (Hm : exists m, f = client_frames m).
    { destruct (i_up _ _ _ _ _ I c) as (ms & E & _). rewrite Q in E. destruct ms as [|m ms]; [discriminate|].
      exists m. exact (f_equal (hd []) E). }
    destruct Hm as (m & ->). destruct (known_client y c m I rest Q) as (k & K & Es & R & U & Sm).
    rewrite (read_frames _ c m R). red_y. pose proof (i_sers _ _ _ _ _ I) as Sers. pose proof Sm as Sm'. rewrite <- Sers in Sm'.
    destruct (String.eqb_spec (m_action m) "close") as [Cl|NC].
    - destruct (close_any V GV (y_sv y) c m U Sm' O Cl) as (s' & os & o & r & B & N & A & G & G' & O' & C' & S' & _).
      { intros c' t J. rewrite Sers. apply (sers_known y I c' t J). }
      rewrite B. rewrite emit_app.
      assert (I1 : Inv [(c, m)] None (set_sv (logged (set_up y (dset (y_up y) c rest)) (EvExec c m)) s')).
      { apply inv_begin; auto; congruence. }
      set (y1 := set_sv _ s') in *.
      assert (I2 : Inv [(c, m)] None (emit cap y1 c m r os)).
      { destruct N as [-> |[N Hc]]; [exact I1|].
        apply (inv_notices V cap sers _ _ _ _ _ _ (sv_clients (with_client (y_sv y) c m))); auto.
        intros c' t J. apply in_dset in J. destruct J as [[-> ->]|J]; [exists k; auto|].
        apply (sers_known y I c' t J). }
      destruct (emit_frame cap os y1 c m r) as (F1 & _).
      apply inv_finish; auto.
      + assert (forall os y, In (EvExec c m) (y_log y) -> In (EvExec c m) (y_log (emit cap y c m r os))) as M.
        { clear. induction os as [|[to p|e] os IH]; intros y H; [exact H| |apply IH; exact H]. cbn [emit]. apply IH.
          unfold deliver. destruct (_ && _); cbn; auto. }
        apply M. cbn. auto.
      + intros _ [v ->]. rewrite F1. cbn. eauto.
    - destruct (begin_answer V GV (y_sv y) c m U Sm' O NC) as [(s' & g & args & kw & B & Kp)|(s' & o & r & B & Kp & A)];
        rewrite B; destruct Kp as (K1 & K2 & K3 & K4 & K5 & K6);
        unfold with_client in K1, K2, K5; cbn in K1, K2, K5.
      + cbn [emit]. set (y1 := set_sv _ s'). change (y_stack y) with (y_stack y1). apply inv_push; [|exact NC].
        apply inv_begin; auto; [congruence| |congruence]. intros _. rewrite K2. apply (i_open _ _ _ _ _ I). exact O.
      + apply inv_finish; auto.
        * apply inv_begin; auto; [congruence| |congruence]. intros _. rewrite K2. apply (i_open _ _ _ _ _ I). exact O.
        * cbn. auto.
  Qed.

  Lemma inv_sreturn y r : Inv [] None y -> Inv [] None (ystep V cap y (SReturn r)).
  Proof.
    intro I. cbn [ystep]. destruct (y_stack y) as [|a rest] eqn:S; [exact I|].
    assert (NC : m_action (a_msg a) <> "close") by (apply (i_stack _ _ _ _ _ I); rewrite S; cbn; auto).
    assert (X : In (EvExec (a_caller a) (a_msg a)) (y_log y)).
    { apply in_all_exec. eapply Permutation_in; [symmetry; apply (i_perm _ _ _ _ _ I)|].
      apply in_or_app. right. rewrite S. cbn. auto. }
    pose proof (inv_pop V sers y a rest I S) as I1.
    destruct (finish_request V (y_sv y) a r) as [[s' os] x] eqn:F.
    assert (Sh : same4 (y_sv y) s').
    { destruct (finish_shell V _ _ _ _ _ _ F) as (A1 & A2 & A3 & A4 & A5 & A6 & [A7|[_ A7]]); [|contradiction].
      repeat split; auto. }
    assert (I2 : Inv [(a_caller a, a_msg a)] None (set_stack (set_sv y s') rest))
      by exact (inv_sv V sers _ _ _ s' I1 Sh).
    apply inv_finish; auto.
    red_y. destruct (sv_open (y_sv y)) eqn:O.
      + destruct (i_sent _ _ _ _ _ I _ _ (exec_sent V sers _ _ _ _ _ I X)) as (k & K & Es & _).
        destruct (i_cl _ _ _ _ _ I _ k K) as (U & Sm & _).
        destruct (finish_answer V GV (y_sv y) a r (m_ser (a_msg a))) as (s2 & o2 & F2 & _ & _ & A & _); [|exact NC|].
        { repeat split; auto; [apply (i_known _ _ _ _ _ I); exact X|]. rewrite (i_sers _ _ _ _ _ I), Es. exact Sm. }
        rewrite F in F2. injection F2 as -> -> ->. exact A.
      + pose proof (finish_closed V _ _ _ _ _ _ O F) as Hk. destruct Sh as (_ & _ & Sh & _).
        destruct x; [split; [exact Hk|congruence]|].
        unfold answer. destruct (Z.leb_spec 0 (m_req (a_msg a))); [|exact Hk].
        destruct (finish_closed_x _ _ _ _ _ _ O H F eq_refl).
  Qed.

  (** ** The clients' side *)

  (** a change of one client that concerns neither futures nor results *)
  Lemma inv_silent y c k k' : Inv [] None y -> dget (y_cl y) c = Some k ->
    c_ser k' = c_ser k -> c_futs k' = c_futs k -> c_done k' = c_done k -> c_disc k' = c_disc k ->
    c_next k <= c_next k' -> Inv [] None (set_cl y (dset (y_cl y) c k')).
  Proof.
    intros [H1 H2 H3 H4 H5 H6 H7 H8 H9 H10 H11 H12 H13 H14 H15 H16 H17 H18 H18b H19 H20 H21 H22 H23 H24] K Es Ef Ed Ec En.
    assert (G : forall c0 k0, dget (dset (y_cl y) c k') c0 = Some k0 -> exists k1, dget (y_cl y) c0 = Some k1 /\
      c_ser k0 = c_ser k1 /\ c_futs k0 = c_futs k1 /\ c_done k0 = c_done k1 /\ c_disc k0 = c_disc k1 /\ c_next k1 <= c_next k0).
    { intros c0 k0. rewrite dget_dset. destruct (eqb_reflect c0 c) as [->|N].
      - intros [= <-]. exists k. auto 10.
      - intro D. exists k0. repeat split; auto; lia. }
    assert (G' : forall c0 k1, dget (y_cl y) c0 = Some k1 -> exists k0, dget (dset (y_cl y) c k') c0 = Some k0 /\
      c_ser k0 = c_ser k1 /\ c_next k1 <= c_next k0).
    { intros c0 k1 D. rewrite dget_dset. destruct (eqb_reflect c0 c) as [->|N].
      - exists k'. rewrite K in D. injection D as <-. auto.
      - exists k1. repeat split; auto; lia. }
    constructor; red_y; auto.
    - intros c0 k0 D. destruct (G _ _ D) as (k1 & D1 & A1 & A2 & A3 & A4 & A5). destruct (H2 _ _ D1) as (B1 & B2 & B3 & B4).
      rewrite A1. repeat (apply conj; [assumption|]). destruct B4. constructor; rewrite ?A2, ?A3; auto; try lia.
      + intros rid J. specialize (fo_futs rid J). lia.
      + intros rid J. specialize (fo_done rid J). lia.
    - intros c0 m J. destruct (H4 _ _ J) as (k1 & D1 & B1 & B2 & B3). destruct (G' _ _ D1) as (k0 & D0 & A1 & A2).
      exists k0. rewrite A1. repeat (apply conj; [assumption|]). lia.
    - intros c0 p J. destruct (H12 _ _ J) as (B1 & B2 & k1 & D1 & B3). destruct (G' _ _ D1) as (k0 & D0 & A1 & A2).
      repeat (apply conj; [assumption|]). exists k0. rewrite A1. auto.
    - intros c0 k0 rid o D. destruct (G _ _ D) as (k1 & D1 & A1 & A2 & A3 & A4 & A5). rewrite A1, A3, A4. apply H19. exact D1.
    - intros c0 k0 rid b D. destruct (G _ _ D) as (k1 & D1 & A1 & A2 & A3 & A4 & A5). rewrite A2. apply H20. exact D1.
    - intros c0 k0 m J Z0 D. destruct (G _ _ D) as (k1 & D1 & A1 & A2 & A3 & A4 & A5). rewrite A2, A3. apply H21; auto.
    - intros c0 k0 m r p J D. destruct (G _ _ D) as (k1 & D1 & A1 & A2 & A3 & A4 & A5). rewrite A2, A4. eapply H22; eauto.
    - intros c0 k0 D. destruct (G _ _ D) as (k1 & D1 & A1 & A2 & A3 & A4 & A5). rewrite A4. eapply H23; eauto.
  Qed.

  Lemma inv_clocal y c st : Inv [] None y -> Inv [] None (ystep V cap y (CLocal c st)).
  Proof.
    intro I. cbn [ystep]. destruct (dget (y_cl y) c) as [k|] eqn:K; [|exact I].
    eapply inv_silent; eauto. cbn. lia.
  Qed.

  Lemma inv_drop y c rid : Inv [] None y -> Inv [] None (ystep V cap y (CDrop c rid)).
  Proof.
    intro I. cbn [ystep]. destruct (dget (y_cl y) c) as [k|] eqn:K; [|exact I].
    destruct I as [H1 H2 H3 H4 H5 H6 H7 H8 H9 H10 H11 H12 H13 H14 H15 H16 H17 H18 H18b H19 H20 H21 H22 H23 H24].
    assert (ND : NoDup (dkeys (c_futs k))) by (destruct (H2 _ _ K) as (_ & _ & _ & F); apply F).
    assert (G : forall c0 k0, dget (dset (y_cl y) c (drop_future k rid)) c0 = Some k0 -> exists k1, dget (y_cl y) c0 = Some k1 /\
      c_ser k0 = c_ser k1 /\ c_done k0 = c_done k1 /\ c_disc k0 = c_disc k1 /\ (futures_ok k1 -> futures_ok k0) /\
      (forall i b, dget (c_futs k0) i = Some b -> dget (c_futs k1) i = Some b) /\
      (forall i, In i (dkeys (c_futs k1)) -> In i (dkeys (c_futs k0)) \/ (c0 = c /\ i = rid))).
    { intros c0 k0. rewrite dget_dset. destruct (eqb_reflect c0 c) as [->|N].
      - intros [= <-]. exists k. repeat (apply conj; [try reflexivity|]); auto.
        + intro F. apply ok_drop. exact F.
        + intros i b. cbn. rewrite dget_ddel by exact ND. destruct (eqb i rid); [discriminate|auto].
        + intros i J. destruct (Z.eq_dec i rid); [auto|]. left. cbn. apply dkey_dget in J. destruct J as [b J].
          eapply dget_Some_key. rewrite dget_ddel_other by congruence. exact J.
      - intro D. exists k0. repeat (apply conj; [auto|]). auto. }
    assert (G' : forall c0 k1, dget (y_cl y) c0 = Some k1 -> exists k0, dget (dset (y_cl y) c (drop_future k rid)) c0 = Some k0 /\
      c_ser k0 = c_ser k1 /\ c_next k1 <= c_next k0).
    { intros c0 k1 D. rewrite dget_dset. destruct (eqb_reflect c0 c) as [->|N].
      - exists (drop_future k rid). rewrite K in D. injection D as <-. cbn. repeat split; lia.
      - exists k1. repeat split; auto; lia. }
    constructor; red_y; auto.
    - intros c0 k0 D. destruct (G _ _ D) as (k1 & D1 & A1 & A2 & A3 & A4 & _). destruct (H2 _ _ D1) as (B1 & B2 & B3 & B4).
      rewrite A1. auto.
    - intro c0. rewrite sent_app, exec_app by discriminate. auto.
    - intros c0 m J; inlog. destruct (H4 _ _ J) as (k1 & D1 & B1 & B2 & B3). destruct (G' _ _ D1) as (k0 & D0 & A1 & A2).
      exists k0. rewrite A1. repeat (apply conj; [assumption|]). lia.
    - intro c0. rewrite sent_app by discriminate. auto.
    - rewrite all_exec_app, all_done_app, !app_nil_r. exact H6.
    - intros; inlog; eauto.
    - intros c0 t J. destruct (H8 _ _ J) as (m0 & I' & E). eauto.
    - intros c0 m0 r p J; inlog. destruct (H10 _ _ _ _ J) as (A & B & D); auto.
    - intros c0 m0 r p J; inlog. destruct (H11 _ _ _ _ J) as [?|[[] _]]; auto.
    - intros c0 p J; inlog. destruct (H12 _ _ J) as (B1 & B2 & k1 & D1 & B3). destruct (G' _ _ D1) as (k0 & D0 & A1 & A2).
      repeat (apply conj; [assumption|]). exists k0. rewrite A1. auto.
    - intros c0 q J. destruct (H13 _ _ J) as [?|(m0 & r0 & ?)]; eauto.
    - intros c0 m0 r0 x0 J; inlog. specialize (H14 _ _ _ _ J). destruct x0; [exact H14|]. intro Z0. destruct (H14 Z0); eauto.
    - intros; inlog; eauto.
    - intros; inlog; eauto.
    - intros c0 k0 i o D E. destruct (G _ _ D) as (k1 & D1 & A1 & A2 & A3 & _). rewrite A2 in E. rewrite A1, A3.
      destruct (H19 _ _ _ _ D1 E) as [?|(m0 & r0 & q & ? & ? & ? & ?)]; eauto 12.
    - intros c0 k0 i b D E. destruct (G _ _ D) as (k1 & D1 & _ & _ & _ & _ & A5 & _).
      destruct (H20 _ _ _ _ D1 (A5 _ _ E)) as (m0 & ? & ? & ?); eauto.
    - intros c0 k0 m J Z0 D; inlog. destruct (G _ _ D) as (k1 & D1 & A1 & A2 & A3 & A4 & A5 & A6). rewrite A2.
      destruct (H21 _ _ _ J Z0 D1) as [L|[?|?]]; auto. destruct (A6 _ L) as [?|[-> ->]]; auto.
    - intros c0 k0 m r p J D; inlog. destruct (G _ _ D) as (k1 & D1 & A1 & A2 & A3 & A4 & A5 & A6).
      destruct (H22 _ _ _ _ _ J D1) as [?|[?|[(e & ?)|(? & N & W)]]]; eauto 10.
      right; right; right. repeat (apply conj); auto.
      + intro L. apply N. apply dkey_dget in L. destruct L as [b L]. eapply dget_Some_key. eauto.
      + intros B1 B2 B3. rewrite A3. destruct (W B1 B2 B3); auto.
    - intros c0 k0 D E. destruct (G _ _ D) as (k1 & D1 & A1 & A2 & A3 & _). rewrite A3 in E. eauto.
    - rewrite all_rep_app, app_nil_r. exact H24.
  Qed.

  Lemma inv_csend y c action opts rt sync : Inv [] None y -> Inv [] None (ystep V cap y (CSend c action opts rt sync)).
  Proof.
    intro I. cbn [ystep]. destruct (dget (y_cl y) c) as [k|] eqn:K; [|exact I].
    destruct (ve_utf8 V action && ve_utf8 V rt) eqn:U; [|exact I]. apply andb_true_iff in U. destruct U as [Ua Ur].
    destruct (send V k action opts rt sync) as [[k' om] res] eqn:S.
    pose proof (i_cl _ _ _ _ _ I c k K) as (U1 & U2 & U3 & F).
    destruct (ok_send V k action opts rt sync k' om res F S) as [F' _].
    destruct (send_cases V k action opts rt sync k' om res S) as ((A1 & _ & A3 & A4 & _) & Hm).
    destruct om as [m|].
    2:{ destruct Hm as (B1 & B2 & _). eapply inv_silent; eauto. }
    destruct Hm as (B1 & B2 & B3 & B4 & B5).
    assert (C : (m_req m = -1 /\ c_next k' = c_next k /\ c_futs k' = c_futs k) \/
                (m_req m = c_next k /\ c_next k' = c_next k + 1 /\
                 c_futs k' = dset (c_futs k) (c_next k) (String.eqb action "close"))).
    { destruct sync; intuition. }
    clear B5. red_y. set (up' := dset (y_up y) c _).
    destruct I as [H1 H2 H3 H4 H5 H6 H7 H8 H9 H10 H11 H12 H13 H14 H15 H16 H17 H18 H18b H19 H20 H21 H22 H23 H24].
    assert (Nx : c_next k <= c_next k') by lia.
    assert (Old : forall m0, In m0 (sent_by c (y_log y)) -> m_req m0 < c_next k).
    { intros m0 J. apply in_sent in J. destruct (H4 _ _ J) as (k1 & D1 & _ & _ & B). rewrite K in D1. injection D1 as <-.
      pose proof (fo_next k F). lia. }
    assert (G : forall c0 k0, dget (dset (y_cl y) c k') c0 = Some k0 -> exists k1, dget (y_cl y) c0 = Some k1 /\
      c_ser k0 = c_ser k1 /\ c_done k0 = c_done k1 /\ c_disc k0 = c_disc k1 /\ (c0 = c /\ k0 = k' /\ k1 = k \/ c0 <> c /\ k0 = k1)).
    { intros c0 k0. rewrite dget_dset. destruct (eqb_reflect c0 c) as [->|N].
      - intros [= <-]. exists k. auto 10.
      - intro D. exists k0. auto 10. }
    assert (G' : forall c0 k1, dget (y_cl y) c0 = Some k1 -> exists k0, dget (dset (y_cl y) c k') c0 = Some k0 /\
      c_ser k0 = c_ser k1 /\ c_next k1 <= c_next k0).
    { intros c0 k1 D. rewrite dget_dset. destruct (eqb_reflect c0 c) as [->|N].
      - exists k'. rewrite K in D. injection D as <-. auto.
      - exists k1. repeat split; auto; lia. }
    assert (Rd : readable (ve_utf8 V) m).
    { repeat split; congruence. }
    constructor; red_y; auto.
    - intros c0 k0 D. destruct (G _ _ D) as (k1 & D1 & E1 & _ & _ & [(-> & -> & ->)|(_ & ->)]); [|apply H2; exact D1].
      rewrite A1. auto.
    - intro c0. destruct (String.eqb_spec c c0) as [<-|N].
      + subst up'. rewrite queue_dset_same, sent_app_same, exec_app by discriminate.
        destruct (H3 c) as (ms & E & L). exists (ms ++ [m]). rewrite map_app, E, L, app_assoc. auto.
      + subst up'. rewrite queue_dset_other, sent_app, exec_app by congruence. auto.
    - intros c0 m0 J; inlog.
      + destruct (H4 _ _ J) as (k1 & D1 & E1 & E2 & E3). destruct (G' _ _ D1) as (k0 & D0 & X1 & X2).
        exists k0. rewrite X1. repeat (apply conj; [assumption|]). lia.
      + injection J as <- <-. exists k'. rewrite dget_dset_same, A1. repeat (apply conj; auto).
        pose proof (fo_next k F). lia.
    - intro c0. destruct (String.eqb_spec c c0) as [<-|N]; [|rewrite sent_app by congruence; auto].
      rewrite sent_app_same, map_app, filter_app. cbn [map filter].
      destruct C as [(C1 & _)|(C1 & _)]; rewrite C1.
      + cbn. rewrite app_nil_r. auto.
      + pose proof (fo_next k F) as Fn. apply Z.leb_le in Fn. rewrite Fn. apply NoDup_app_one; auto.
        intro J. apply filter_In in J. destruct J as [J _]. apply in_map_iff in J. destruct J as (m0 & E & J).
        apply Old in J. lia.
    - rewrite all_exec_app, all_done_app, !app_nil_r. exact H6.
    - intros; inlog; eauto.
    - intros c0 t J. destruct (H8 _ _ J) as (m0 & I' & E). eauto.
    - intros c0 m0 r p J; inlog. destruct (H10 _ _ _ _ J) as (A & B & D); auto.
    - intros c0 m0 r p J; inlog. destruct (H11 _ _ _ _ J) as [?|[[] _]]; auto.
    - intros c0 p J; inlog. destruct (H12 _ _ J) as (E1 & E2 & k1 & D1 & E3). destruct (G' _ _ D1) as (k0 & D0 & X1 & X2).
      repeat (apply conj; [assumption|]). exists k0. rewrite X1. auto.
    - intros c0 q J. destruct (H13 _ _ J) as [?|(m0 & r0 & ?)]; eauto.
    - intros c0 m0 r0 x0 J; inlog. specialize (H14 _ _ _ _ J). destruct x0; [exact H14|]. intro Z0. destruct (H14 Z0); eauto.
    - intros; inlog; eauto.
    - intros; inlog; eauto.
    - intros c0 k0 i o D E. destruct (G _ _ D) as (k1 & D1 & X1 & X2 & X3 & _). rewrite X2 in E. rewrite X1, X3.
      destruct (H19 _ _ _ _ D1 E) as [?|(m0 & r0 & q & ? & ? & ? & ?)]; eauto 12.
    - intros c0 k0 i b D E. destruct (G _ _ D) as (k1 & D1 & X1 & X2 & X3 & [(-> & -> & ->)|(_ & ->)]).
      + destruct C as [(C1 & C2 & C3)|(C1 & C2 & C3)]; rewrite C3 in E.
        * destruct (H20 _ _ _ _ D1 E) as (m0 & ? & ? & ?); eauto.
        * rewrite dget_dset in E. destruct (eqb_reflect i (c_next k)) as [->|N].
          -- injection E as <-. exists m. rewrite B2. auto.
          -- destruct (H20 _ _ _ _ D1 E) as (m0 & ? & ? & ?); eauto.
      + destruct (H20 _ _ _ _ D1 E) as (m0 & ? & ? & ?); eauto.
    - intros c0 k0 m0 J Z0 D. destruct (G _ _ D) as (k1 & D1 & X1 & X2 & X3 & X4). inlog.
      + destruct (H21 _ _ _ J Z0 D1) as [L|[L|L]]; [|rewrite X2; auto|auto]. left.
        destruct X4 as [(-> & -> & ->)|(_ & ->)]; [|exact L].
        destruct C as [(C1 & C2 & C3)|(C1 & C2 & C3)]; rewrite C3; [exact L|apply dkeys_dset; auto].
      + injection J as <- <-. left. destruct X4 as [(_ & -> & ->)|(N & _)]; [|contradiction].
        destruct C as [(C1 & C2 & C3)|(C1 & C2 & C3)]; [lia|]. rewrite C3, C1. apply dkeys_dset. auto.
    - intros c0 k0 m0 r p J D; inlog. destruct (G _ _ D) as (k1 & D1 & X1 & X2 & X3 & X4).
      destruct (H22 _ _ _ _ _ J D1) as [?|[?|[(e & ?)|(? & N & W)]]]; eauto 10.
      right; right; right. repeat (apply conj); auto.
      + destruct X4 as [(-> & -> & ->)|(_ & ->)]; [|exact N].
        destruct C as [(C1 & C2 & C3)|(C1 & C2 & C3)]; rewrite C3; [exact N|].
        intro L. apply dkeys_dset in L. destruct L as [L|L]; [|contradiction].
        destruct (H10 _ _ _ _ J) as (_ & _ & X). 
        assert (Sx : In m0 (sent_by c (y_log y))).
        { destruct (H3 c) as (ms & _ & E). rewrite E. apply in_or_app. left. apply in_exec. exact X. }
        apply Old in Sx. lia.
      + intros E1 E2 E3. rewrite X3. destruct (W E1 E2 E3); auto.
    - intros c0 k0 D E. destruct (G _ _ D) as (k1 & D1 & X1 & X2 & X3 & _). rewrite X3 in E. eauto.
    - rewrite all_rep_app, app_nil_r. exact H24.
  Qed.
End Inv3.
