(** Every step of the system preserves the invariant. *)
From Verif Require Import Py ObjTableModel SerModel SerSpec SerProofs SerProofs2 SerProofsJ
  FrameModel FrameProofs ServerModel ClientModel WireSpec WireProofs ServerProofs ServerProofs2 ClientProofs RpcModel RpcSpec RpcInv.
From Coq Require Import Permutation.

Lemma in_dset (d : dict string string) k v x w : In (x, w) (dset d k v) -> (x = k /\ w = v) \/ In (x, w) d.
Proof.
  induction d as [|[a b] r IH]; cbn.
  - intros [[= <- <-]|[]]. auto.
  - destruct (String.eqb_spec k a) as [->|N]; cbn.
    + intros [[= <- <-]|I]; auto.
    + intros [[= <- <-]|I]; [auto|]. destruct (IH I); auto.
Qed.

Lemma cons_frames m rest ms : client_frames m :: rest = map client_frames ms ->
  exists ms', ms = m :: ms' /\ rest = map client_frames ms'.
Proof.
  destruct ms as [|m' ms']; [discriminate|]. intro H.
  pose proof (f_equal (hd []) H) as H1. pose proof (f_equal (@tl frame) H) as H2. cbn [hd tl map] in H1, H2.
  apply frames_inj in H1. subst. eauto.
Qed.

Section Inv2.
  Variable V : venv.
  Hypothesis GV : good_venv V.
  Variable cap : nat.
  Variable sers : list string.
  Notation Inv := (Inv V sers).

  Ltac inlog := repeat match goal with
    | H : In _ (_ ++ [_]) |- _ => apply in_app_or in H; destruct H as [H|[H|[]]]; [|try discriminate H]
    end.
  Hint Resolve inl inr : core.
  Ltac red_y := cbn [logged set_sv set_stack set_cl set_up set_down y_sv y_stack y_dead y_cl y_up y_down y_log].

  (** ** The server's side *)

  Definition same4 (s s' : sv) : Prop :=
    sv_sers s' = sv_sers s /\ sv_clients s' = sv_clients s /\ sv_open s' = sv_open s /\ sv_closed s' = sv_closed s.

  Lemma inv_sv ex fin y s' : Inv ex fin y -> same4 (y_sv y) s' -> Inv ex fin (set_sv y s').
  Proof.
    intros [H1 H2 H3 H4 H5 H6 H7 H8 H9 H10 H11 H12 H13 H14 H15 H16 H17 H18 H18b H19 H20 H21 H22 H23 H24] (A & B & C & D).
    constructor; red_y; rewrite ?A, ?B, ?C, ?D; auto.
  Qed.

  (** P1: a request starts *)
  Lemma inv_begin y c m rest s' : Inv [] None y -> queue (y_up y) c = client_frames m :: rest ->
    sv_open (y_sv y) = true -> sv_sers s' = sers -> sv_clients s' = sv_clients (with_client (y_sv y) c m) ->
    (sv_open s' = true -> sv_closed s' = false) -> (m_action m = "close" -> sv_open s' = false) ->
    Inv [(c, m)] None (set_sv (logged (set_up y (dset (y_up y) c rest)) (EvExec c m)) s').
  Proof.
    intros I Q O S C O1 O2.
    assert (Sent : In (EvSent c m) (y_log y)).
    { destruct (i_up _ _ _ _ _ I c) as (ms & E & L). rewrite Q in E. apply cons_frames in E. destruct E as (ms' & -> & _). apply in_sent. rewrite L. apply in_or_app. cbn. auto. }
    assert (XS : forall m0, In (EvExec c m0) (y_log y) -> In (EvSent c m0) (y_log y)).
    { intro m0. apply (exec_sent V sers _ _ _ c m0 I). }
    destruct I as [H1 H2 H3 H4 H5 H6 H7 H8 H9 H10 H11 H12 H13 H14 H15 H16 H17 H18 H18b H19 H20 H21 H22 H23 H24].
    constructor; red_y; auto.
    - intro c0. destruct (String.eqb_spec c c0) as [<-|N].
      + rewrite queue_dset_same, sent_app, exec_app_same by discriminate.
        destruct (H3 c) as (ms & E & L). rewrite Q in E. apply cons_frames in E. destruct E as (ms' & -> & E'). exists ms'. split; [exact E'|].
        rewrite L, <- app_assoc. reflexivity.
      + rewrite queue_dset_other, sent_app, exec_app by congruence. auto.
    - intros; inlog; auto.
    - intro c0. rewrite sent_app by discriminate. auto.
    - rewrite all_exec_app, all_done_app, !app_nil_r. cbn [app].
      rewrite H6. cbn [app]. rewrite <- app_assoc. rewrite <- Permutation_middle. rewrite app_nil_r. reflexivity.
    - intros c0 m0 J. rewrite C. unfold with_client. cbn [set_clients sv_clients]. rewrite dget_dset.
      destruct (eqb_reflect c0 c) as [->|N]; [|inlog; [auto|injection J as <- <-; contradiction]].
      f_equal. assert (Sent0 : In (EvSent c m0) (y_log y)).
      { inlog; [eapply XS; eauto|]. injection J as <-. exact Sent. }
      destruct (H4 _ _ Sent) as (k & K & E & _). destruct (H4 _ _ Sent0) as (k0 & K0 & E0 & _). congruence.
    - intros c0 t J. rewrite C in J. apply in_dset in J. destruct J as [[-> ->]|J]; [eauto|].
      destruct (H8 _ _ J) as (m0 & ? & ?). eauto.
    - rewrite C. apply NoDup_dset. exact H9.
    - intros c0 m0 r p J; inlog. destruct (H10 _ _ _ _ J) as (A1 & A2 & A3); auto.
    - intros c0 m0 r p J; inlog. destruct (H11 _ _ _ _ J) as [?|[_ ?]]; [auto|discriminate].
    - intros c0 p J; inlog. destruct (H12 _ _ J) as (A & _). congruence.
    - intros c0 q J. destruct (H13 _ _ J) as [?|(m0 & r & ?)]; eauto.
    - intros c0 m0 r x J; inlog. specialize (H14 _ _ _ _ J). destruct x; [congruence|]. intro Z0. destruct (H14 Z0); eauto.
    - intro O'. destruct (H15 O). split; auto.
    - intros c0 m0 J A. inlog; [rewrite (H16 _ _ J A) in O; discriminate|]. injection J as <- <-. auto.
    - intros c0 m0 v x J A. inlog. rewrite (H18 _ _ _ _ J A) in H15. destruct (H15 O); discriminate.
    - intros c0 m0 r _ E. discriminate.
    - intros c0 k0 rid o J1 J2. destruct (H19 _ _ _ _ J1 J2) as [?|(m0 & r & q & ? & ? & ? & ?)]; eauto 12.
    - intros c0 k0 rid b J1 J2. destruct (H20 _ _ _ _ J1 J2) as (m0 & ? & ? & ?); eauto.
    - intros c0 k0 m0 J1 J2 J3; inlog. destruct (H21 _ _ _ J1 J2 J3) as [?|[?|?]]; eauto.
    - intros c0 k0 m0 r0 q J1 J2; inlog. destruct (H22 _ _ _ _ _ J1 J2) as [?|[?|[(e & ?)|(? & ? & G)]]]; eauto 10.
      right; right; right. repeat split; auto. intros A B D. destruct (G A B D); auto.
    - intros c0 k J1 J2. rewrite (H23 _ _ J1 J2) in H15. destruct (H15 O); discriminate.
    - rewrite all_rep_app, app_nil_r. exact H24.
  Qed.

  (** P1': the innermost user call returns *)
  Lemma inv_pop y a rest : Inv [] None y -> y_stack y = a :: rest ->
    Inv [(a_caller a, a_msg a)] None (set_stack y rest).
  Proof.
    intros [H1 H2 H3 H4 H5 H6 H7 H8 H9 H10 H11 H12 H13 H14 H15 H16 H17 H18 H18b H19 H20 H21 H22 H23 H24] E.
    constructor; red_y; auto.
    - rewrite H6, E. reflexivity.
    - intros c m r p J. destruct (H11 _ _ _ _ J) as [?|[[] _]]; auto.
    - intros b J. apply H17. rewrite E. cbn. auto.
    - intros; discriminate.
  Qed.

  (** P2: user code starts *)
  Lemma inv_push y c m : Inv [(c, m)] None y -> m_action m <> "close" ->
    Inv [] None (set_stack y (mkAct c m :: y_stack y)).
  Proof.
    intros [H1 H2 H3 H4 H5 H6 H7 H8 H9 H10 H11 H12 H13 H14 H15 H16 H17 H18 H18b H19 H20 H21 H22 H23 H24] N.
    constructor; red_y; auto.
    - intros c0 m0 r p J. destruct (H11 _ _ _ _ J) as [?|[_ ?]]; [auto|discriminate].
    - intros b [<-|J]; auto.
  Qed.

  (** the request being finished has not been answered before *)
  Lemma unanswered y c m : Inv [(c, m)] None y -> 0 <= m_req m -> In (EvExec c m) (y_log y) ->
    ~ In (c, m_req m) (all_rep (y_log y)).
  Proof.
    intros I Z0 X J. apply in_all_rep in J. destruct J as (m' & r & p & J & E).
    destruct (i_reply _ _ _ _ _ I _ _ _ _ J) as (_ & _ & X').
    pose proof (exec_sent V sers _ _ _ _ _ I X) as S. pose proof (exec_sent V sers _ _ _ _ _ I X') as S'.
    assert (m' = m) by (symmetry; eapply (sent_unique V sers); eauto). subst m'.
    destruct (i_redone _ _ _ _ _ I _ _ _ _ J) as [D|[_ D]]; [|discriminate].
    pose proof (i_perm _ _ _ _ _ I) as P.
    set (f := fun x : string * msg => String.eqb (fst x) c && (0 <=? m_req (snd x))).
    set (g := fun x : string * msg => m_req (snd x)).
    assert (ND : NoDup (map g (filter f (all_exec (y_log y))))).
    { destruct (i_up _ _ _ _ _ I c) as (ms & _ & L). pose proof (i_ids _ _ _ _ _ I c) as N. rewrite L in N.
      rewrite map_app, filter_app in N. 
      assert (NN : NoDup (filter (Z.leb 0) (map m_req (executed_for c (y_log y))))).
      { clear - N. induction (filter (Z.leb 0) (map m_req (executed_for c (y_log y)))) as [|x l IH]; [constructor|].
        cbn in N. inversion N; subst. constructor; [|auto]. intro. apply H1. apply in_or_app. auto. }
      replace (map g (filter f (all_exec (y_log y)))) with (filter (Z.leb 0) (map m_req (executed_for c (y_log y)))); [exact NN|].
      clear. induction (y_log y) as [|e l IH]; [reflexivity|]. 
      unfold executed_for, all_exec in *. cbn [flat_map]. rewrite map_app, !filter_app, map_app, IH. f_equal.
      destruct e; try reflexivity. cbn [filter]. unfold f, g. cbn [fst snd].
      destruct (String.eqb c0 c); cbn [map filter andb]; [|reflexivity]. destruct (0 <=? m_req m); reflexivity. }
    assert (P' : Permutation (map g (filter f (all_exec (y_log y))))
                             (map g (filter f (all_done (y_log y) ++ [(c, m)] ++ on_stack (y_stack y))))).
    { apply Permutation_map. clear - P. induction P as [|x l l' P IH|x z l|l l' l'' P1 IH1 P2 IH2]; cbn [filter].
      - constructor.
      - destruct (f x); [constructor|]; exact IH.
      - destruct (f x), (f z); try reflexivity. apply perm_swap.
      - etransitivity; eauto. }
    pose proof (Permutation_NoDup P' ND) as N2. rewrite !filter_app, !map_app in N2.
    assert (F : f (c, m) = true).
    { unfold f. cbn. rewrite String.eqb_refl. apply Z.leb_le in Z0. rewrite Z0. reflexivity. }
    cbn [filter] in N2. rewrite F in N2. cbn [map app] in N2. change (g (c, m)) with (m_req m) in N2.
    apply NoDup_remove_2 in N2. apply N2. apply in_or_app. left. apply in_map_iff. exists (c, m). split; [reflexivity|].
    apply filter_In. split; [|exact F]. apply in_all_done. eauto.
  Qed.

  (** P5: the request is finished *)
  Lemma inv_done y c m r x : Inv [(c, m)] (Some r) y ->
    match x with
    | None => 0 <= m_req m -> exists p, In (EvReply c m r p) (y_log y)
    | Some _ => sv_open (y_sv y) = false /\ forall r p, ~ In (EvReply c m r p) (y_log y)
    end -> Inv [] None (logged y (EvDone c m r x)).
  Proof.
    intros [H1 H2 H3 H4 H5 H6 H7 H8 H9 H10 H11 H12 H13 H14 H15 H16 H17 H18 H18b H19 H20 H21 H22 H23 H24] X.
    constructor; red_y; auto.
    - intro c0. rewrite sent_app, exec_app by discriminate. auto.
    - intros; inlog; auto.
    - intro c0. rewrite sent_app by discriminate. auto.
    - rewrite all_exec_app, all_done_app, !app_nil_r. rewrite H6. rewrite <- app_assoc. reflexivity.
    - intros; inlog; eauto.
    - intros c0 t J. destruct (H8 _ _ J) as (m0 & I' & E). eauto.
    - intros c0 m0 r0 p J; inlog. destruct (H10 _ _ _ _ J) as (A & B & D); auto.
    - intros c0 m0 r0 p J; inlog. left. destruct (H11 _ _ _ _ J) as [?|[[E|[]] E']]; [auto|].
      injection E as <- <-. injection E' as <-. destruct x; [destruct X as [_ X]; destruct (X _ _ J)|auto].
    - intros; inlog; eauto.
    - intros c0 q J. destruct (H13 _ _ J) as [?|(m0 & r0 & ?)]; eauto.
    - intros c0 m0 r0 x0 J; inlog.
      + specialize (H14 _ _ _ _ J). destruct x0; [exact H14|]. intro Z0. destruct (H14 Z0); eauto.
      + injection J as <- <- <- <-. destruct x; [tauto|]. intro Z0. destruct (X Z0); eauto.
    - intros; inlog; eauto.
    - intros c0 m0 v x0 J A. inlog; [eauto|]. injection J as -> -> -> ->. eapply (H18b c0 m0); cbn; eauto.
    - intros c0 k0 rid o J1 J2. destruct (H19 _ _ _ _ J1 J2) as [?|(m0 & r0 & q & ? & ? & ? & ?)]; eauto 12.
    - intros c0 k0 rid b J1 J2. destruct (H20 _ _ _ _ J1 J2) as (m0 & ? & ? & ?); eauto.
    - intros c0 k0 m0 J1 J2 J3; inlog. destruct (H21 _ _ _ J1 J2 J3) as [?|[?|?]]; eauto.
    - intros c0 k0 m0 r0 q J1 J2; inlog. destruct (H22 _ _ _ _ _ J1 J2) as [?|[?|[(e & ?)|(? & ? & G)]]]; eauto 10.
      right; right; right. repeat split; auto. intros A B D. destruct (G A B D); auto.
    - rewrite all_rep_app, app_nil_r. exact H24.
  Qed.

  (** P6 *)
  Lemma inv_escaped y x : Inv [] None y -> (x <> None -> sv_open (y_sv y) = false) -> Inv [] None (escaped y x).
  Proof.
    intros I X. unfold escaped. destruct x; [|destruct (y_stack y); exact I].
    destruct (y_stack y) eqn:S; [|exact I]. specialize (X ltac:(discriminate)).
    destruct I as [H1 H2 H3 H4 H5 H6 H7 H8 H9 H10 H11 H12 H13 H14 H15 H16 H17 H18 H18b H19 H20 H21 H22 H23 H24].
    constructor; red_y; auto.
    - rewrite H6, S. reflexivity.
    - congruence.
  Qed.

  (** ** emit *)
  Lemma emit_app y c m r a b : emit cap y c m r (a ++ b) = emit cap (emit cap y c m r a) c m r b.
  Proof. revert y. induction a as [|[to p|e] a IH]; intro y; [reflexivity| |]; cbn [app emit]; apply IH. Qed.
  Lemma emit_hooks y c m r os : hooks os -> emit cap y c m r os = y.
  Proof. intro H. induction H as [|[to p|e] l Hx F IH]; [reflexivity|destruct Hx|]. cbn [emit]. exact IH. Qed.
  Lemma deliver_frame y c p : y_sv (deliver cap y c p) = y_sv y /\ y_stack (deliver cap y c p) = y_stack y /\
    y_dead (deliver cap y c p) = y_dead y /\ y_cl (deliver cap y c p) = y_cl y /\ y_up (deliver cap y c p) = y_up y.
  Proof. unfold deliver. destruct (_ && _); repeat split. Qed.
  Lemma emit_frame os : forall y c m r, let y' := emit cap y c m r os in
    y_sv y' = y_sv y /\ y_stack y' = y_stack y /\ y_dead y' = y_dead y /\ y_cl y' = y_cl y /\ y_up y' = y_up y.
  Proof.
    induction os as [|[to p|e] os IH]; intros y c m r; [repeat split| |exact (IH y c m r)].
    cbn [emit]. set (y1 := logged y _). destruct (IH (deliver cap y1 to p) c m r) as (A & B & C & D & F).
    destruct (deliver_frame y1 to p) as (A' & B' & C' & D' & F').
    repeat split; [rewrite A, A'|rewrite B, B'|rewrite C, C'|rewrite D, D'|rewrite F, F']; reflexivity.
  Qed.

  Lemma inv_notices ex fin y c m r l os : Inv ex fin y -> sv_open (y_sv y) = false -> sv_closed (y_sv y) = true ->
    (forall c' t, In (c', t) l -> exists k, dget (y_cl y) c' = Some k /\ c_ser k = t) ->
    notices V c l os -> Inv ex fin (emit cap y c m r os).
  Proof.
    intros I O C K N. unfold notices in N.
    assert (K' : forall ct, In ct (filter (fun ct => negb (String.eqb (fst ct) c)) l) ->
      fst ct <> c /\ exists k, dget (y_cl y) (fst ct) = Some k /\ c_ser k = snd ct).
    { intros [c' t] J. apply filter_In in J. destruct J as [J J']. cbn [fst snd] in *.
      destruct (String.eqb_spec c' c); [discriminate|]. auto. }
    clear K. revert y I O C K'. induction N as [|[c' t] o l' os' Hx N IH]; intros y I O C K; [exact I|].
    destruct Hx as (p & -> & L). cbn [fst snd] in L. destruct (K (c', t)) as (Ne & k & Dk & Sk); [cbn; auto|].
    cbn [fst snd] in *. cbn [emit]. destruct (String.eqb_spec c' c); [contradiction|].
    destruct (deliver_frame (logged y (EvTell c' p)) c' p) as (A' & _ & _ & D' & _).
    apply IH.
    - eapply inv_tell; eauto. intros. rewrite Sk. apply L.
    - rewrite A'. exact O.
    - rewrite A'. exact C.
    - intros ct J. rewrite D'. apply K. cbn. auto.
  Qed.
End Inv2.
