(** The invariant of whole runs. *)
From Verif Require Import Py ObjTableModel SerModel SerSpec SerProofs SerProofs2 SerProofsJ
  FrameModel FrameProofs ServerModel ClientModel WireSpec WireProofs ServerProofs ServerProofs2 ClientProofs RpcModel RpcSpec.
From Coq Require Import Permutation.

Definition all_exec (log : list event) : list (string * msg) :=
  flat_map (fun e => match e with EvExec c m => [(c, m)] | _ => [] end) log.
Definition all_done (log : list event) : list (string * msg) :=
  flat_map (fun e => match e with EvDone c m _ _ => [(c, m)] | _ => [] end) log.
Definition all_rep (log : list event) : list (string * Z) :=
  flat_map (fun e => match e with EvReply c m _ _ => [(c, m_req m)] | _ => [] end) log.
Definition on_stack (k : list activation) : list (string * msg) := map (fun a => (a_caller a, a_msg a)) k.

Lemma in_all_exec log c m : In (c, m) (all_exec log) <-> In (EvExec c m) log.
Proof.
  unfold all_exec. rewrite in_flat_map. split.
  - intros (e & I & H). destruct e; cbn in H; try tauto. destruct H as [[= -> ->]|[]]. exact I.
  - intro I. exists (EvExec c m). cbn. auto.
Qed.
Lemma in_all_done log c m : In (c, m) (all_done log) <-> exists r x, In (EvDone c m r x) log.
Proof.
  unfold all_done. rewrite in_flat_map. split.
  - intros (e & I & H). destruct e; cbn in H; try tauto. destruct H as [[= -> ->]|[]]. eauto.
  - intros (r & x & I). exists (EvDone c m r x). cbn. auto.
Qed.
Lemma in_sent c log m : In m (sent_by c log) <-> In (EvSent c m) log.
Proof.
  unfold sent_by. rewrite in_flat_map. split.
  - intros (e & I & H). destruct e; cbn in H; try tauto. destruct (String.eqb_spec c0 c); cbn in H; [|tauto].
    destruct H as [->|[]]. subst. exact I.
  - intro I. exists (EvSent c m). cbn. rewrite String.eqb_refl. cbn. auto.
Qed.
Lemma in_exec c log m : In m (executed_for c log) <-> In (EvExec c m) log.
Proof.
  unfold executed_for. rewrite in_flat_map. split.
  - intros (e & I & H). destruct e; cbn in H; try tauto. destruct (String.eqb_spec c0 c); cbn in H; [|tauto].
    destruct H as [->|[]]. subst. exact I.
  - intro I. exists (EvExec c m). cbn. rewrite String.eqb_refl. cbn. auto.
Qed.

Lemma queue_dset_same {A} (d : dict string (list A)) c q : queue (dset d c q) c = q.
Proof. unfold queue. rewrite dget_dset_same. reflexivity. Qed.
Lemma queue_dset_other {A} (d : dict string (list A)) c c' q : c <> c' -> queue (dset d c q) c' = queue d c'.
Proof. intro N. unfold queue. rewrite dget_dset_other by exact N. reflexivity. Qed.

Lemma NoDup_app_one {A} (l : list A) x : NoDup l -> ~ In x l -> NoDup (l ++ [x]).
Proof.
  intros N H. apply (Permutation_NoDup (l := x :: l)); [|constructor; assumption].
  change (x :: l) with ([x] ++ l). apply Permutation_app_comm.
Qed.

Section Inv.
  Variable V : venv.
  Hypothesis GV : good_venv V.
  Variable cap : nat.
  Variable sers : list string.

  Record Inv (ex : list (string * msg)) (fin : option (res pyval)) (y : sys) : Prop := mkInv {
    i_sers : sv_sers (y_sv y) = sers;
    i_cl : forall c k, dget (y_cl y) c = Some k ->
      ve_utf8 V c = true /\ smem (c_ser k) sers = true /\ ve_utf8 V (c_ser k) = true /\ futures_ok k;
    i_up : forall c, exists ms, queue (y_up y) c = map client_frames ms /\
      sent_by c (y_log y) = executed_for c (y_log y) ++ ms;
    i_sent : forall c m, In (EvSent c m) (y_log y) -> exists k, dget (y_cl y) c = Some k /\
      m_ser m = c_ser k /\ readable (ve_utf8 V) m /\ (m_req m = -1 \/ 0 <= m_req m < c_next k);
    i_ids : forall c, NoDup (filter (Z.leb 0) (map m_req (sent_by c (y_log y))));
    i_perm : Permutation (all_exec (y_log y)) (all_done (y_log y) ++ ex ++ on_stack (y_stack y));
    i_known : forall c m, In (EvExec c m) (y_log y) -> dget (sv_clients (y_sv y)) c = Some (m_ser m);
    i_clients : forall c t, In (c, t) (sv_clients (y_sv y)) -> exists m, In (EvExec c m) (y_log y) /\ m_ser m = t;
    i_keys : NoDup (dkeys (sv_clients (y_sv y)));
    i_reply : forall c m r p, In (EvReply c m r p) (y_log y) -> replies V (m_ser m) m r p /\ 0 <= m_req m /\
      In (EvExec c m) (y_log y);
    i_redone : forall c m r p, In (EvReply c m r p) (y_log y) ->
      In (EvDone c m r None) (y_log y) \/ (In (c, m) ex /\ fin = Some r);
    i_tell : forall c p, In (EvTell c p) (y_log y) -> sv_open (y_sv y) = false /\ sv_closed (y_sv y) = true /\
      exists k, dget (y_cl y) c = Some k /\ forall srv st, loads V (c_ser k) srv st p = Ok notice;
    i_down : forall c p, In p (queue (y_down y) c) ->
      In (EvTell c p) (y_log y) \/ exists m r, In (EvReply c m r p) (y_log y);
    i_answered : forall c m r x, In (EvDone c m r x) (y_log y) ->
      match x with
      | None => 0 <= m_req m -> exists p, In (EvReply c m r p) (y_log y)
      | Some _ => sv_open (y_sv y) = false
      end;
    i_open : sv_open (y_sv y) = true -> sv_closed (y_sv y) = false /\ y_dead y = false;
    i_close : forall c m, In (EvExec c m) (y_log y) -> m_action m = "close" -> sv_open (y_sv y) = false;
    i_stack : forall a, In a (y_stack y) -> m_action (a_msg a) <> "close";
    i_did : forall c m v x, In (EvDone c m (Ok v) x) (y_log y) -> m_action m = "close" -> sv_closed (y_sv y) = true;
    i_refin : forall c m r, In (c, m) ex -> fin = Some r -> m_action m = "close" ->
      (exists v, r = Ok v) -> sv_closed (y_sv y) = true;
    i_done : forall c k rid o, dget (y_cl y) c = Some k -> dget (c_done k) rid = Some o ->
      (c_disc k = true /\ o = Err RuntimeError) \/
      exists m r p, In (EvReply c m r p) (y_log y) /\ m_req m = rid /\ answers V (c_ser k) m r o /\
        (m_action m = "close" -> o = Ok (VBool true) -> c_disc k = true);
    i_futs : forall c k rid b, dget (y_cl y) c = Some k -> dget (c_futs k) rid = Some b ->
      exists m, In (EvSent c m) (y_log y) /\ m_req m = rid /\ b = String.eqb (m_action m) "close";
    i_pend : forall c k m, In (EvSent c m) (y_log y) -> 0 <= m_req m -> dget (y_cl y) c = Some k ->
      In (m_req m) (dkeys (c_futs k)) \/ In (m_req m) (dkeys (c_done k)) \/ In (EvDrop c (m_req m)) (y_log y);
    i_rep : forall c k m r p, In (EvReply c m r p) (y_log y) -> dget (y_cl y) c = Some k ->
      In p (queue (y_down y) c) \/ In (EvLost c p) (y_log y) \/ (exists e, In (EvRead c p (Some e)) (y_log y)) \/
      (In (EvRead c p None) (y_log y) /\ ~ In (m_req m) (dkeys (c_futs k)) /\
       (m_action m = "close" -> r = Ok (VBool true) -> m_rt m <> "proxy" ->
        In (EvDrop c (m_req m)) (y_log y) \/ c_disc k = true));
    i_disc : forall c k, dget (y_cl y) c = Some k -> c_disc k = true -> sv_closed (y_sv y) = true;
    i_once : NoDup (all_rep (y_log y))
  }.

  (** ** Consequences *)
  Lemma exec_sent ex fin y c m : Inv ex fin y -> In (EvExec c m) (y_log y) -> In (EvSent c m) (y_log y).
  Proof.
    intros I H. destruct (i_up _ _ _ I c) as (ms & _ & E). apply in_sent. rewrite E. apply in_or_app. left.
    apply in_exec. exact H.
  Qed.

  Lemma filter_ids l : forall m m', NoDup (filter (Z.leb 0) (map m_req l)) -> In m l -> In m' l ->
    0 <= m_req m -> m_req m = m_req m' -> m = m'.
  Proof.
    induction l as [|x l IH]; intros m m' ND I I' H0 Heq; [destruct I|]. cbn [map filter] in ND.
    assert (G : forall n, In n l -> 0 <= m_req n -> In (m_req n) (filter (Z.leb 0) (map m_req l))).
    { intros n In_ Hn. apply filter_In. split; [apply in_map; exact In_|apply Z.leb_le; exact Hn]. }
    destruct I as [->|I], I' as [->|I']; auto.
    - exfalso. destruct (Z.leb_spec 0 (m_req m)); [|lia]. inversion ND as [|? ? NI ?]; subst. apply NI. rewrite Heq. apply G; [exact I'|lia].
    - exfalso. destruct (Z.leb_spec 0 (m_req m')); [|lia]. inversion ND as [|? ? NI ?]; subst. apply NI. rewrite <- Heq. apply G; [exact I|lia].
    - apply IH; auto. destruct (0 <=? m_req x); [inversion ND; assumption|exact ND].
  Qed.
  Lemma sent_unique ex fin y c m m' : Inv ex fin y -> In (EvSent c m) (y_log y) -> In (EvSent c m') (y_log y) ->
    0 <= m_req m -> m_req m = m_req m' -> m = m'.
  Proof.
    intros I H H' H0 Heq. apply (filter_ids (sent_by c (y_log y))); auto; [apply (i_ids _ _ _ I)| |]; apply in_sent; auto.
  Qed.

  (** ** Small steps that preserve it *)

  Ltac inlog := repeat match goal with
    | H : In _ (_ ++ [_]) |- _ => apply in_app_or in H; destruct H as [H|[H|[]]]; [|try discriminate H]
    end.
  Lemma inl {A} (x : A) l r : In x l -> In x (l ++ r).
  Proof. intro. apply in_or_app; auto. Qed.
  Lemma inr {A} (x : A) l : In x (l ++ [x]).
  Proof. apply in_or_app; cbn; auto. Qed.
  Hint Resolve inl inr : core.

  Lemma sent_app c log e : (forall m, e <> EvSent c m) -> sent_by c (log ++ [e]) = sent_by c log.
  Proof.
    intro H. unfold sent_by. rewrite flat_map_app. cbn. destruct e; rewrite ?app_nil_r; auto.
    destruct (String.eqb_spec c0 c); [subst; exfalso; eapply H; reflexivity|]. rewrite app_nil_r. reflexivity.
  Qed.
  Lemma sent_app_same c log m : sent_by c (log ++ [EvSent c m]) = sent_by c log ++ [m].
  Proof. unfold sent_by. rewrite flat_map_app. cbn. rewrite String.eqb_refl. reflexivity. Qed.
  Lemma exec_app c log e : (forall m, e <> EvExec c m) -> executed_for c (log ++ [e]) = executed_for c log.
  Proof.
    intro H. unfold executed_for. rewrite flat_map_app. cbn. destruct e; rewrite ?app_nil_r; auto.
    destruct (String.eqb_spec c0 c); [subst; exfalso; eapply H; reflexivity|]. rewrite app_nil_r. reflexivity.
  Qed.
  Lemma exec_app_same c log m : executed_for c (log ++ [EvExec c m]) = executed_for c log ++ [m].
  Proof. unfold executed_for. rewrite flat_map_app. cbn. rewrite String.eqb_refl. reflexivity. Qed.
  Lemma all_exec_app log e : all_exec (log ++ [e]) = all_exec log ++ match e with EvExec c m => [(c, m)] | _ => [] end.
  Proof. unfold all_exec. rewrite flat_map_app. cbn. rewrite app_nil_r. reflexivity. Qed.
  Lemma all_done_app log e : all_done (log ++ [e]) = all_done log ++ match e with EvDone c m _ _ => [(c, m)] | _ => [] end.
  Proof. unfold all_done. rewrite flat_map_app. cbn. rewrite app_nil_r. reflexivity. Qed.

  Lemma all_rep_app log e : all_rep (log ++ [e]) = all_rep log ++ match e with EvReply c m _ _ => [(c, m_req m)] | _ => [] end.
  Proof. unfold all_rep. rewrite flat_map_app. cbn. rewrite app_nil_r. reflexivity. Qed.
  Lemma in_all_rep log c z : In (c, z) (all_rep log) <-> exists m r p, In (EvReply c m r p) log /\ m_req m = z.
  Proof.
    unfold all_rep. rewrite in_flat_map. split.
    - intros (e & I & H). destruct e; cbn in H; try tauto. destruct H as [[= -> <-]|[]]. eauto.
    - intros (m & r & p & I & <-). exists (EvReply c m r p). cbn. auto.
  Qed.

  (** a dropped message *)
  Lemma inv_lost ex fin y c p : Inv ex fin y -> Inv ex fin (logged y (EvLost c p)).
  Proof.
    intros [H1 H2 H3 H4 H5 H6 H7 H8 H9 H10 H11 H12 H13 H14 H15 H16 H17 H18 H18b H19 H20 H21 H22 H23 H24].
    constructor; cbn [logged y_sv y_stack y_dead y_cl y_up y_down y_log]; auto.
    - intro c0. rewrite sent_app, exec_app by discriminate. auto.
    - intros; inlog; auto.
    - intro c0. rewrite sent_app by discriminate. auto.
    - rewrite all_exec_app, all_done_app, !app_nil_r. exact H6.
    - intros; inlog; eauto.
    - intros c0 t I. destruct (H8 _ _ I) as (m & I' & E). eauto.
    - intros; inlog. destruct (H10 _ _ _ _ H) as (A & B & C); auto.
    - intros; inlog. destruct (H11 _ _ _ _ H); auto.
    - intros; inlog; eauto.
    - intros c0 q I. destruct (H13 _ _ I) as [?|(m & r & ?)]; eauto.
    - intros; inlog. specialize (H14 _ _ _ _ H). destruct x; [exact H14|]. intro Z0. destruct (H14 Z0); eauto.
    - intros; inlog; eauto.
    - intros; inlog; eauto.
    - intros c0 k0 rid o J1 J2. destruct (H19 _ _ _ _ J1 J2) as [?|(m & r & q & ? & ? & ? & ?)]; eauto 12.
    - intros c0 k0 rid b J1 J2. destruct (H20 _ _ _ _ J1 J2) as (m & ? & ? & ?); eauto.
    - intros c0 k0 m0 J1 J2 J3; inlog. destruct (H21 _ _ _ J1 J2 J3) as [?|[?|?]]; eauto.
    - intros c0 k0 m0 r0 q J1 J2; inlog. destruct (H22 _ _ _ _ _ J1 J2) as [?|[?|[(e & ?)|(? & ? & G)]]]; eauto 10.
      right; right; right. repeat split; auto. intros A B C. destruct (G A B C); auto.
    - rewrite all_rep_app, app_nil_r. exact H24.
  Qed.

  (** the server sends something to [c] that the log explains *)
  Lemma inv_deliver ex fin y c p : Inv ex fin y ->
    (In (EvTell c p) (y_log y) \/ exists m r, In (EvReply c m r p) (y_log y)) -> Inv ex fin (deliver cap y c p).
  Proof.
    intros I W. unfold deliver. destruct (dmem (y_cl y) c && _); [|apply inv_lost; exact I].
    destruct I as [H1 H2 H3 H4 H5 H6 H7 H8 H9 H10 H11 H12 H13 H14 H15 H16 H17 H18 H18b H19 H20 H21 H22 H23 H24].
    constructor; cbn [y_sv y_stack y_dead y_cl y_up y_down y_log]; auto.
    - intros c0 q. destruct (String.eqb_spec c c0) as [->|N].
      + rewrite queue_dset_same. intro I. inlog; [auto|]. subst q. exact W.
      + rewrite queue_dset_other by exact N. auto.
    - intros c0 k m r q R D. destruct (String.eqb_spec c c0) as [->|N].
      + rewrite queue_dset_same. destruct (H22 _ _ _ _ _ R D) as [?|?]; auto.
      + rewrite queue_dset_other by exact N. eauto.
  Qed.

  (** P3: a disconnect notice *)
  Lemma inv_tell ex fin y c k p : Inv ex fin y -> sv_open (y_sv y) = false -> sv_closed (y_sv y) = true ->
    dget (y_cl y) c = Some k -> (forall srv st, loads V (c_ser k) srv st p = Ok notice) ->
    Inv ex fin (deliver cap (logged y (EvTell c p)) c p).
  Proof.
    intros I O C K L. apply inv_deliver; [|left; cbn; apply inr].
    destruct I as [H1 H2 H3 H4 H5 H6 H7 H8 H9 H10 H11 H12 H13 H14 H15 H16 H17 H18 H18b H19 H20 H21 H22 H23 H24].
    constructor; cbn [logged y_sv y_stack y_dead y_cl y_up y_down y_log]; auto.
    - intro c0. rewrite sent_app, exec_app by discriminate. auto.
    - intros; inlog; auto.
    - intro c0. rewrite sent_app by discriminate. auto.
    - rewrite all_exec_app, all_done_app, !app_nil_r. exact H6.
    - intros; inlog; eauto.
    - intros c0 t I. destruct (H8 _ _ I) as (m & I' & E). eauto.
    - intros; inlog. destruct (H10 _ _ _ _ H) as (A & B & D); auto.
    - intros; inlog. destruct (H11 _ _ _ _ H); auto.
    - intros c0 q I. inlog; [eauto|]. injection I as <- <-. repeat (apply conj; [assumption|]). exists k. auto.
    - intros c0 q I. destruct (H13 _ _ I) as [?|(m & r & ?)]; eauto.
    - intros; inlog. specialize (H14 _ _ _ _ H). destruct x; [exact H14|]. intro Z0. destruct (H14 Z0); eauto.
    - intros c0 k0 rid o J1 J2. destruct (H19 _ _ _ _ J1 J2) as [?|(m & r & q & ? & ? & ? & ?)]; eauto 12.
    - intros c0 k0 rid b J1 J2. destruct (H20 _ _ _ _ J1 J2) as (m & ? & ? & ?); eauto.
    - intros c0 k0 m0 J1 J2 J3; inlog. destruct (H21 _ _ _ J1 J2 J3) as [?|[?|?]]; eauto.
    - intros c0 k0 m0 r0 q J1 J2; inlog. destruct (H22 _ _ _ _ _ J1 J2) as [?|[?|[(e & ?)|(? & ? & G)]]]; eauto 10.
      right; right; right. repeat split; auto. intros A B D. destruct (G A B D); auto.
    - rewrite all_rep_app, app_nil_r. exact H24.
  Qed.

  (** P4: the reply to the request being finished *)
  Lemma inv_reply y c m r p k : Inv [(c, m)] None y -> replies V (m_ser m) m r p -> 0 <= m_req m ->
    In (EvExec c m) (y_log y) -> dget (y_cl y) c = Some k ->
    (m_action m = "close" -> (exists v, r = Ok v) -> sv_closed (y_sv y) = true) ->
    ~ In (c, m_req m) (all_rep (y_log y)) ->
    Inv [(c, m)] (Some r) (deliver cap (logged y (EvReply c m r p)) c p).
  Proof.
    intros I R Z0 X K Cl Fresh.
    destruct I as [H1 H2 H3 H4 H5 H6 H7 H8 H9 H10 H11 H12 H13 H14 H15 H16 H17 H18 H18b H19 H20 H21 H22 H23 H24].
    assert (G : forall ql lost, (forall c0 q, In q (queue ql c0) -> In q (queue (y_down y) c0) \/ (c0 = c /\ q = p)) ->
       (forall c0 q, In q (queue (y_down y) c0) -> In q (queue ql c0)) ->
       (lost = [] /\ In p (queue ql c) \/ lost = [EvLost c p]) ->
       Inv [(c, m)] (Some r) (mkSys (y_sv y) (y_stack y) (y_dead y) (y_cl y) (y_up y) ql ((y_log y ++ [EvReply c m r p]) ++ lost))).
    { intros ql lost Q1 Q2 Q3.
      assert (L : forall e, In e ((y_log y ++ [EvReply c m r p]) ++ lost) -> In e (y_log y) \/ e = EvReply c m r p \/ e = EvLost c p).
      { intros e Ie. apply in_app_or in Ie. destruct Ie as [Ie|Ie]; [inlog; auto|].
        destruct Q3 as [[-> _]| ->]; cbn in Ie; intuition. }
      assert (L' : forall e, In e (y_log y) -> In e ((y_log y ++ [EvReply c m r p]) ++ lost)) by auto.
      assert (Ls : forall c0, sent_by c0 ((y_log y ++ [EvReply c m r p]) ++ lost) = sent_by c0 (y_log y)).
      { intro c0. destruct Q3 as [[-> _]| ->]; rewrite ?app_nil_r, ?sent_app by discriminate; reflexivity. }
      assert (Le : forall c0, executed_for c0 ((y_log y ++ [EvReply c m r p]) ++ lost) = executed_for c0 (y_log y)).
      { intro c0. destruct Q3 as [[-> _]| ->]; rewrite ?app_nil_r, ?exec_app by discriminate; reflexivity. }
      assert (Lx : all_exec ((y_log y ++ [EvReply c m r p]) ++ lost) = all_exec (y_log y)).
      { destruct Q3 as [[-> _]| ->]; rewrite ?app_nil_r, ?all_exec_app, ?app_nil_r; reflexivity. }
      assert (Ld : all_done ((y_log y ++ [EvReply c m r p]) ++ lost) = all_done (y_log y)).
      { destruct Q3 as [[-> _]| ->]; rewrite ?app_nil_r, ?all_done_app, ?app_nil_r; reflexivity. }
      constructor; cbn [y_sv y_stack y_dead y_cl y_up y_down y_log]; auto.
      - intro c0. rewrite Ls, Le. auto.
      - intros c0 m0 I. apply L in I. destruct I as [I|[I|I]]; [auto|discriminate|discriminate].
      - intro c0. rewrite Ls. auto.
      - rewrite Lx, Ld. exact H6.
      - intros c0 m0 I. apply L in I. destruct I as [I|[I|I]]; [auto|discriminate|discriminate].
      - intros c0 t I. destruct (H8 _ _ I) as (m0 & I' & E). eauto.
      - intros c0 m0 r0 q I. apply L in I. destruct I as [I|[I|I]]; [|injection I as -> -> -> ->; auto|discriminate].
        destruct (H10 _ _ _ _ I) as (A & B & D); auto.
      - intros c0 m0 r0 q I. apply L in I. destruct I as [I|[I|I]]; [|injection I as -> -> -> ->; right; cbn; auto|discriminate].
        destruct (H11 _ _ _ _ I) as [?|[_ ?]]; [auto|discriminate].
      - intros c0 q I. apply L in I. destruct I as [I|[I|I]]; [auto|discriminate|discriminate].
      - intros c0 q I. apply Q1 in I. destruct I as [I|[-> ->]].
        + destruct (H13 _ _ I) as [?|(m0 & r0 & ?)]; eauto.
        + right. exists m, r. auto.
      - intros c0 m0 r0 x I. apply L in I. destruct I as [I|[I|I]]; [|discriminate|discriminate].
        specialize (H14 _ _ _ _ I). destruct x; [exact H14|]. intro Z1. destruct (H14 Z1); eauto.
      - intros c0 m0 I. apply L in I. destruct I as [I|[I|I]]; [eauto|discriminate|discriminate].
      - intros c0 m0 v x I. apply L in I. destruct I as [I|[I|I]]; [eauto|discriminate|discriminate].
      - intros c0 m0 r0 [I|[]] [= <-]. injection I as <- <-. auto.
      - intros c0 k0 rid o D G. destruct (H19 _ _ _ _ D G) as [?|(m0 & r0 & q & ? & ? & ? & ?)]; eauto 12.
      - intros c0 k0 rid b D G. destruct (H20 _ _ _ _ D G) as (m0 & ? & ? & ?); eauto.
      - intros c0 k0 m0 I Z1 D. apply L in I. destruct I as [I|[I|I]]; [|discriminate|discriminate].
        destruct (H21 _ _ _ I Z1 D) as [?|[?|?]]; eauto.
      - intros c0 k0 m0 r0 q I D. apply L in I. destruct I as [I|[I|I]]; [| |discriminate].
        + destruct (H22 _ _ _ _ _ I D) as [?|[?|[(e & ?)|(? & ? & W)]]]; eauto 10.
          right; right; right. repeat split; auto. intros A1 A2 A3. destruct (W A1 A2 A3); auto.
        + injection I as -> -> -> ->. destruct Q3 as [[_ Q3]| ->]; [auto|]. right. left. apply inr.
      - assert (Lr : all_rep ((y_log y ++ [EvReply c m r p]) ++ lost) = all_rep (y_log y) ++ [(c, m_req m)]).
        { destruct Q3 as [[-> _]| ->]; rewrite ?app_nil_r, ?all_rep_app, ?app_nil_r; reflexivity. }
        rewrite Lr. apply NoDup_app_one; assumption. }
    unfold deliver. cbn [logged y_sv y_stack y_dead y_cl y_up y_down y_log].
    destruct (dmem (y_cl y) c && _).
    - replace (y_log y ++ [EvReply c m r p]) with ((y_log y ++ [EvReply c m r p]) ++ []) by apply app_nil_r.
      apply G.
      + intros c0 q. destruct (String.eqb_spec c c0) as [->|N].
        * rewrite queue_dset_same. intro I. inlog; auto.
        * rewrite queue_dset_other by exact N. auto.
      + intros c0 q I. destruct (String.eqb_spec c c0) as [->|N].
        * rewrite queue_dset_same. auto.
        * rewrite queue_dset_other by exact N. auto.
      + left. split; [reflexivity|]. rewrite queue_dset_same. auto.
    - apply G; auto.
  Qed.
End Inv.
