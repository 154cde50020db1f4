(** Proxies in whole runs: what a user can rely on. *)
From Verif Require Import Py ObjTableModel ObjTableSpec ObjTableProofs SerModel SerSpec SerProofs SerProofs2 SerProofsJ
  FrameModel FrameProofs ServerModel ClientModel WireSpec WireProofs ServerProofs ServerProofs2 ClientProofs
  ApiModel ApiSpec ApiProofs ApiProofs2 RpcModel RpcSpec RpcInv RpcInv2 RpcInv3 RpcInv4 RpcProofs LifeSpec LifeProofs LifeProofs2 RpcLife.

Section RLife2.
  Variable V : venv.
  Hypothesis GV : good_venv V.
  Let E := ve_ser V.
  Let GE : good_env E := gv_ser V GV.

  Section Run.
  Variable cap : nat.
  Variable s : sv.
  Variable ls : list label.
  Variable tr0 : otrace.
  Hypothesis FS : fresh_server s.
  Hypothesis JS : joins_supported (sv_sers s) ls.
  Hypothesis H0 : history (ss_o (sv_st s)) tr0.
  Hypothesis RE : results_exist V cap (yinit s) ls.
  Let y := yrun V cap (yinit s) ls.

  Lemma life : exists tr, past V (sv_addr s) (sv_st s) tr0 y tr /\ got V y /\ Inv V (sv_sers s) [] None y.
  Proof.
    destruct (life_run V GV cap (sv_sers s) (sv_addr s) (sv_st s) tr0 H0 ls (yinit s) []) as (tr & P & G & I); auto.
    - apply inv_init; auto.
    - split; [apply evolves_refl|]. split; [reflexivity|]. split; [intros ? ? []|intros ? ? ? ? []].
    - intros c k rid w K. discriminate.
    - exists tr. auto.
  Qed.

  Lemma run_is_history : exists tr, history (ss_o (sv_st (y_sv y))) (tr0 ++ tr) /\
    forall oid rid, released tr oid rid -> exists c m, In (EvExec c m) (y_log y) /\ asks_delete V m oid rid.
  Proof.
    destruct life as (tr & P & _ & _). exists tr. split; [eapply past_history; eauto|].
    destruct P as (_ & _ & D & _). intros oid rid R. destruct (D oid rid R) as (c & m & X & A). eauto.
  Qed.

  Lemma result_lasts c m v k w : In (EvDone c m (Ok v) None) (y_log y) -> 0 <= m_req m -> by_proxy V m v ->
    dget (y_cl y) c = Some k -> c_local k <> Some (sv_addr s) -> finished k (m_req m) (Ok w) ->
    exists px, w = VProxy px /\ p_addr px = sv_addr s /\ p_attrs px = [] /\
      ((forall c' m', In (EvExec c' m') (y_log y) -> ~ asks_delete V m' (p_oid px) (p_rid px)) ->
       resolves E (sv_st (y_sv y)) px v /\
       forall k2 c2 rt sync, c_disc k2 = false -> c_open k2 = true -> ve_utf8 V c2 = true ->
         smem (c_ser k2) (sv_sers (y_sv y)) = true -> sv_open (y_sv y) = true ->
         exists k' m2 r, send V k2 (rq_action (rq_get (VProxy px))) (rq_opts (rq_get (VProxy px))) rt sync = (k', Some m2, r) /\
           exists s' os, begin_request V (y_sv y) c2 m2 = (s', os, Finished (Ok v) None)).
  Proof.
    intros D Z0 BP K Lo F. destruct life as (tr & P & G & I). pose proof (past_history _ _ _ _ H0 _ _ P) as Hi.
    destruct (G c k _ w K F) as (m' & r & p & st & J & Em & Ld).
    destruct (i_reply _ _ _ _ _ I _ _ _ _ J) as (_ & _ & X').
    assert (X : In (EvExec c m) (y_log y)) by (eapply done_exec; eauto).
    pose proof (exec_sent V _ _ _ _ _ _ I X) as S. pose proof (exec_sent V _ _ _ _ _ _ I X') as S'.
    assert (m = m') by (eapply (sent_unique V); eauto). subst m'.
    destruct (i_redone _ _ _ _ _ I _ _ _ _ J) as [D'|[[] _]].
    assert (U : r = Ok v).
    { exact (proj1 (done_unique V GV cap s FS ls JS c m _ _ _ _ Z0 D' D)). }
    subst r.
    destruct P as (_ & Ad & _ & R). destruct (R _ _ _ _ J BP) as (px & o & Is & _ & Va & Pa & Pt & L & Re).
    destruct (i_sent _ _ _ _ _ I _ _ S) as (k1 & K1 & Es & _). rewrite K in K1. injection K1 as <-.
    rewrite <- Es, L in Ld by exact Lo. injection Ld as <-.
    exists px. split; [reflexivity|]. split; [exact Pa|]. split; [exact Pt|]. intro N.
    assert (Rs : resolves E (sv_st (y_sv y)) px v);
      [|split; [exact Rs|]; intros k2 c2 rt sync K2 O2 U2 S2 So; rewrite <- (resolves_unwrap _ _ _ _ Rs);
        apply (get_obj_outcome V GV); auto; rewrite Pa; symmetry; exact Ad].
    exists (tr0 ++ tr), o, v. split; [exact Hi|]. split.
    - split; [exact Is|]. intro Rl. destruct (Re Rl) as (c1 & m1 & X1 & A1). exact (N c1 m1 X1 A1).
    - split; [exact Va|]. rewrite Pt. constructor.
  Qed.
  (** proxies that existed before the run *)
  Lemma kept px o v : outstanding tr0 (p_oid px) (p_rid px) o -> value_at (sv_st s) o v -> p_attrs px = [] -> p_addr px = sv_addr s ->
    (forall c m, In (EvExec c m) (y_log y) -> ~ asks_delete V m (p_oid px) (p_rid px)) ->
    forall k c rt sync, c_disc k = false -> c_open k = true -> ve_utf8 V c = true ->
      smem (c_ser k) (sv_sers (y_sv y)) = true -> sv_open (y_sv y) = true ->
      exists k' m r, send V k (rq_action (rq_get (VProxy px))) (rq_opts (rq_get (VProxy px))) rt sync = (k', Some m, r) /\
        exists s' os, begin_request V (y_sv y) c m = (s', os, Finished (Ok v) None).
  Proof.
    intros Ou Va Pt Pa N k c rt sync K Op U S So. destruct life as (tr & P & _ & _). pose proof (past_history _ _ _ _ H0 _ _ P) as Hi.
    destruct P as (Ev & Ad & D & _).
    assert (Rs : resolves E (sv_st (y_sv y)) px v).
    { exists (tr0 ++ tr), o, v. split; [exact Hi|]. split.
      - destruct Ou as [[ok Is] Nr]. split; [exists ok; apply in_or_app; left; exact Is|].
        intros R. apply in_app_or in R. destruct R as [R|R]; [exact (Nr R)|].
        destruct (D _ _ R) as (c1 & m1 & X1 & A1). exact (N c1 m1 X1 A1).
      - split; [|rewrite Pt; constructor].
        assert (L : (o < fresh (sv_st s))%nat).
        { apply (history_heap _ _ H0). exact (outstanding_live _ _ _ _ _ H0 Ou). }
        unfold value_at in *. rewrite (ev_boxes _ _ _ Ev) by exact L. exact Va. }
    rewrite <- (resolves_unwrap _ _ _ _ Rs). apply (get_obj_outcome V GV); auto. rewrite Pa. symmetry. exact Ad.
  Qed.
  End Run.

  (** ** The request that [ObjectProxy._delete] makes *)
  Lemma seen_ids t a b : seen V t (fields [("obj_id", VInt a); ("ref_id", VInt b)]) = fields [("obj_id", VInt a); ("ref_id", VInt b)].
  Proof. unfold seen. destruct (String.eqb t "msgpack"); reflexivity. Qed.
  Lemma delete_arrives k p rt sync : c_disc k = false -> c_open k = true ->
    exists k' m r, send V k (rq_action (rq_delete p)) (rq_opts (rq_delete p)) rt sync = (k', Some m, r) /\
      m_action m = "delete" /\ m_ser m = c_ser k /\
      forall s, options V s m = Ok (fields [("obj_id", VInt (p_oid p)); ("ref_id", VInt (p_rid p))]).
  Proof.
    intros D O. cbn [rq_delete rq_action rq_opts].
    assert (Su : supported V (c_ser k) (fields [("obj_id", VInt (p_oid p)); ("ref_id", VInt (p_rid p))])).
    { pose proof (gv_limit V GV) as L. unfold supported. destruct (String.eqb (c_ser k) "msgpack").
      - split; [|cbn [fields map mdepth lmax snd fold_right]; pose proof (zdepth_le (p_oid p)); pose proof (zdepth_le (p_rid p)); cbn; lia].
        cbn. repeat split; try discriminate.
        repeat (constructor; [intro H; cbn in H; repeat (destruct H as [H|H]; [discriminate H|]); destruct H|]). constructor.
      - split; [|cbn; lia]. cbn. repeat split; eexists; (split; [reflexivity|discriminate]). }
    destruct (request_arrives V GV k "delete" _ rt sync D O Su) as (k' & m & r & Se & Ac & _ & Sr & Op); [reflexivity|].
    exists k', m, r. split; [exact Se|]. split; [exact Ac|]. split; [exact Sr|]. intros s.
    rewrite (Op s VProxy (fun q => False_ind _)), subst_id, seen_ids. reflexivity.
  Qed.

  Lemma do_delete_step s oid rid : exists s', do_delete s (fields [("obj_id", VInt oid); ("ref_id", VInt rid)]) =
      (s', match ObjTableSpec.outcome (ss_o (sv_st s)) (Delete oid rid) with ODeleted => Ok VNone | OErr e => Err e | _ => Err KeyError end) /\
    sv_st s' = mkSst (after (ss_o (sv_st s)) (Delete oid rid)) (ss_boxes (sv_st s)).
  Proof.
    unfold do_delete. change (opt (fields [("obj_id", VInt oid); ("ref_id", VInt rid)]) "obj_id") with (Ok (VInt oid)).
    change (opt (fields [("obj_id", VInt oid); ("ref_id", VInt rid)]) "ref_id") with (Ok (VInt rid)).
    unfold ObjTableSpec.outcome, after. cbn [ostep]. destruct (dget (prefs (tab (ss_o (sv_st s)))) oid) as [e0|] eqn:G.
    - cbv beta iota. destruct (delete_ref (id_in (hp (ss_o (sv_st s)))) (tab (ss_o (sv_st s))) oid rid) as [t' [u|e]]; eexists; split; reflexivity.
    - cbv beta iota. unfold delete_ref. rewrite G. exists s. split; [reflexivity|]. destruct s as [? ? ? ? [[] ] ]. reflexivity.
  Qed.

  Lemma delete_request k p rt sync s c tr : c_disc k = false -> c_open k = true ->
    ve_utf8 V c = true -> smem (c_ser k) (sv_sers s) = true -> sv_open s = true -> history (ss_o (sv_st s)) tr ->
    exists k' m r, send V k (rq_action (rq_delete p)) (rq_opts (rq_delete p)) rt sync = (k', Some m, r) /\
      asks_delete V m (p_oid p) (p_rid p) /\ exists s' os res, begin_request V s c m = (s', os, Finished res None) /\
      ((exists o, outstanding tr (p_oid p) (p_rid p) o) -> res = Ok VNone /\
         exists tr', history (ss_o (sv_st s')) (tr ++ (Delete (p_oid p) (p_rid p), ODeleted) :: tr') /\
           forall oid rid, ~ released tr' oid rid) /\
      ((forall o, ~ outstanding tr (p_oid p) (p_rid p) o) -> res = Err KeyError /\ sv_st s' = sv_st s).
  Proof.
    intros D O U S So Hi. destruct (delete_arrives k p rt sync D O) as (k' & m & r & Se & Ac & Sr & Op).
    exists k', m, r. split; [exact Se|]. split.
    { split; [exact Ac|]. exists s, [(VStr "obj_id", VInt (p_oid p)); (VStr "ref_id", VInt (p_rid p))].
      split; [apply Op|]. split; reflexivity. }
    specialize (Op s). unfold options in Op. rewrite Sr in Op.
    assert (W : served V (with_client s c m) c (c_ser k)).
    { pose proof (with_client_served V s c m U) as W. rewrite Sr in W. apply W; assumption. }
    unfold begin_request. fold (with_client s c m). change (sv_sers (with_client s c m)) with (sv_sers s).
    rewrite Sr, S, U. change (sv_addr (with_client s c m)) with (sv_addr s). change (sv_st (with_client s c m)) with (sv_st s).
    rewrite Op, Ac. unfold process_action.
    change (String.eqb "delete" "call_obj") with false. change (String.eqb "delete" "get_obj") with false.
    change (String.eqb "delete" "delete") with true. cbv iota beta.
    destruct (do_delete_step (with_client s c m) (p_oid p) (p_rid p)) as (s1 & DD & St1). rewrite DD.
    change (sv_st (with_client s c m)) with (sv_st s) in *.
    set (res := match ObjTableSpec.outcome _ _ with ODeleted => _ | OErr _ => _ | _ => _ end) in *.
    destruct (do_delete_kept _ _ _ _ DD) as [Kp _].
    assert (W1 : served V s1 c (c_ser k)) by (eapply kept_served; eauto).
    destruct (finish_answer V GV s1 (mkAct c m) res (c_ser k) W1) as (s' & o & Fi & _ & _ & _ & Es).
    { cbn [a_msg]. rewrite Ac. discriminate. }
    rewrite Fi. exists s', ([] ++ o), res. split; [reflexivity|].
    assert (Hi1 : history (ss_o (sv_st s1)) (tr ++ [(Delete (p_oid p) (p_rid p), ObjTableSpec.outcome (ss_o (sv_st s)) (Delete (p_oid p) (p_rid p)))])).
    { apply (history_extend (ss_o (sv_st s)) tr [Delete (p_oid p) (p_rid p)]); [exact Hi|]. rewrite St1. cbn [ss_o].
      rewrite orun_cons. reflexivity. }
    split.
    - intros [o0 Ou]. pose proof (delete_outstanding _ _ _ _ _ Hi Ou) as De. unfold res. rewrite De in *. split; [reflexivity|].
      destruct (finish_evolves V GV s1 (mkAct c m) res s' o None) as (tr' & Ev & Mk).
      + unfold res. rewrite De. intros v [= <-]. apply none_existing. reflexivity.
      + eapply history_heap. exact Hi1.
      + exact Fi.
      + exists tr'. split.
        * change (history (ss_o (sv_st s')) (tr ++ [(Delete (p_oid p) (p_rid p), ODeleted)] ++ tr')). rewrite app_assoc.
          eapply history_extend; [exact Hi1|]. exact (ev_run _ _ _ Ev).
        * intros oid rid R. destruct (Mk _ R) as [(x & ?)|(x & ?)]; discriminate.
    - intros Nn. destruct (delete_other _ _ _ _ Hi Nn) as [De Af]. unfold res in *. rewrite De in *. split; [reflexivity|].
      rewrite (Es KeyError eq_refl), St1, Af. destruct (sv_st s); reflexivity.
  Qed.
End RLife2.
