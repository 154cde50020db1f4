(** Requests that fail inside the server's own actions change nothing. *)
From Verif Require Import Py ObjTableModel ObjTableSpec ObjTableProofs SerModel SerSpec SerProofs SerProofs2 SerProofsJ
  FrameModel FrameProofs ServerModel ClientModel WireSpec WireProofs ServerProofs ServerProofs2 ClientProofs
  RpcModel RpcSpec.

Section Failing.
  Variable V : venv.
  Hypothesis GV : good_venv V.

  Lemma do_delete_failed s opts s' e tr : history (ss_o (sv_st s)) tr -> do_delete s opts = (s', Err e) -> s' = s.
  Proof.
    intros H. unfold do_delete. destruct (opt opts "obj_id") as [v|e1]; [|congruence].
    destruct v; try congruence. destruct (dget (prefs (tab (ss_o (sv_st s)))) z) eqn:G; [|congruence].
    destruct (opt opts "ref_id") as [v|e1]; [|congruence]. destruct v; try congruence.
    destruct (delete_ref (id_in (hp (ss_o (sv_st s)))) (tab (ss_o (sv_st s))) z z0) as [t' r] eqn:D.
    destruct r as [u|e1]; cbn [bind]; intro Q; [congruence|].
    pose proof (OInv_history _ _ H) as I. pose proof (OInv_delete _ _ z z0 I) as X. rewrite D in X. destruct X as [_ X].
    assert (N : forall o, ~ outstanding tr z z0 o). { intros o Ho. discriminate X. exists o. exact Ho. }
    destruct (delete_cases _ _ z z0 I) as [_ C]. rewrite (C N) in D. injection D as <- <-. injection Q as <- _.
    destruct s as [a b c d [[t h] bx] f g i]. reflexivity.
  Qed.

  Lemma process_failed s action opts c s' o e tr : action <> "close" -> history (ss_o (sv_st s)) tr ->
    process_action V s action opts c = (s', o, AVal (Err e)) -> s' = s.
  Proof.
    intros NC H. unfold process_action.
    destruct (String.eqb action "call_obj"). { intro Q. injection Q as <- _ _. reflexivity. }
    destruct (String.eqb action "get_obj"). { intro Q. injection Q as <- _ _. reflexivity. }
    destruct (String.eqb action "delete").
    { destruct (do_delete s opts) as [s1 r] eqn:D. intro Q. injection Q as <- _ ->. eapply do_delete_failed; eauto. }
    destruct (String.eqb action "get_item"). { intro Q. injection Q as <- _ _. reflexivity. }
    destruct (String.eqb action "set_item").
    { destruct (opt opts "obj"); [|congruence]. destruct (opt opts "name") as [v|]; [|congruence]. destruct v; congruence. }
    destruct (String.eqb action "import"). { intro Q. injection Q as <- _ _. reflexivity. }
    destruct (String.eqb action "ping"). { congruence. }
    destruct (String.eqb action "close") eqn:C. { apply String.eqb_eq in C. congruence. }
    intro Q. injection Q as <- _ _. reflexivity.
  Qed.

  (** a request that fails without user code being run *)
  Lemma begin_failed s c m s' os e x tr : ve_utf8 V c = true -> smem (m_ser m) (sv_sers s) = true -> sv_open s = true ->
    m_action m <> "close" -> history (ss_o (sv_st s)) tr ->
    begin_request V s c m = (s', os, Finished (Err e) x) ->
    x = None /\ sv_names s' = sv_names s /\ sv_st s' = sv_st s /\ sv_open s' = true /\ sv_closed s' = sv_closed s.
  Proof.
    intros U S O NC H. unfold begin_request. fold (with_client s c m). change (sv_sers (with_client s c m)) with (sv_sers s).
    rewrite S, U. pose proof (with_client_served V s c m U S O) as W.
    assert (F : forall s1 s2 o o2 x0, s1 = with_client s c m -> finish_request V s1 (mkAct c m) (Err e) = (s2, o2, x0) ->
              (s2, o ++ o2, Finished (Err e) x0) = (s', os, Finished (Err e) x) ->
              x = None /\ sv_names s' = sv_names s /\ sv_st s' = sv_st s /\ sv_open s' = true /\ sv_closed s' = sv_closed s).
    { intros s1 s2 o o2 x0 -> Fi Q.
      destruct (finish_answer V GV _ (mkAct c m) (Err e) _ W NC) as (s3 & o3 & Fi3 & _ & _ & _ & Same).
      rewrite Fi in Fi3. injection Fi3 as -> -> ->. injection Q as <- _ <-. rewrite (Same e eq_refl).
      repeat split; auto. }
    destruct (match m_opts m with PEmpty => Ok VNone | p => loads V (m_ser m) (Some (sv_addr (with_client s c m))) (sv_st (with_client s c m)) p end) as [opts|e1].
    - destruct (process_action V (with_client s c m) (m_action m) opts c) as [[s2 o] [r|f a k]] eqn:P; [|discriminate].
      destruct (finish_request V s2 (mkAct c m) r) as [[s3 o3] x0] eqn:Fi. intro Q.
      assert (r = Err e) by congruence. subst r.
      eapply F; [eapply process_failed; [exact NC| |exact P]; exact H|exact Fi|exact Q].
    - destruct (finish_request V (with_client s c m) (mkAct c m) (Err e1)) as [[s3 o3] x0] eqn:Fi. intro Q.
      assert (e1 = e) by congruence. subst e1. eapply (F _ _ [] _ _ eq_refl Fi). exact Q.
  Qed.
End Failing.
