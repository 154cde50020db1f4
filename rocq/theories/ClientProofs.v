(** Lemmas about one client. *)
From Verif Require Import Py ObjTableModel SerModel SerSpec SerProofs SerProofs2 SerProofsJ
  FrameModel ServerModel ClientModel WireSpec WireProofs ServerProofs.

Section Cl.
  Variable V : venv.
  Hypothesis GV : good_venv V.
  Let E := ve_ser V.
  Let GE : good_env E := gv_ser V GV.

  (** ** Sending *)
  Definition same_client (c c' : cl) : Prop :=
    c_ser c' = c_ser c /\ c_local c' = c_local c /\ c_done c' = c_done c /\ c_disc c' = c_disc c /\ c_open c' = c_open c.

  Lemma send_cases c action opts rt sync c' om r : send V c action opts rt sync = (c', om, r) ->
    same_client c c' /\
    match om with
    | None => c_futs c' = c_futs c /\ c_next c <= c_next c' /\ exists e, r = Err e
    | Some m => m_ser m = c_ser c /\ m_action m = action /\ m_rt m = rt /\ c_disc c = false /\
        match sync with
        | Off => m_req m = -1 /\ c_next c' = c_next c /\ c_futs c' = c_futs c /\ r = Ok None
        | _ => m_req m = c_next c /\ c_next c' = c_next c + 1 /\
               c_futs c' = dset (c_futs c) (c_next c) (String.eqb action "close") /\
               r = match sync with BadSync => Err ValueError | _ => Ok (Some (c_next c)) end
        end
    end.
  Proof.
    unfold send. destruct (c_disc c) eqn:D.
    { intros [= <- <- <-]. repeat split; eauto; lia. }
    intro H.
    destruct opts as [v|].
    - destruct sync; cbn [set_next c_ser c_local c_st] in H;
        destruct (dumps V (c_ser c) (c_local c) (c_st c) v) as [st' [p|e]]; cbn in H;
        try (destruct (c_open c) eqn:O; cbn in H); injection H as <- <- <-; cbn;
        repeat split; eauto; try lia.
    - destruct sync; cbn in H; destruct (c_open c) eqn:O; cbn in H; injection H as <- <- <-; cbn;
        repeat split; eauto; try lia.
  Qed.

  Lemma send_disconnected c action opts rt sync : c_disc c = true ->
    send V c action opts rt sync = (c, None, Err RuntimeError).
  Proof. intro D. unfold send. rewrite D. reflexivity. Qed.

  Lemma send_rejects c action v rt sync :
    c_local c = None -> c_disc c = false -> supported V (c_ser c) v -> objs E v <> [] ->
    exists c', send V c action (Some v) rt sync = (c', None, Err TypeError) /\
      c_futs c' = c_futs c /\ c_done c' = c_done c.
  Proof.
    intros L D S O. unfold send. rewrite D.
    assert (G : forall st, dumps V (c_ser c) None st v = (st, Err TypeError)).
    { intro st. unfold dumps, supported in *. fold E in S |- *. destruct (String.eqb (c_ser c) "msgpack").
      - unfold msgpack_dumps. destruct S as [S Hd]. rewrite (no_server E GE v S O 512 st Hd). reflexivity.
      - destruct S as [S Hd]. rewrite (jno_server E GE v S O _ st Hd). reflexivity. }
    destruct sync; cbn [set_next c_ser c_local c_st]; rewrite L, G; eexists; (split; [reflexivity|split; reflexivity]).
  Qed.

  (** ** Receiving *)

  Lemma process_reply_ok c rid v :
    process_msg c (reply rid v VNone) =
      match dget (c_futs c) rid with
      | None => (c, None)
      | Some b => (complete (set_futs c (ddel (c_futs c) rid)) rid b (Ok v), None)
      end.
  Proof. cbn. destruct (dget (c_futs c) rid); reflexivity. Qed.
  Lemma process_reply_err c rid t e :
    process_msg c (reply rid VNone (seen V t (error_value V e))) =
      match dget (c_futs c) rid with
      | None => (c, None)
      | Some b => (complete (set_futs c (ddel (c_futs c) rid)) rid b (Err (RemoteCallException (exn_name e))), None)
      end.
  Proof.
    unfold seen. destruct (String.eqb t "msgpack"); cbn; destruct (dget (c_futs c) rid); reflexivity.
  Qed.

  Lemma recv_reply c m r p : replies V (c_ser c) m r p ->
    (exists e, client_recv V c p = (c, Some e)) \/
    (dget (c_futs c) (m_req m) = None /\ client_recv V c p = (c, None)) \/
    (exists b o, dget (c_futs c) (m_req m) = Some b /\
       client_recv V c p = (complete (set_futs c (ddel (c_futs c) (m_req m))) (m_req m) b o, None) /\
       answers V (c_ser c) m r o).
  Proof.
    intro R. unfold client_recv. destruct R as [e p L|v f p L F|v e p N L]; rewrite L.
    - right. rewrite process_reply_err. destruct (dget (c_futs c) (m_req m)) eqn:G; [right|left; auto].
      eexists _, _. repeat split; eauto.
    - destruct (f (c_local c) (c_st c)) as [v'|e] eqn:Fv; cbn [bind]; [|left; eauto]. right.
      rewrite process_reply_ok. destruct (dget (c_futs c) (m_req m)) eqn:G; [right|left; auto].
      eexists _, _. repeat split; eauto. intro S. rewrite (F S) in Fv. injection Fv as <-. reflexivity.
    - right. rewrite process_reply_err. destruct (dget (c_futs c) (m_req m)) eqn:G; [right|left; auto].
      eexists _, _. split; [reflexivity|]. split; [reflexivity|]. cbn. split; [intro; contradiction|eauto].
  Qed.

  Lemma recv_notice c p : loads V (c_ser c) (c_local c) (c_st c) p = Ok notice ->
    client_recv V c p = (server_disconnected c, None).
  Proof. intro L. unfold client_recv. rewrite L. reflexivity. Qed.

  Lemma fold_fail_other ks (d : dict Z outcome) k : ~ In k ks ->
    dget (fold_left (fun d k => dset d k (Err RuntimeError)) ks d) k = dget d k.
  Proof.
    revert d. induction ks as [|x r IH]; intros d H; [reflexivity|]. cbn [fold_left]. rewrite IH by (cbn in H; tauto).
    apply dget_dset_other. cbn in H. intuition.
  Qed.
  Lemma fold_fail_in ks (d : dict Z outcome) k : In k ks ->
    dget (fold_left (fun d k => dset d k (Err RuntimeError)) ks d) k = Some (Err RuntimeError).
  Proof.
    revert d. induction ks as [|x r IH]; intros d H; [destruct H|]. cbn [fold_left].
    destruct (in_dec Z.eq_dec k r) as [I|N]; [apply IH; exact I|].
    rewrite fold_fail_other by exact N. destruct H as [->|H]; [apply dget_dset_same|contradiction].
  Qed.
  Lemma disconnected_done c rid :
    dget (c_done (server_disconnected c)) rid =
      if smem rid (dkeys (c_futs c)) then Some (Err RuntimeError) else dget (c_done c) rid.
  Proof.
    unfold server_disconnected. cbn [set_disc set_futs set_done c_done].
    destruct (smem rid (dkeys (c_futs c))) eqn:S; [apply smem_In in S; apply fold_fail_in; exact S|].
    apply smem_false in S. apply fold_fail_other. exact S.
  Qed.

  (** ** Futures never change once done *)

  (** pending futures and finished ones are different, and IDs are fresh *)
  Record futures_ok (c : cl) : Prop := {
    fo_nodup : NoDup (dkeys (c_futs c));
    fo_disj : forall rid, In rid (dkeys (c_futs c)) -> dget (c_done c) rid = None;
    fo_futs : forall rid, In rid (dkeys (c_futs c)) -> 0 <= rid < c_next c;
    fo_done : forall rid, In rid (dkeys (c_done c)) -> 0 <= rid < c_next c;
    fo_next : 0 <= c_next c
  }.
  Definition keeps (c c' : cl) : Prop := forall rid o, dget (c_done c) rid = Some o -> dget (c_done c') rid = Some o.

  Lemma new_ok ser local st : futures_ok (new_client ser local st).
  Proof. constructor; cbn; try tauto; try lia. constructor. Qed.

  Lemma ok_disconnected c : futures_ok c -> futures_ok (server_disconnected c) /\ keeps c (server_disconnected c).
  Proof.
    intros [H1 H2 H3 H4 H5]. split.
    - constructor; cbn; try tauto; [constructor|]. intros rid I.
      apply dkey_dget in I. destruct I as [o I].
      change (dget (c_done (server_disconnected c)) rid = Some o) in I. rewrite disconnected_done in I.
      destruct (smem rid (dkeys (c_futs c))) eqn:S; [apply smem_In in S; auto|].
      apply H4. eapply dget_Some_key; eauto.
    - intros rid o G. rewrite disconnected_done. destruct (smem rid (dkeys (c_futs c))) eqn:S; [|exact G].
      apply smem_In, H2 in S. congruence.
  Qed.

  Lemma ok_complete c rid b o b0 : futures_ok c -> dget (c_futs c) rid = Some b0 ->
    futures_ok (complete (set_futs c (ddel (c_futs c) rid)) rid b o) /\
    keeps c (complete (set_futs c (ddel (c_futs c) rid)) rid b o).
  Proof.
    intros F G. pose proof F as [H1 H2 H3 H4 H5].
    set (c1 := set_done (set_futs c (ddel (c_futs c) rid)) (dset (c_done c) rid o)).
    assert (I : In rid (dkeys (c_futs c))) by (eapply dget_Some_key; eauto).
    assert (F1 : futures_ok c1).
    { constructor; cbn; auto.
      - apply NoDup_ddel. exact H1.
      - intros x Ix. rewrite dget_dset_other; [apply H2; eapply dkeys_ddel_incl; eauto|].
        intros ->. apply dkey_dget in Ix. destruct Ix as [v Ix]. rewrite dget_ddel_same in Ix by exact H1. discriminate.
      - intros x Ix. apply H3. eapply dkeys_ddel_incl; eauto.
      - intros x Ix. apply dkeys_dset in Ix. destruct Ix as [->|Ix]; auto. }
    assert (K1 : keeps c c1).
    { intros x v Hv. cbn. rewrite dget_dset_other; [exact Hv|]. intros ->. rewrite (H2 _ I) in Hv. discriminate. }
    unfold complete. change (set_done _ _) with c1. destruct b; [|auto].
    destruct o as [[]|]; auto. destruct b; auto.
    destruct (ok_disconnected c1 F1) as [F2 K2]. split; [exact F2|]. intros x v Hv. apply K2, K1. exact Hv.
  Qed.

  Lemma ok_pop c rid : futures_ok c -> futures_ok (set_futs c (ddel (c_futs c) rid)).
  Proof.
    intros [H1 H2 H3 H4 H5]. constructor; cbn; auto.
    - apply NoDup_ddel. exact H1.
    - intros x Ix. apply H2. eapply dkeys_ddel_incl; eauto.
    - intros x Ix. apply H3. eapply dkeys_ddel_incl; eauto.
  Qed.

  Lemma ok_process c v c' x : futures_ok c -> process_msg c v = (c', x) -> futures_ok c' /\ keeps c c'.
  Proof.
    intros F. assert (K : keeps c c) by (intros ? ? H; exact H).
    unfold process_msg. destruct v; try (intros [= <- _]; auto; fail).
    destruct (field d "action") as [a|]; [|intros [= <- _]; auto].
    destruct a; try (intros [= <- _]; auto; fail).
    destruct (String.eqb s "return").
    - destruct (field d "req_id") as [q|]; [|intros [= <- _]; auto].
      destruct q; try (intros [= <- _]; auto; fail).
      destruct (dget (c_futs c) z) as [b|] eqn:G; [|intros [= <- _]; auto].
      assert (P : futures_ok (set_futs c (ddel (c_futs c) z)) /\ keeps c (set_futs c (ddel (c_futs c) z)))
        by (split; [apply ok_pop; exact F|exact K]).
      destruct (field d "error") as [er|]; [|intros [= <- _]; auto].
      destruct er; try (destruct (remote_exc _); intros [= <- _]; [eapply ok_complete; eauto|auto]; fail).
      destruct (field d "rval"); intros [= <- _]; [eapply ok_complete; eauto|auto].
    - destruct (String.eqb s "disconnect"); intros [= <- _]; auto using ok_disconnected.
  Qed.
  Lemma ok_recv c p c' x : futures_ok c -> client_recv V c p = (c', x) -> futures_ok c' /\ keeps c c'.
  Proof.
    intro F. unfold client_recv. destruct (loads _ _ _ _ _); [apply ok_process; exact F|].
    intros [= <- _]. split; [exact F|intros ? ? H; exact H].
  Qed.
  Lemma ok_send c action opts rt sync c' om r : futures_ok c -> send V c action opts rt sync = (c', om, r) ->
    futures_ok c' /\ keeps c c'.
  Proof.
    intros F S. destruct (send_cases _ _ _ _ _ _ _ _ S) as ((A1 & A2 & A3 & A4 & A5) & H).
    split; [|intros rid o; rewrite A3; auto]. destruct F as [H1 H2 H3 H4 H5].
    assert (S0 : c_futs c' = c_futs c -> c_next c <= c_next c' -> futures_ok c').
    { intros Hf Hn. constructor; rewrite ?Hf, ?A3; auto; try lia.
      - intros rid I. specialize (H3 rid I). lia.
      - intros rid I. specialize (H4 rid I). lia. }
    assert (S1 : forall b, c_futs c' = dset (c_futs c) (c_next c) b -> c_next c' = c_next c + 1 -> futures_ok c').
    { intros b Hf Hn. constructor; rewrite ?Hf, ?A3; auto; try lia.
      - apply NoDup_dset. exact H1.
      - intros rid I. apply dkeys_dset in I. destruct I as [->|I]; [|auto].
        destruct (dget (c_done c) (c_next c)) eqn:G; [|reflexivity]. apply dget_Some_key, H4 in G. lia.
      - intros rid I. apply dkeys_dset in I. destruct I as [->|I]; [lia|]. specialize (H3 rid I). lia.
      - intros rid I. specialize (H4 rid I). lia. }
    destruct om as [m|].
    - destruct H as (B1 & B2 & B3 & B4 & B5). destruct sync; destruct B5 as (C1 & C2 & C3 & C4); eauto.
      apply S0; [exact C3|lia].
    - destruct H as (B1 & B2 & _). auto.
  Qed.
  Lemma ok_drop c rid : futures_ok c -> futures_ok (drop_future c rid) /\ keeps c (drop_future c rid).
  Proof. intro F. split; [apply ok_pop; exact F|intros ? ? H; exact H]. Qed.
End Cl.
