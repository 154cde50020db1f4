(** Proofs about the Qt relay. *)
From Verif Require Import Py QtRelayModel QtRelaySpec.
Local Open Scope nat_scope.

Lemma arrived_app a b : arrived (a ++ b) = arrived a ++ arrived b.
Proof. induction a as [|[] a IH]; cbn; rewrite ?IH; auto. Qed.
Lemma produced_app s a b : produced s (a ++ b) = produced s a ++ produced (qrun s a) b.
Proof.
  revert s. induction a as [|l a IH]; intros s; auto. cbn [app produced qrun fold_left].
  rewrite IH, app_assoc. reflexivity.
Qed.

(** the poll found only what is there *)
Definition pc_ok (s : qst) : Prop :=
  match q_pc s with
  | QRet b c => (b = true -> q_ret s <> []) /\ (c = true -> q_in s <> []) /\ (b || c = true)
  | QRpc c => c = true -> q_in s <> []
  | _ => True
  end.
Record qinv (s : qst) (a : list request) (p : list reply) : Prop := {
  qi_pc : pc_ok s;
  qi_live : q_pc s <> QStopped;
  qi_in : q_pc s <> QDead -> a = map Some (q_done s ++ q_events s) ++ q_in s;
  qi_dead : q_pc s = QDead -> exists l, a = map Some (q_done s ++ q_events s) ++ None :: l;
  qi_out : p = q_out s ++ q_ret s }.

Lemma qinv_run s a p : qinv s a p -> qinv (qrun1 s) a p.
Proof.
  intros V. pose proof V as [PC L I D O]. destruct s as [qi qr ev pc ex dn out].
  unfold qrun1, pc_ok in *. cbn [q_pc q_in q_ret q_events q_exit q_done q_out] in *.
  destruct pc as [|b c|c| |]; auto.
  - destruct qr as [|r qr], qi as [|m qi]; auto; split; cbn [q_pc q_in q_ret q_events q_exit q_done q_out]; auto; try congruence;
      try (intros _; apply I; congruence);
      unfold pc_ok; cbn; repeat split; intros; congruence || reflexivity.
  - destruct PC as (P1 & P2 & P3). destruct b.
    + destruct qr as [|[nm dt] qr]; auto. unfold is_stop. split; cbn [q_pc q_in q_ret q_events q_exit q_done q_out]; auto; try congruence.
      * intros _. apply I. congruence.
      * rewrite <- app_assoc. exact O.
    + split; cbn [q_pc q_in q_ret q_events q_exit q_done q_out]; auto; try congruence. intros _. apply I. congruence.
  - destruct c.
    + destruct qi as [|[m|] qi]; auto; split; cbn [q_pc q_in q_ret q_events q_exit q_done q_out]; auto; try congruence; try exact Logic.I.
      * intros _. rewrite I by congruence. rewrite !map_app. cbn [map]. rewrite <- !app_assoc. reflexivity.
      * intros _. exists qi. apply I. congruence.
    + split; cbn [q_pc q_in q_ret q_events q_exit q_done q_out]; auto; try congruence; try exact Logic.I.
      intros _. apply I. congruence.
Qed.
Lemma pc_ok_more s qi qr ev ex dn out : pc_ok s -> (q_in s <> [] -> qi <> []) -> (q_ret s <> [] -> qr <> []) ->
  pc_ok (mkQ qi qr ev (q_pc s) ex dn out).
Proof. unfold pc_ok. cbn. destruct (q_pc s); intuition. Qed.
Lemma app_ne {A} (l m : list A) : l <> [] -> l ++ m <> [].
Proof. destruct l; [congruence|discriminate]. Qed.

Lemma qinv_step s a p l : q_exit s = false -> qinv s a p -> qinv (qstep s l) (a ++ arrived [l]) (p ++ produced s [l]).
Proof.
  intros X V. pose proof V as [PC L I D O]. unfold qstep. cbn [produced]. rewrite X. cbn [arrived]. rewrite app_nil_r.
  destruct l as [m| |rs|r| |]; rewrite ?app_nil_r.
  - split; cbn; auto.
    + apply pc_ok_more; auto using app_ne.
    + intros N. rewrite I by auto. rewrite <- app_assoc. reflexivity.
    + intros N. destruct (D N) as (l & ->). exists (l ++ [m]). rewrite <- app_assoc. reflexivity.
  - apply qinv_run, V.
  - destruct (q_events s) as [|m ev] eqn:E; rewrite ?app_nil_r; auto. split; cbn; auto.
    + apply pc_ok_more; auto using app_ne.
    + rewrite <- app_assoc. exact I.
    + rewrite <- app_assoc. exact D.
    + rewrite O, app_assoc. reflexivity.
  - split; cbn; auto.
    + apply pc_ok_more; auto using app_ne.
    + rewrite O, app_assoc. reflexivity.
  - split; cbn; auto.
    + apply pc_ok_more; auto using app_ne.
    + rewrite O, app_assoc. reflexivity.
  - split; cbn; auto.
Qed.
Lemma qstep_exit s l : q_exit s = false -> l <> QExit -> q_exit (qstep s l) = false.
Proof.
  intros X N. unfold qstep. rewrite X. destruct l; cbn; auto; try congruence.
  - unfold qrun1. destruct (q_pc s) as [|[] c|[]| |]; cbn; auto; destruct (q_ret s) as [|[]], (q_in s) as [|[]]; cbn; auto.
  - destruct (q_events s); auto.
Qed.
Lemma qinv_runs ls s a p : q_exit s = false -> no_exit ls -> qinv s a p ->
  qinv (qrun s ls) (a ++ arrived ls) (p ++ produced s ls) /\ q_exit (qrun s ls) = false.
Proof.
  revert s a p. induction ls as [|l ls IH]; intros s a p X N V.
  - cbn. rewrite !app_nil_r. auto.
  - change (qrun s (l :: ls)) with (qrun (qstep s l) ls). change (l :: ls) with ([l] ++ ls).
    rewrite arrived_app, produced_app, !app_assoc. change (qrun s [l]) with (qstep s l).
    apply IH.
    + apply qstep_exit; auto. intros ->. apply N. left. reflexivity.
    + intros H. apply N. right. exact H.
    + apply qinv_step; auto.
Qed.
Lemma qinv_0 : qinv q0 [] [].
Proof. split; cbn; auto; try discriminate. Qed.

Lemma relay_inv ls : no_exit ls -> qinv (qrun q0 ls) (arrived ls) (produced q0 ls) /\ q_exit (qrun q0 ls) = false.
Proof. intros N. apply (qinv_runs ls q0 [] [] eq_refl N qinv_0). Qed.

(** well-formed requests: the thread does not die *)
Lemma not_dead s a p : qinv s a p -> ~ In None a -> q_pc s <> QDead.
Proof.
  intros V N E. destruct (qi_dead _ _ _ V E) as (l & ->). apply N. apply in_or_app. right. left. reflexivity.
Qed.

(** ** progress of the polling thread *)
Lemma qrun1_in s m : In m (q_in (qrun1 s)) -> In m (q_in s).
Proof.
  destruct s as [qi qr ev pc ex dn out]. unfold qrun1. cbn [q_pc q_in q_ret]. destruct pc as [|[] c|[]| |]; cbn; auto; destruct qr as [|[]], qi as [|[]]; cbn; tauto.
Qed.
(** [pending]: steps to go; a cycle of three steps takes away at least one message *)
Definition pending (s : qst) : nat :=
  match q_pc s with
  | QPoll => 3 * (List.length (q_ret s) + List.length (q_in s))
  | QRet true true => 2 + 3 * (List.length (q_ret s) + List.length (q_in s) - 2)
  | QRet _ _ => 2 + 3 * (List.length (q_ret s) + List.length (q_in s) - 1)
  | QRpc true => 1 + 3 * (List.length (q_ret s) + List.length (q_in s) - 1)
  | QRpc false => 1 + 3 * (List.length (q_ret s) + List.length (q_in s))
  | _ => 0
  end.
Lemma pending_run s a p : qinv s a p -> q_pc s <> QDead -> ~ In None (q_in s) -> pending (qrun1 s) <= pending s - 1 /\ q_pc (qrun1 s) <> QDead.
Proof.
  intros [PC L _ _ _] N W. destruct s as [qi qr ev pc ex dn out].
  unfold qrun1, pc_ok, pending in *. cbn [q_pc q_in q_ret q_events q_exit q_done q_out] in *.
  destruct pc as [|b c|c| |]; try congruence.
  - destruct qr as [|r qr], qi as [|m qi]; cbn [q_pc q_in q_ret List.length]; (split; [lia|discriminate]).
  - destruct PC as (P1 & P2 & P3). destruct b.
    + destruct qr as [|[nm dt] qr]; [exfalso; apply P1; reflexivity|]. unfold is_stop. cbn [q_pc q_in q_ret List.length].
      split; [|discriminate]. destruct c; [|lia]. destruct qi; [exfalso; apply P2; reflexivity|]. cbn [List.length]. lia.
    + cbn [orb] in P3. subst c. destruct qi; [exfalso; apply P2; reflexivity|]. cbn [q_pc q_in q_ret List.length]. split; [lia|discriminate].
  - destruct c.
    + destruct qi as [|[m|] qi]; [exfalso; apply PC; reflexivity| |exfalso; apply W; left; reflexivity].
      cbn [q_pc q_in q_ret List.length]. split; [lia|discriminate].
    + cbn [q_pc q_in q_ret]. split; [lia|discriminate].
Qed.
Lemma drain m : forall s a p, qinv s a p -> q_exit s = false -> q_pc s <> QDead -> ~ In None (q_in s) -> pending s <= m ->
  let s' := qrun s (repeat QRun m) in qinv s' a p /\ pending s' = 0 /\ q_pc s' <> QDead.
Proof.
  induction m as [|m IH]; intros s a p V X N W P; cbn [repeat].
  - cbn. split; auto. split; [lia|auto].
  - change (qrun s (QRun :: repeat QRun m)) with (qrun (qstep s QRun) (repeat QRun m)).
    assert (E : qstep s QRun = qrun1 s) by (unfold qstep; rewrite X; reflexivity). rewrite E.
    destruct (pending_run s a p V N W) as [Q R]. apply IH; auto.
    + apply qinv_run, V.
    + rewrite <- E. apply qstep_exit; [exact X|discriminate].
    + intros H. apply W, qrun1_in, H.
    + lia.
Qed.
Lemma pending_0 s a p : qinv s a p -> q_pc s <> QDead -> pending s = 0 -> q_ret s = [] /\ q_in s = [].
Proof.
  intros V N P. pose proof (qi_live _ _ _ V) as L. unfold pending in P. destruct (q_pc s) as [|[] []|[]| |]; try lia; try congruence.
  destruct (q_ret s), (q_in s); cbn in P; try lia. auto.
Qed.
