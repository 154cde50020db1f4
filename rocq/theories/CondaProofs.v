(** Lemmas about handles. *)
From Verif Require Import Py CondaModel CondaSpec.
Local Open Scope Z_scope.

Lemma same_step o : forall s, p_first s = p_server s -> p_first (pstep Direct s o) = p_server (pstep Direct s o).
Proof. intros [f v] E. cbn in E. subst v. destruct o, f; reflexivity. Qed.
Lemma same os : forall s, p_first s = p_server s -> p_first (fold_left (pstep Direct) os s) = p_server (fold_left (pstep Direct) os s).
Proof. induction os as [|o os IH]; intros s E; [exact E|]. cbn. apply IH, same_step, E. Qed.
Lemma stays h os c : forall s, p_first s = Some c -> p_server s = Some c -> fold_left (pstep h) os s = s.
Proof.
  induction os as [|o os IH]; intros [f v] A B; [reflexivity|]. cbn in A, B. subst. cbn. 
  replace (pstep h (mkP (Some c) (Some c)) o) with (mkP (Some c) (Some c)); [apply IH; reflexivity|]. destruct o; reflexivity.
Qed.
Lemma first_counts o os : poll (prun Direct (o :: os)) = Some (code_of o) /\ ~ serves (prun Direct (o :: os)).
Proof.
  unfold prun. cbn [fold_left]. replace (pstep Direct pst0 o) with (mkP (Some (code_of o)) (Some (code_of o))) by (destruct o; reflexivity).
  rewrite (stays Direct os (code_of o)) by reflexivity. split; [reflexivity|discriminate].
Qed.
Lemma poll_iff os : poll (prun Direct os) = None <-> serves (prun Direct os).
Proof. unfold poll, serves. rewrite (same os pst0 eq_refl : p_first (prun Direct os) = _). reflexivity. Qed.
Lemma no_kill h os : forall s, p_first s = p_server s -> ~ In PKill os -> p_first (fold_left (pstep h) os s) = p_server (fold_left (pstep h) os s).
Proof.
  induction os as [|o os IH]; intros s E N; [exact E|]. cbn. apply IH; [|intro I; apply N; right; exact I].
  destruct s as [f v]. cbn in E. subst v. destruct o; [exfalso; apply N; now left| |]; destruct f; reflexivity.
Qed.
Lemma stop_ends h os : ~ In PKill os -> ~ serves (fst (stop h (prun h os))).
Proof.
  intro N. pose proof (no_kill h os pst0 eq_refl N) as E. fold (prun h os) in E. destruct (prun h os) as [f v]. cbn in E. subst v.
  unfold stop, poll. cbn. destruct f; cbn; discriminate.
Qed.
Lemma conda_stuck os : forall s, p_first s <> None -> (forall c, ~ In (PExits c) os) -> fold_left (pstep Conda) os s = s.
Proof.
  induction os as [|o os IH]; intros [f v] A N; [reflexivity|]. cbn in A. destruct f as [f|]; [|congruence]. cbn.
  replace (pstep Conda (mkP (Some f) v) o) with (mkP (Some f) v); [apply IH; [discriminate|intros c I; apply (N c); right; exact I]|].
  destruct o; try reflexivity. exfalso. apply (N code). now left.
Qed.
Lemma left_over os : (forall c, ~ In (PExits c) os) ->
  poll (prun Conda (PKill :: os)) = Some (-9) /\ serves (prun Conda (PKill :: os)).
Proof. intro N. unfold prun. cbn [fold_left]. rewrite conda_stuck; [split; reflexivity|discriminate|exact N]. Qed.
