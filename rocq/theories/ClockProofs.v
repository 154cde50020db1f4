(** Proofs about the clock offset. *)
From Verif Require Import Py ClockModel ClockSpec.
From Coq Require Import QArith Qabs Lqa.
Local Open Scope Q_scope.

Fixpoint difs (rounds : list (Q * Q)) : list Q :=
  match rounds with
  | [] => []
  | p :: r => match r with [] => [] | q :: _ => (snd p - ((fst q + fst p) * (1 # 2))) :: difs r end
  end.

Lemma readings_map rounds : readings rounds = (map fst rounds, map snd rounds).
Proof. induction rounds as [|[lt rt] r IH]; cbn; [reflexivity|]. rewrite IH. reflexivity. Qed.
Lemma dif_eq rounds :
  map (fun '(rt, lt1, lt2) => rt - ((lt1 + lt2) * (1 # 2)))
      (zip3 (removelast (map snd rounds)) (tl (map fst rounds)) (removelast (map fst rounds))) = difs rounds.
Proof.
  induction rounds as [|p [|q r] IH]; [reflexivity|reflexivity|].
  change (removelast (map snd (p :: q :: r))) with (snd p :: removelast (map snd (q :: r))).
  change (removelast (map fst (p :: q :: r))) with (fst p :: removelast (map fst (q :: r))).
  change (tl (map fst (p :: q :: r))) with (fst q :: tl (map fst (q :: r))).
  cbn [zip3]. rewrite map_cons, IH. reflexivity.
Qed.
Lemma estimate_eq rounds : estimate rounds = qsum (difs rounds) / qlen (difs rounds).
Proof. unfold estimate. rewrite readings_map, dif_eq. reflexivity. Qed.

Lemma fold_plus l a : fold_left Qplus l a == a + qsum l.
Proof.
  unfold qsum. revert a. induction l as [|x l IH]; intros a; cbn [fold_left]; [ring|].
  rewrite IH, (IH (0 + x)). ring.
Qed.
Lemma qsum_cons x l : qsum (x :: l) == x + qsum l.
Proof. unfold qsum at 1. cbn [fold_left]. rewrite fold_plus. ring. Qed.
Lemma qlen_cons x l : qlen (x :: l) == 1 + qlen l.
Proof. unfold qlen. cbn [List.length]. rewrite Nat2Z.inj_succ, <- Z.add_1_l, inject_Z_plus. reflexivity. Qed.

Lemma difs_length rounds : List.length (difs rounds) = (List.length rounds - 1)%nat.
Proof. induction rounds as [|p [|q r] IH]; [reflexivity|reflexivity|]. cbn [difs List.length] in *. rewrite IH. lia. Qed.

Lemma sum_bound off rounds : honest off rounds ->
  qlen (difs rounds) * off - span rounds * (1 # 2) <= qsum (difs rounds) <= qlen (difs rounds) * off + span rounds * (1 # 2).
Proof.
  induction rounds as [|p [|q r] IH]; intros H.
  - assert (Z : qlen (difs []) == 0) by reflexivity. assert (Z2 : span [] == 0) by reflexivity.
    assert (Z3 : qsum (difs []) == 0) by reflexivity. rewrite Z, Z2, Z3. lra.
  - assert (Z : qlen (difs [p]) == 0) by reflexivity. assert (Z2 : span [p] == 0) by (unfold span; cbn; ring).
    assert (Z3 : qsum (difs [p]) == 0) by reflexivity. rewrite Z, Z2, Z3. lra.
  - destruct p as [lt rt]. cbn [honest] in H. destruct H as [(s & E & L & U) H]. specialize (IH H).
    destruct q as [lt' rt']. change (difs ((lt, rt) :: (lt', rt') :: r)) with ((rt - ((lt' + lt) * (1 # 2))) :: difs ((lt', rt') :: r)).
    rewrite qsum_cons, qlen_cons.
    assert (S : span ((lt, rt) :: (lt', rt') :: r) == span ((lt', rt') :: r) + (lt' - lt)).
    { unfold span. cbn [hd fst]. change (last ((lt, rt) :: (lt', rt') :: r) (0, 0)) with (last ((lt', rt') :: r) (0, 0)). ring. }
    rewrite S. set (n := qlen (difs ((lt', rt') :: r))) in *. set (t := qsum (difs ((lt', rt') :: r))) in *.
    set (sp := span ((lt', rt') :: r)) in *. clearbody n t sp.
    assert (N : (1 + n) * off == off + n * off) by ring. rewrite N. set (no := n * off) in *. clearbody no. lra.
Qed.

Lemma estimate_bound off rounds : (2 <= List.length rounds)%nat -> honest off rounds ->
  Qabs (estimate rounds - off) <= (span rounds / trips rounds) * (1 # 2).
Proof.
  intros L H. rewrite estimate_eq. pose proof (sum_bound off rounds H) as B.
  assert (T : trips rounds = qlen (difs rounds)). { unfold trips, qlen. rewrite difs_length. reflexivity. }
  rewrite T. set (n := qlen (difs rounds)) in *. set (t := qsum (difs rounds)) in *. set (sp := span rounds) in *.
  assert (P : 0 < n).
  { unfold n, qlen. rewrite difs_length. change 0 with (inject_Z 0). rewrite <- Zlt_Qlt. lia. }
  clearbody n t sp.
  assert (E : t / n - off == (t - n * off) / n). { field. lra. }
  rewrite E. apply Qabs_Qle_condition.
  assert (E2 : sp / n * (1 # 2) == (sp * (1 # 2)) / n). { field. lra. }
  rewrite E2. split.
  - assert (E3 : - (sp * (1 # 2) / n) == (- (sp * (1 # 2))) / n) by (field; lra). rewrite E3.
    apply Qle_shift_div_l; auto. unfold Qdiv. rewrite <- Qmult_assoc, (Qmult_comm (/ n)), Qmult_inv_r by lra. lra.
  - apply Qle_shift_div_l; auto. unfold Qdiv. rewrite <- Qmult_assoc, (Qmult_comm (/ n)), Qmult_inv_r by lra. lra.
Qed.

Lemma sum_at_once off rounds : (forall lt rt, In (lt, rt) rounds -> rt == lt + off) ->
  qsum (difs rounds) == qlen (difs rounds) * off - span rounds * (1 # 2).
Proof.
  induction rounds as [|p [|q r] IH]; intros H.
  - reflexivity.
  - assert (Z : qlen (difs [p]) == 0) by reflexivity. assert (Z2 : span [p] == 0) by (unfold span; cbn; ring).
    assert (Z3 : qsum (difs [p]) == 0) by reflexivity. rewrite Z, Z2, Z3. ring.
  - specialize (IH (fun a b I => H a b (or_intror I))). destruct p as [lt rt]. assert (E : rt == lt + off) by (apply H; left; reflexivity).
    destruct q as [lt' rt']. change (difs ((lt, rt) :: (lt', rt') :: r)) with ((rt - ((lt' + lt) * (1 # 2))) :: difs ((lt', rt') :: r)).
    rewrite qsum_cons, qlen_cons, IH.
    assert (S : span ((lt, rt) :: (lt', rt') :: r) == span ((lt', rt') :: r) + (lt' - lt)).
    { unfold span. cbn [hd fst]. change (last ((lt, rt) :: (lt', rt') :: r) (0, 0)) with (last ((lt', rt') :: r) (0, 0)). ring. }
    rewrite S. set (sp := span ((lt', rt') :: r)). set (n := qlen (difs ((lt', rt') :: r))). clearbody sp n. rewrite E. field.
Qed.
Lemma estimate_at_once off rounds : (2 <= List.length rounds)%nat -> (forall lt rt, In (lt, rt) rounds -> rt == lt + off) ->
  off - estimate rounds == (span rounds / trips rounds) * (1 # 2).
Proof.
  intros L H. rewrite estimate_eq, (sum_at_once off rounds H).
  assert (T : trips rounds = qlen (difs rounds)). { unfold trips, qlen. rewrite difs_length. reflexivity. }
  rewrite T. assert (P : 0 < qlen (difs rounds)).
  { unfold qlen. rewrite difs_length. change 0 with (inject_Z 0). rewrite <- Zlt_Qlt. lia. }
  field. lra.
Qed.
