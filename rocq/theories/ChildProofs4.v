From Verif Require Import Py ChildModel ChildSpec ChildProofs ChildProofs2.
Local Open Scope list_scope.

(** * wait() when the child has exited and all its pipes are hung up *)
Definition weight (p : pipe) : nat := (List.length (pp_buf p) + if pp_open p then 1 else 0)%nat.
Definition load (l : list pipe) : nat := list_sum (map weight l).
Definition all_over (l : list pipe) : Prop := forall p, In p l -> pp_writers p = false.

Lemma take_over n p : pp_writers p = false -> pp_writers (take n p) = false.
Proof. unfold take. destruct (pp_buf p); auto. Qed.
Lemma take_lighter n p : (0 < n)%nat -> readable p = true -> (weight (take n p) < weight p)%nat.
Proof.
  unfold readable, take, weight. intros Hn. destruct (pp_open p); [|discriminate]. cbn [andb].
  destruct (pp_buf p) as [|b l]; cbn [pp_buf pp_open List.length]; [lia|]. intros _. rewrite skipn_length. cbn [List.length]. lia.
Qed.
Lemma update_over l i n : all_over l -> all_over (update l i (take n)).
Proof.
  intros H p Hp. apply In_nth_error in Hp. destruct Hp as [j Hj]. rewrite nth_update in Hj. destruct (Nat.eqb j i).
  - destruct (nth_error l j) as [q|] eqn:E; [|discriminate]. inversion Hj; subst. apply take_over, H. eapply nth_error_In; eauto.
  - apply H. eapply nth_error_In; eauto.
Qed.
Lemma load_update l : forall i n, (0 < n)%nat -> (exists p, nth_error l i = Some p /\ readable p = true) ->
  (load (update l i (take n)) < load l)%nat.
Proof.
  unfold load. induction l as [|q l IH]; intros i n Hn (p & Hp & R); [destruct i; discriminate|].
  destruct i as [|i]; cbn [update map list_sum fold_right] in *.
  - cbn in Hp. inversion Hp; subst. pose proof (take_lighter n p Hn R). unfold list_sum. lia.
  - specialize (IH i n Hn (ex_intro _ p (conj Hp R))). unfold list_sum in *. lia.
Qed.
Lemma open_readable l : all_over l -> existsb pp_open l = true -> existsb readable l = true /\ positions 0 l <> [].
Proof.
  intros H E. assert (G : forall i, existsb readable l = true /\ positions i l <> []).
  { revert H E. induction l as [|p l IH]; intros H E i; cbn in E; [discriminate|]. cbn [existsb positions].
    destruct (readable p) eqn:R; [split; [reflexivity|discriminate]|].
    assert (pp_open p = false).
    { unfold readable in R. rewrite (H p (or_introl eq_refl)) in R. destruct (pp_open p); [destruct (pp_buf p); discriminate|reflexivity]. }
    rewrite H0 in E. cbn [orb app] in *. apply IH; auto. intros q Hq. apply H. right. exact Hq. }
  apply G.
Qed.
Lemma repeat_go a b : repeat LGo (a + b) = repeat LGo a ++ repeat LGo b.
Proof. apply repeat_app. Qed.

Section Over.
  Variable K : ccfg.
  Hypothesis C0 : (0 < k_chunk K)%nat.

  (** reading what select has reported *)
  Lemma reads_all r : forall s start fin t0,
    c_phase s = PRead start fin r t0 -> all_over (c_pipes s) -> NoDup r ->
    (forall i, In i r -> exists p, nth_error (c_pipes s) i = Some p /\ readable p = true) ->
    exists k l, crun K s (repeat LGo k) = Some (at_phase (with_pipes s l) (PTop start fin (c_now s))) /\ all_over l /\
      (load l <= load (c_pipes s))%nat /\ (r <> [] -> (load l < load (c_pipes s))%nat).
  Proof.
    induction r as [|i r IH]; intros s start fin t0 Hp Ho Hn Hr.
    - exists 1%nat, (c_pipes s). cbn. unfold go. rewrite Hp. split; [reflexivity|]. split; [exact Ho|]. split; [lia|contradiction].
    - inversion Hn as [|x y N1 N2]; subst. destruct (Hr i (or_introl eq_refl)) as (p & P1 & P2).
      set (s1 := at_phase (with_pipes s (update (c_pipes s) i (take (k_chunk K)))) (PRead start fin r (c_now s))).
      assert (G : go K s = Some s1).
      { unfold go. rewrite Hp. unfold blocked. rewrite P1, P2. reflexivity. }
      destruct (IH s1 start fin (c_now s) eq_refl) as (k & l & R1 & R2 & R3 & R4).
      + apply update_over; auto.
      + exact N2.
      + intros j Hj. cbn [s1 at_phase with_pipes c_pipes]. rewrite nth_update.
        replace (Nat.eqb j i) with false by (symmetry; apply Nat.eqb_neq; intros ->; contradiction). apply Hr. right. exact Hj.
      + exists (S k), l. cbn [repeat crun cstep]. rewrite G. split; [exact R1|]. split; [exact R2|].
        pose proof (load_update (c_pipes s) i (k_chunk K) C0 (ex_intro _ p (conj P1 P2))) as L.
        cbn [s1 at_phase with_pipes c_pipes] in R3. split; lia.
  Qed.
  Lemma drains m : forall s start fin t0 c, (load (c_pipes s) < m)%nat -> c_phase s = PTop start fin t0 -> all_over (c_pipes s) ->
    c_exit s = Some c -> c_now s <= fin ->
    exists k s', crun K s (repeat LGo k) = Some s' /\ c_log s' = c_log s ++ [(c_now s, EvReturn (c_call s) (Some c))] /\ c_phase s' = PIdle.
  Proof.
    induction m as [|m IH]; intros s start fin t0 c Hm Hp Ho Hc Hf; [lia|].
    destruct (existsb pp_open (c_pipes s)) eqn:E.
    - destruct (open_readable _ Ho E) as [R1 R2].
      set (s1 := at_phase s (PSelect start fin (c_now s + up_ms (fin - c_now s)))).
      set (s2 := at_phase s1 (PRead start fin (positions 0 (c_pipes s)) (c_now s))).
      assert (G1 : go K s = Some s1).
      { unfold go. rewrite Hp, E. replace (fin - c_now s <? 0) with false by (symmetry; apply Z.ltb_ge; lia). reflexivity. }
      assert (G2 : go K s1 = Some s2).
      { unfold go. cbn [s1 at_phase c_phase c_pipes c_now]. rewrite R1. cbn [orb].
        replace (fin <? c_now s) with false by (symmetry; apply Z.ltb_ge; lia). reflexivity. }
      destruct (reads_all _ s2 start fin (c_now s) eq_refl Ho (positions_nodup _ _)) as (k & l & Q1 & Q2 & Q3 & Q4).
      { intros i Hi. apply positions_readable in Hi. rewrite Nat.sub_0_r in Hi. exact Hi. }
      specialize (Q4 R2). cbn [s2 s1 at_phase c_pipes] in Q4.
      destruct (IH (at_phase (with_pipes s2 l) (PTop start fin (c_now s2))) start fin (c_now s2) c) as (k' & s' & W1 & W2 & W3); auto.
      { cbn [at_phase with_pipes c_pipes]. lia. }
      exists (S (S (k + k'))), s'. cbn [repeat crun cstep]. rewrite G1. rewrite G2. rewrite repeat_go, crun_app, Q1. auto.
    - exists 3%nat. eexists. cbn [repeat crun cstep]. unfold go at 1. rewrite Hp, E.
      unfold go at 1. cbn [at_phase c_phase c_exit]. rewrite Hc. unfold go at 1. cbn [at_phase c_phase c_exit]. rewrite Hc.
      split; [reflexivity|]. split; reflexivity.
  Qed.
  Lemma waits_over s timeout c : c_phase s = PIdle -> c_exit s = Some c -> all_over (c_pipes s) -> 0 <= timeout ->
    exists k s', crun K s (LCall CWait timeout :: repeat LGo k) = Some s' /\
      c_log s' = c_log s ++ [(c_now s, EvCall CWait timeout); (c_now s, EvReturn CWait (Some c))] /\ c_phase s' = PIdle.
  Proof.
    intros Hp Hc Ho Ht. set (s1 := begin_call s CWait timeout).
    set (s2 := at_phase s1 (PTop (c_now s) (c_now s + timeout) (c_now s))).
    destruct (drains (S (load (c_pipes s2))) s2 (c_now s) (c_now s + timeout) (c_now s) c) as (k & s' & W1 & W2 & W3); auto.
    - cbn. lia.
    - exists (S k), s'. cbn [repeat crun cstep]. rewrite Hp. fold s1. change (go K s1) with (Some s2). split; [exact W1|].
      split; [|exact W3]. rewrite W2. cbn [s2 s1 begin_call at_phase c_log c_now c_call]. rewrite <- app_assoc. reflexivity.
  Qed.
End Over.

(** the return code is that of the exit in the log *)
Lemma step_exit K s l s' : cstep K s l = Some s' ->
  (c_exit s' = c_exit s /\ forall c, exited_with c (c_log s') -> exited_with c (c_log s)) \/
  (c_exit s = None /\ exists t c, c_exit s' = Some c /\ c_log s' = c_log s ++ [(t, EvExit c)]).
Proof.
  assert (W : forall s e c, (forall c', e <> EvExit c') -> exited_with c (c_log (happened s e)) -> exited_with c (c_log s)).
  { intros x e c Hn H. cbn [happened c_log] in H. apply exited_with_snoc in H. destruct H as [H|H]; [exact H|]. apply Hn in H. contradiction. }
  intros H. destruct l; cbn [cstep] in H.
  - destr_if H. inversion H; subst. left. auto.
  - inversion H; subst. left. auto.
  - inversion H; subst. left. auto.
  - destruct (c_exit s) eqn:E; [discriminate|]. inversion H; subst. right. split; [reflexivity|]. cbn. eauto.
  - inversion H; subst. left. auto.
  - destruct (c_phase s); try discriminate. inversion H; subst. left. unfold begin_call.
    destruct k; [|destruct (c_exit s) eqn:E|destruct (c_exit s) eqn:E]; cbn [returns at_phase happened c_exit c_log]; (split; [auto|]);
      intros c X; repeat (apply exited_with_snoc in X; destruct X as [X|X]; [|discriminate]); exact X.
  - destruct (c_phase s); try discriminate. left.
    destruct r as [[|]|e]; inversion H; subst; (split; [reflexivity|]); intros c X; auto; (eapply W; [|exact X]); discriminate.
  - destruct (c_phase s); try discriminate. destr_if H. inversion H; subst. left. auto.
  - left. unfold go in H. destruct (c_phase s) eqn:Hp; try discriminate; try destruct ready; destr_if H; inversion H; subst;
      (split; [reflexivity || (cbn; assumption) || (cbn; symmetry; assumption)|]); intros c X; auto; (eapply W; [|exact X]); discriminate.
Qed.
Lemma exit_known K t n ls s c : crun K (new_child t n) ls = Some s -> exited_with c (c_log s) -> c_exit s = Some c.
Proof.
  intros H. revert c.
  assert (G : good s /\ forall c, exited_with c (c_log s) -> c_exit s = Some c).
  2: exact (proj2 G).
  refine (crun_inv K (fun s => good s /\ forall c, exited_with c (c_log s) -> c_exit s = Some c) (fun _ => True) _ ls (new_child t n) s _ (all_true ls) H).
  - intros x l x' [Gx Hx] _ Hs. split; [eapply good_step; eauto|]. intros c Hc.
    destruct (step_exit K x l x' Hs) as [[E1 E2]|(E1 & t1 & c1 & E2 & E3)].
    + rewrite E1. auto.
    + rewrite E3 in Hc. apply exited_with_snoc in Hc. destruct Hc as [Hc|Hc]; [apply Hx in Hc; congruence|]. inversion Hc; subst. exact E2.
  - split; [apply good_new|]. intros c (t' & []).
Qed.
