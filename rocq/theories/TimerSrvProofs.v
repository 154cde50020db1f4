From Verif Require Import Py TimerSrvModel TimerSrvSpec.
Local Open Scope list_scope.

Section Proofs.
  Variable K : tcfg.

  Lemma vrun_app a : forall s b, vrun K s (a ++ b) = match vrun K s a with Some s' => vrun K s' b | None => None end.
  Proof. induction a as [|l a IH]; intros s b; cbn [app vrun]; [reflexivity|]. destruct (vstep K s l); auto. Qed.
  Lemma vrun_inv (P : tsv -> Prop) : (forall s l s', P s -> vstep K s l = Some s' -> P s') ->
    forall ls s s', P s -> vrun K s ls = Some s' -> P s'.
  Proof.
    intros H. induction ls as [|l ls IH]; intros s s' Hp Hr; cbn [vrun] in Hr; [inversion Hr; subst; auto|].
    destruct (vstep K s l) as [s1|] eqn:E; [|discriminate]. eauto.
  Qed.
  Lemma begun_app a b : begun (a ++ b) = begun a ++ begun b.
  Proof. induction a as [|[t []] a IH]; cbn; auto. rewrite IH. reflexivity. Qed.

  (** the requests of the timer at the server *)
  Definition mine (l : list job) : list nat := flat_map (fun j => match j with Mine i => [i] | Other => [] end) l.
  Lemma mine_app a b : mine (a ++ b) = mine a ++ mine b.
  Proof. apply flat_map_app. Qed.

  Record good (s : tsv) : Prop := {
    g_order : begun (v_log s) ++ mine (v_queue s) = seq 0 (v_count s);
    g_sent : forall t i, In (t, Sent i) (v_log s) -> (i < v_count s)%nat /\ t <= v_now s;
    g_begin : forall t i, In (t, Begin i) (v_log s) -> exists t0, In (t0, Sent i) (v_log s) /\ t0 <= t;
    g_past : forall t e, In (t, e) (v_log s) -> t <= v_now s;
    g_all : forall i, (i < v_count s)%nat -> exists t, In (t, Sent i) (v_log s);
    g_last : forall t i, In (t, Sent i) (v_log s) -> exists tl, v_last s = Some tl /\ t <= tl /\ (i = pred (v_count s) -> t = tl);
    g_spaced : forall t t' i j, In (t, Sent i) (v_log s) -> In (t', Sent j) (v_log s) -> (i < j)%nat -> t + k_interval K <= t';
    g_same : forall t t' i, In (t, Sent i) (v_log s) -> In (t', Sent i) (v_log s) -> t = t';
    g_end : forall t i, In (t, End i) (v_log s) -> exists t0, In (t0, Begin i) (v_log s) /\ t0 <= t
  }.
  Lemma good0 now : good (tsv0 now).
  Proof. constructor; cbn; try contradiction; try reflexivity; intros; lia. Qed.

  (** a step that logs nothing, or only the end of an execution or of the timer *)
  Lemma good_more s s' es : good s -> v_log s' = v_log s ++ es -> begun (v_log s') ++ mine (v_queue s') = begun (v_log s) ++ mine (v_queue s) ->
    v_count s' = v_count s -> v_now s <= v_now s' -> v_last s' = v_last s ->
    (forall t e, In (t, e) es -> t = v_now s' /\ match e with Sent _ => False | Begin i => In i (mine (v_queue s)) | End i => exists t0, In (t0, Begin i) (v_log s) | Over _ => True end) -> good s'.
  Proof.
    intros G L O C N La H. destruct G as [A1 A2 A3 A4 A5 A6 A7 A8 A9].
    assert (S : forall t i, In (t, Sent i) (v_log s') -> In (t, Sent i) (v_log s)).
    { intros t i X. rewrite L in X. apply in_app_or in X. destruct X as [X|X]; [exact X|]. destruct (H _ _ X) as [_ []]. }
    assert (M : forall t e, In (t, e) (v_log s) -> In (t, e) (v_log s')) by (intros; rewrite L; apply in_or_app; auto).
    constructor.
    - rewrite O, C. exact A1.
    - intros t i X. apply S in X. destruct (A2 _ _ X). rewrite C. split; [auto|lia].
    - intros t i X. rewrite L in X. apply in_app_or in X. destruct X as [X|X].
      + destruct (A3 _ _ X) as (t0 & Y & Z). eauto.
      + destruct (H _ _ X) as [-> Y]. assert (Hi : (i < v_count s)%nat).
        { assert (Z : In i (seq 0 (v_count s))) by (rewrite <- A1; apply in_or_app; auto). apply in_seq in Z. lia. }
        destruct (A5 i Hi) as (t0 & Y0). exists t0. split; [auto|]. destruct (A2 _ _ Y0). lia.
    - intros t e X. rewrite L in X. apply in_app_or in X. destruct X as [X|X]; [specialize (A4 _ _ X); lia|]. destruct (H _ _ X) as [-> _]. lia.
    - intros i X. rewrite C in X. destruct (A5 i X) as (t & Y). eauto.
    - intros t i X. apply S in X. rewrite La, C. eauto.
    - intros t t' i j X Y. apply S in X, Y. eauto.
    - intros t t' i X Y. apply S in X, Y. eauto.
    - intros t i X. rewrite L in X. apply in_app_or in X. destruct X as [X|X].
      + destruct (A9 _ _ X) as (t0 & Y & Z). eauto.
      + destruct (H _ _ X) as [-> (t0 & Y)]. exists t0. split; [auto|]. specialize (A4 _ _ Y). lia.
  Qed.

  (** what is being executed has begun *)
  Definition exec_ok (s : tsv) : Prop := forall i, v_exec s = Some (Mine i) -> exists t, In (t, Begin i) (v_log s).

  Lemma good_step s l s' : good s /\ exec_ok s -> vstep K s l = Some s' -> good s' /\ exec_ok s'.
  Proof.
    intros [G X] H. destruct l; cbn [vstep] in H.
    - destruct (_ && _) eqn:E; [|discriminate]. inversion H; subst; clear H. apply andb_prop in E. destruct E as [E _]. apply Z.leb_le in E. split.
      + eapply (good_more s _ []); eauto; cbn; try reflexivity; try lia; try contradiction. symmetry. apply app_nil_r.
      + exact X.
    - destruct (v_wait s); [discriminate|]. destruct (v_over s); [discriminate|]. destruct (due K s) eqn:D; [|discriminate]. inversion H; subst; clear H. split.
      2: { intros i Y. destruct (X i Y) as (t & Z). exists t. cbn. apply in_or_app. auto. }
      destruct G as [A1 A2 A3 A4 A5 A6 A7 A8 A9].
      assert (S : forall t i, In (t, Sent i) (v_log s ++ [(v_now s, Sent (v_count s))]) -> In (t, Sent i) (v_log s) \/ (t = v_now s /\ i = v_count s)).
      { intros t i Y. apply in_app_or in Y. destruct Y as [Y|[Y|[]]]; [auto|]. inversion Y; subst. auto. }
      assert (Due : forall t i, In (t, Sent i) (v_log s) -> t + k_interval K <= v_now s).
      { intros t i Y. destruct (A6 _ _ Y) as (tl & L & Le & _). unfold due in D. rewrite L in D. apply Z.leb_le in D. lia. }
      constructor; cbn [v_log v_queue v_count v_now v_last].
      + rewrite begun_app, mine_app. cbn [begun mine flat_map app]. rewrite app_nil_r, app_assoc, A1. symmetry. apply seq_S.
      + intros t i Y. apply S in Y. destruct Y as [Y|[-> ->]]; [destruct (A2 _ _ Y); lia|lia].
      + intros t i Y. apply in_app_or in Y. destruct Y as [Y|[Y|[]]]; [|discriminate]. destruct (A3 _ _ Y) as (t0 & Z & Le). exists t0. split; [apply in_or_app; auto|exact Le].
      + intros t e Y. apply in_app_or in Y. destruct Y as [Y|[Y|[]]]; [eauto|]. inversion Y; subst. lia.
      + intros i Y. destruct (Nat.eq_dec i (v_count s)) as [->|N]; [exists (v_now s); apply in_or_app; right; left; reflexivity|].
        destruct (A5 i ltac:(lia)) as (t & Z). exists t. apply in_or_app. auto.
      + intros t i Y. exists (v_now s). split; [reflexivity|]. apply S in Y. destruct Y as [Y|[-> ->]]; [|lia]. destruct (A2 _ _ Y). split; [lia|]. cbn. lia.
      + intros t t' i j Y Z L. apply S in Y, Z. destruct Y as [Y|[-> ->]], Z as [Z|[-> ->]]; [eauto|eauto|destruct (A2 _ _ Z); lia|lia].
      + intros t t' i Y Z. apply S in Y, Z. destruct Y as [Y|[-> ->]], Z as [Z|[-> ?]]; [eauto|subst; destruct (A2 _ _ Y); lia|destruct (A2 _ _ Z); lia|reflexivity].
      + intros t i Y. apply in_app_or in Y. destruct Y as [Y|[Y|[]]]; [|discriminate]. destruct (A9 _ _ Y) as (t0 & Z & Le). exists t0. split; [apply in_or_app; auto|exact Le].
    - inversion H; subst; clear H. split; [|exact X].
      eapply (good_more s _ []); eauto; cbn; try reflexivity; try lia; try contradiction; [symmetry; apply app_nil_r|]. rewrite mine_app. cbn. rewrite app_nil_r. reflexivity.
    - destruct (v_exec s) eqn:Ex; [discriminate|]. destruct (v_queue s) as [|j q] eqn:Q; [discriminate|]. inversion H; subst; clear H. split.
      + eapply good_more; eauto; cbn [v_log v_queue v_count v_now v_last]; try reflexivity; try lia.
        * rewrite begun_app, Q. destruct j; cbn; rewrite <- ?app_assoc; cbn; rewrite ?app_nil_r; reflexivity.
        * intros t e Y. destruct j; [|contradiction]. destruct Y as [Y|[]]. inversion Y; subst. split; [reflexivity|]. rewrite Q. left. reflexivity.
      + intros i Y. cbn in Y. inversion Y; subst. cbn. exists (v_now s). apply in_or_app. right. left. reflexivity.
    - destruct (v_exec s) as [[i|]|] eqn:Ex; try discriminate; inversion H; subst; clear H.
      + destruct (X i Ex) as (t0 & B). split; [|discriminate].
        eapply good_more; eauto; cbn [v_log v_queue v_count v_now v_last]; try reflexivity; try lia.
        * rewrite begun_app. cbn. rewrite app_nil_r. reflexivity.
        * intros t e' [Y|[]]. inversion Y; subst. split; eauto.
      + split; [|discriminate]. eapply (good_more s _ []); eauto; cbn; try reflexivity; try lia; try contradiction. symmetry. apply app_nil_r.
    - destruct (v_wait s) as [[i t]|]; [|discriminate]. destruct (v_inbox s) as [|[j e] r]; [discriminate|]. 
      assert (W : forall es s', (forall x, In x es -> exists o, x = (v_now s, Over o)) -> v_log s' = v_log s ++ es -> v_queue s' = v_queue s -> v_count s' = v_count s ->
        v_now s' = v_now s -> v_last s' = v_last s -> v_exec s' = v_exec s -> good s' /\ exec_ok s').
      { intros es s1 He L1 L2 L3 L4 L5 L6. split.
        - apply (good_more s s1 es); auto; try lia.
          + rewrite L1, L2, begun_app. replace (begun es) with (@nil nat); [rewrite app_nil_r; reflexivity|].
            clear - He. induction es as [|x es IH]; [reflexivity|]. destruct (He x (or_introl eq_refl)) as (o & ->). cbn. apply IH. intros y Y. apply He. right. exact Y.
          + intros t0 e0 Y. destruct (He _ Y) as (o & E). inversion E; subst. split; [congruence|exact I].
        - intros i0 Y. rewrite L6 in Y. destruct (X i0 Y) as (t0 & B). exists t0. rewrite L1. apply in_or_app. auto. }
      destruct (Nat.eqb i j); [|inversion H; subst; apply (W []); auto; [contradiction|symmetry; apply app_nil_r]].
      destruct e as [x|]; [inversion H; subst; apply (W [(v_now s, Over (Some x))]); auto; intros y [<-|[]]; eauto|].
      destruct (reached K (S i)); inversion H; subst; [apply (W [(v_now s, Over None)]); auto; intros y [<-|[]]; eauto|apply (W []); auto; [contradiction|symmetry; apply app_nil_r]].
    - destruct (v_wait s) as [[i t]|]; [|discriminate]. destruct (_ <=? _); [|discriminate]. inversion H; subst; clear H. split.
      + eapply good_more; eauto; cbn [v_log v_queue v_count v_now v_last]; try reflexivity; try lia.
        * rewrite begun_app. cbn. rewrite app_nil_r. reflexivity.
        * intros t0 e [Y|[]]. inversion Y; subst. auto.
      + intros j Y. cbn in Y. destruct (X j Y) as (t0 & B). exists t0. cbn. apply in_or_app. auto.
  Qed.
  Lemma good_run now ls s : vrun K (tsv0 now) ls = Some s -> good s.
  Proof.
    intros H. refine (proj1 (vrun_inv (fun s => good s /\ exec_ok s) _ ls (tsv0 now) s _ H)); [intros; eapply good_step; eauto|].
    split; [apply good0|]. intros i E. discriminate E.
  Qed.

  Lemma executed_in_order now ls s : vrun K (tsv0 now) ls = Some s -> exists n, begun (v_log s) = seq 0 n /\ (n <= v_count s)%nat.
  Proof.
    intros H. pose proof (g_order _ (good_run _ _ _ H)) as E. exists (List.length (begun (v_log s))).
    assert (L : (List.length (begun (v_log s)) <= v_count s)%nat).
    { rewrite <- (seq_length (v_count s) 0), <- E, app_length. lia. }
    split; [|exact L]. replace (v_count s) with (List.length (begun (v_log s)) + (v_count s - List.length (begun (v_log s))))%nat in E by lia.
    rewrite seq_app in E. apply app_eq_app in E. destruct E as (l & [[E1 E2]|[E1 E2]]).
    - assert (l = []) by (apply length_zero_iff_nil; pose proof (f_equal (@List.length nat) E1) as F; rewrite app_length, seq_length in F; lia). subst. rewrite app_nil_r in E1. exact E1.
    - assert (l = []) by (apply length_zero_iff_nil; pose proof (f_equal (@List.length nat) E1) as F; rewrite app_length, seq_length in F; lia). subst. rewrite app_nil_r in E1. auto.
  Qed.
  Lemma executions_bound now ls s t t' i : vrun K (tsv0 now) ls = Some s ->
    at_time s t (Begin i) -> at_time s t' (Begin (S i)) -> exists t0, at_time s t0 (Sent i) /\ t0 <= t /\ t0 + k_interval K <= t'.
  Proof.
    intros H A B. pose proof (good_run _ _ _ H) as G. destruct (g_begin _ G _ _ A) as (t0 & S0 & L0). destruct (g_begin _ G _ _ B) as (t1 & S1 & L1).
    exists t0. split; [exact S0|]. split; [exact L0|]. pose proof (g_spaced _ G _ _ _ _ S0 S1 ltac:(lia)). lia.
  Qed.
End Proofs.
