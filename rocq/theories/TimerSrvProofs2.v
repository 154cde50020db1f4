From Verif Require Import Py TimerSrvModel TimerSrvSpec TimerSrvProofs.
Local Open Scope list_scope.

Section Proofs.
  Variable K : tcfg.

  (** a call is only sent when the one before has been executed *)
  Record turn (s : tsv) : Prop := {
    u_inbox : forall j e, In (j, e) (v_inbox s) -> exists t, In (t, End j) (v_log s);
    u_wait : forall i t, v_wait s = Some (i, t) -> v_count s = S i /\ In (t, Sent i) (v_log s) /\ v_over s = false;
    u_idle : v_wait s = None -> v_over s = false -> forall i, v_count s = S i -> exists t, In (t, End i) (v_log s);
    u_past : forall t e, In (t, e) (v_log s) -> t <= v_now s;
    u_last : forall t i, In (t, Sent i) (v_log s) -> (i < v_count s)%nat;
    u_sent : forall t i, In (t, Sent (S i)) (v_log s) -> exists t0, In (t0, End i) (v_log s) /\ t0 <= t;
    u_over : forall t r, In (t, Over r) (v_log s) -> v_over s = true
  }.
  Lemma turn0 now : turn (tsv0 now).
  Proof. constructor; cbn; try contradiction; try discriminate; intros; discriminate. Qed.

  Ltac grow L := apply in_or_app; left; exact L.
  Ltac split_log H := apply in_app_or in H; destruct H as [H|H]; [|cbn in H; repeat (destruct H as [H|H]; [try discriminate H; inversion H; subst; clear H|]); try contradiction].

  Lemma turn_step s l s' : turn s -> vstep K s l = Some s' -> turn s'.
  Proof.
    intros [A1 A2 A3 A4 A5 A6 A7] H. destruct l; cbn [vstep] in H.
    - destruct (_ && _) eqn:E; [|discriminate]. inversion H; subst; clear H. apply andb_prop in E. destruct E as [E _]. apply Z.leb_le in E.
      constructor; cbn; eauto. intros t e X. specialize (A4 _ _ X). lia.
    - destruct (v_wait s) eqn:W; [discriminate|]. destruct (v_over s) eqn:O; [discriminate|]. destruct (due K s); [|discriminate]. inversion H; subst; clear H.
      constructor; cbn [v_log v_inbox v_wait v_over v_count v_now].
      + intros j e X. destruct (A1 _ _ X) as (t & Y). exists t. grow Y.
      + intros i t X. inversion X; subst. split; [reflexivity|]. split; [apply in_or_app; right; left; reflexivity|reflexivity].
      + discriminate.
      + intros t e X. split_log X; [eauto|lia].
      + intros t i X. split_log X; [specialize (A5 _ _ X); lia|lia].
      + intros t i X. split_log X.
        * destruct (A6 _ _ X) as (t0 & Y & L). exists t0. split; [grow Y|exact L].
        * destruct (A3 eq_refl eq_refl i ltac:(auto)) as (t0 & Y). exists t0. split; [grow Y|eauto].
      + intros t r X. split_log X. specialize (A7 _ _ X). discriminate.
    - inversion H; subst; clear H. constructor; cbn; eauto.
    - destruct (v_exec s) eqn:Ex; [discriminate|]. destruct (v_queue s) as [|j q]; [discriminate|]. inversion H; subst; clear H.
      assert (N : forall t e, In (t, e) (v_log s ++ match j with Mine i => [(v_now s, Begin i)] | Other => [] end) -> In (t, e) (v_log s) \/ (t = v_now s /\ exists i, e = Begin i)).
      { intros t e X. apply in_app_or in X. destruct X as [X|X]; [auto|]. destruct j; [|contradiction]. destruct X as [X|[]]. inversion X; subst. eauto. }
      constructor; cbn [v_log v_inbox v_wait v_over v_count v_now].
      + intros k e X. destruct (A1 _ _ X) as (t & Y). exists t. grow Y.
      + intros i t X. destruct (A2 _ _ X) as (B1 & B2 & B3). split; [exact B1|]. split; [grow B2|exact B3].
      + intros W O i C. destruct (A3 W O i C) as (t & Y). exists t. grow Y.
      + intros t e X. destruct (N _ _ X) as [Y|[-> _]]; [eauto|lia].
      + intros t i X. destruct (N _ _ X) as [Y|[_ [? Y]]]; [eauto|discriminate].
      + intros t i X. destruct (N _ _ X) as [Y|[_ [? Y]]]; [|discriminate]. destruct (A6 _ _ Y) as (t0 & Z & L). exists t0. split; [grow Z|exact L].
      + intros t r X. destruct (N _ _ X) as [Y|[_ [? Y]]]; [eauto|discriminate].
    - destruct (v_exec s) as [[i|]|] eqn:Ex; try discriminate; inversion H; subst; clear H; [|constructor; cbn; eauto].
      constructor; cbn [v_log v_inbox v_wait v_over v_count v_now].
      + intros j e' X. apply in_app_or in X. destruct X as [X|[X|[]]].
        * destruct (A1 _ _ X) as (t & Y). exists t. grow Y.
        * inversion X; subst. exists (v_now s). apply in_or_app. right. left. reflexivity.
      + intros k t X. destruct (A2 _ _ X) as (B1 & B2 & B3). split; [exact B1|]. split; [grow B2|exact B3].
      + intros W O k C. destruct (A3 W O k C) as (t & Y). exists t. grow Y.
      + intros t e' X. split_log X; [eauto|lia].
      + intros t k X. split_log X. eauto.
      + intros t k X. split_log X. destruct (A6 _ _ X) as (t0 & Y & L). exists t0. split; [grow Y|exact L].
      + intros t r X. split_log X. eauto.
    - destruct (v_wait s) as [[i t]|] eqn:W; [|discriminate]. destruct (v_inbox s) as [|[j e] r] eqn:Q; [discriminate|].
      destruct (A2 _ _ eq_refl) as (B1 & B2 & B3). destruct (A1 j e (or_introl eq_refl)) as (te & Te).
      assert (A1' : forall k x, In (k, x) r -> exists t0, In (t0, End k) (v_log s)) by (intros k x X; apply (A1 k x); right; exact X).
      destruct (Nat.eqb i j) eqn:Eij; [apply Nat.eqb_eq in Eij; subst j|].
      2: { inversion H; subst; clear H. constructor; cbn [v_log v_inbox v_wait v_over v_count v_now]; rewrite ?W; eauto. }
      assert (V : forall o, turn (mkTs (v_now s) (v_last s) None (v_count s) true (v_queue s) (v_exec s) r (v_log s ++ [(v_now s, Over o)]))).
      { intros o. constructor; cbn [v_log v_inbox v_wait v_over v_count v_now].
        - intros k x X. destruct (A1' _ _ X) as (t0 & Y). exists t0. grow Y.
        - discriminate.
        - discriminate.
        - intros t0 x X. split_log X; [eauto|lia].
        - intros t0 k X. split_log X. eauto.
        - intros t0 k X. split_log X. destruct (A6 _ _ X) as (t1 & Y & L). exists t1. split; [grow Y|exact L].
        - reflexivity. }
      destruct e as [x|]; [inversion H; subst; apply V|].
      destruct (reached K (S i)); inversion H; subst; [apply V|].
      constructor; cbn [v_log v_inbox v_wait v_over v_count v_now]; eauto; try discriminate.
      + intros _ _ k C. rewrite B1 in C. inversion C; subst. eauto.
    - destruct (v_wait s) as [[i t]|] eqn:W; [|discriminate]. destruct (_ <=? _) eqn:D; [|discriminate]. inversion H; subst; clear H. apply Z.leb_le in D.
      destruct (A2 _ _ eq_refl) as (B1 & B2 & B3).
      constructor; cbn [v_log v_inbox v_wait v_over v_count v_now]; try discriminate; try reflexivity.
      + intros k x X. destruct (A1 _ _ X) as (t0 & Y). exists t0. grow Y.
      + intros t0 x X. split_log X; [eauto|lia].
      + intros t0 k X. split_log X. eauto.
      + intros t0 k X. split_log X. destruct (A6 _ _ X) as (t1 & Y & L). exists t1. split; [grow Y|exact L].
  Qed.
  Lemma turn_run now ls s : vrun K (tsv0 now) ls = Some s -> turn s.
  Proof. intros H. exact (vrun_inv K turn turn_step ls (tsv0 now) s (turn0 now) H). Qed.

  Lemma one_after_another now ls s t i : vrun K (tsv0 now) ls = Some s -> at_time s t (Sent (S i)) -> exists t0, at_time s t0 (End i) /\ t0 <= t.
  Proof. intros H. exact (u_sent _ (turn_run _ _ _ H) t i). Qed.

  Lemma over_step s l s' : v_over s = true -> v_wait s = None -> vstep K s l = Some s' ->
    v_over s' = true /\ v_wait s' = None /\ forall t i, at_time s' t (Sent i) -> at_time s t (Sent i).
  Proof.
    unfold at_time. intros O W H. destruct l; cbn [vstep] in H; rewrite ?W, ?O in H; try discriminate.
    - destruct (_ && _); [|discriminate]. inversion H; subst; cbn. auto.
    - inversion H; subst; cbn. auto.
    - destruct (v_exec s); [discriminate|]. destruct (v_queue s) as [|j q]; [discriminate|]. inversion H; subst; cbn. split; [auto|]. split; [auto|].
      intros t i X. apply in_app_or in X. destruct X as [X|X]; [exact X|]. destruct j; [|contradiction]. destruct X as [X|[]]. discriminate.
    - destruct (v_exec s) as [[j|]|]; try discriminate; inversion H; subst; cbn; (split; [auto|]; split; [auto|]; intros t i X); [|exact X].
      split_log X. exact X.
  Qed.
  Lemma over_run : forall ls s s', v_over s = true -> v_wait s = None -> vrun K s ls = Some s' -> forall t i, at_time s' t (Sent i) -> at_time s t (Sent i).
  Proof.
    induction ls as [|l ls IH]; intros s s' O W H t i X; cbn [vrun] in H; [inversion H; subst; exact X|].
    destruct (vstep K s l) as [s1|] eqn:E; [|discriminate]. destruct (over_step _ _ _ O W E) as (O1 & W1 & B). eauto.
  Qed.
  Lemma over_for_good now ls s t r ls' s' : vrun K (tsv0 now) ls = Some s -> at_time s t (Over r) -> vrun K s ls' = Some s' ->
    forall t' i, at_time s' t' (Sent i) -> at_time s t' (Sent i).
  Proof.
    intros H O H'. pose proof (turn_run _ _ _ H) as G. pose proof (u_over _ G _ _ O) as Ov. refine (over_run _ _ _ Ov _ H').
    destruct (v_wait s) as [[i t0]|] eqn:W; [|reflexivity]. destruct (u_wait _ G _ _ W) as (_ & _ & F). congruence.
  Qed.

  (** ** why it ends *)
  Record why (s : tsv) : Prop := {
    w_fine : forall j e, In (j, e) (v_inbox s) -> e = None;
    w_late : forall t x, In (t, Over (Some x)) (v_log s) -> x = TimeoutError /\ exists i t0, In (t0, Sent i) (v_log s) /\ t0 + k_timeout K - 1000000 <= t
  }.
  Lemma why_step s l s' : turn s -> why s -> (forall x, l <> VDone (Some x)) -> vstep K s l = Some s' -> why s'.
  Proof.
    intros T [A B] F H.
    assert (M : forall es, (forall t x, In (t, Over (Some x)) es -> False) -> forall t x, In (t, Over (Some x)) (v_log s ++ es) ->
      x = TimeoutError /\ exists i t0, In (t0, Sent i) (v_log s ++ es) /\ t0 + k_timeout K - 1000000 <= t).
    { intros es N t x X. apply in_app_or in X. destruct X as [X|X]; [|destruct (N _ _ X)]. destruct (B _ _ X) as (-> & i & t0 & Y & L). split; [reflexivity|]. exists i, t0. split; [grow Y|exact L]. }
    destruct l; cbn [vstep] in H.
    - destruct (_ && _); [|discriminate]. inversion H; subst. constructor; cbn; auto.
    - destruct (v_wait s); [discriminate|]. destruct (v_over s); [discriminate|]. destruct (due K s); [|discriminate]. inversion H; subst. constructor; cbn; auto.
      apply M. intros t x [X|[]]. discriminate.
    - inversion H; subst. constructor; cbn; auto.
    - destruct (v_exec s); [discriminate|]. destruct (v_queue s) as [|j q]; [discriminate|]. inversion H; subst. constructor; cbn; auto.
      apply M. intros t x X. destruct j; [|contradiction]. destruct X as [X|[]]. discriminate.
    - destruct e as [x|]; [destruct (F x eq_refl)|]. destruct (v_exec s) as [[j|]|]; try discriminate; inversion H; subst; constructor; cbn; auto.
      + intros k e X. apply in_app_or in X. destruct X as [X|[X|[]]]; [eauto|]. inversion X; auto.
      + apply M. intros t x [X|[]]. discriminate.
    - destruct (v_wait s) as [[i t]|]; [|discriminate]. destruct (v_inbox s) as [|[j e] r] eqn:Q; [discriminate|].
      assert (A' : forall k x, In (k, x) r -> x = None) by (intros k x X; apply (A k x); right; exact X).
      destruct (Nat.eqb i j); [|inversion H; subst; constructor; cbn; auto].
      pose proof (A j e (or_introl eq_refl)). subst e.
      destruct (reached K (S i)); inversion H; subst; constructor; cbn; auto. apply M. intros t0 x [X|[]]. discriminate.
    - destruct (v_wait s) as [[i t]|] eqn:W; [|discriminate]. destruct (_ <=? _) eqn:D; [|discriminate]. inversion H; subst; clear H. apply Z.leb_le in D.
      destruct (u_wait _ T _ _ W) as (_ & Y & _). constructor; cbn; auto. intros t0 x X. split_log X.
      + destruct (B _ _ X) as (-> & k & t1 & Z & L). split; [reflexivity|]. exists k, t1. split; [grow Z|exact L].
      + split; [reflexivity|]. exists i, t. split; [grow Y|exact D].
  Qed.
  Lemma why_run : forall ls s s', turn s -> why s -> callback_fine ls -> vrun K s ls = Some s' -> why s'.
  Proof.
    induction ls as [|l ls IH]; intros s s' T W F H; cbn [vrun] in H; [inversion H; subst; exact W|].
    destruct (vstep K s l) as [s1|] eqn:E; [|discriminate]. refine (IH s1 s' (turn_step _ _ _ T E) (why_step _ _ _ T W _ E) _ H).
    - intros x ->. apply (F x). left. reflexivity.
    - intros x X. apply (F x). right. exact X.
  Qed.
  Lemma given_up_late now ls s t : vrun K (tsv0 now) ls = Some s -> callback_fine ls -> forall x, at_time s t (Over (Some x)) ->
    x = TimeoutError /\ exists i t0, at_time s t0 (Sent i) /\ t0 + k_timeout K - 1000000 <= t.
  Proof. intros H F x. refine (w_late _ (why_run ls _ s (turn0 now) _ F H) t x). constructor; cbn; contradiction. Qed.

  (** ** the limit *)
  Record lim (s : tsv) : Prop := {
    l_wait : forall i t, v_wait s = Some (i, t) -> i = 0%nat \/ reached K i = false;
    l_idle : v_wait s = None -> v_over s = false -> v_count s = 0%nat \/ reached K (v_count s) = false;
    l_over : forall t, In (t, Over None) (v_log s) -> exists i, v_count s = S i /\ reached K (S i) = true /\ (i = 0%nat \/ reached K i = false) /\ exists t0, In (t0, End i) (v_log s)
  }.
  Lemma lim_step s l s' : turn s /\ lim s -> vstep K s l = Some s' -> turn s' /\ lim s'.
  Proof.
    intros [T [A B C]] H. split; [exact (turn_step _ _ _ T H)|].
    assert (M : forall es, (forall t, In (t, Over None) es -> False) -> forall t, In (t, Over None) (v_log s ++ es) ->
      exists i, v_count s = S i /\ reached K (S i) = true /\ (i = 0%nat \/ reached K i = false) /\ exists t0, In (t0, End i) (v_log s ++ es)).
    { intros es N t X. apply in_app_or in X. destruct X as [X|X]; [|destruct (N _ X)]. destruct (C _ X) as (i & P1 & P2 & P3 & t0 & Y). exists i. repeat (split; [assumption|]). exists t0. grow Y. }
    destruct l; cbn [vstep] in H.
    - destruct (_ && _); [|discriminate]. inversion H; subst. constructor; cbn; auto.
    - destruct (v_wait s) eqn:W; [discriminate|]. destruct (v_over s) eqn:O; [discriminate|]. destruct (due K s); [|discriminate]. inversion H; subst. constructor; cbn; try discriminate.
      + intros i t X. inversion X; subst. auto.
      + intros t X. split_log X. pose proof (u_over _ T _ _ X). congruence.
    - inversion H; subst. constructor; cbn; auto.
    - destruct (v_exec s); [discriminate|]. destruct (v_queue s) as [|j q]; [discriminate|]. inversion H; subst. constructor; cbn; auto.
      apply M. intros t X. destruct j; [|contradiction]. destruct X as [X|[]]. discriminate.
    - destruct (v_exec s) as [[j|]|]; try discriminate; inversion H; subst; constructor; cbn; auto. apply M. intros t [X|[]]. discriminate.
    - destruct (v_wait s) as [[i t]|] eqn:W; [|discriminate]. destruct (v_inbox s) as [|[j e] r] eqn:Q; [discriminate|].
      destruct (u_wait _ T _ _ W) as (Ci & _ & Ov). destruct (u_inbox _ T j e) as (te & Te); [rewrite Q; left; reflexivity|].
      destruct (Nat.eqb i j) eqn:Eij; [apply Nat.eqb_eq in Eij; subst j|inversion H; subst; constructor; cbn; auto].
      destruct e as [x|]; [inversion H; subst; constructor; cbn; try discriminate; apply M; intros t0 [X|[]]; discriminate|].
      destruct (reached K (S i)) eqn:R; inversion H; subst; constructor; cbn; try discriminate; auto.
      + intros t0 X. exists i. split; [exact Ci|]. split; [exact R|]. split; [eauto|]. exists te. grow Te.
      + intros _ _. right. rewrite Ci. exact R.
    - destruct (v_wait s) as [[i t]|] eqn:W; [|discriminate]. destruct (_ <=? _); [|discriminate]. inversion H; subst; constructor; cbn; try discriminate. apply M. intros t0 [X|[]]. discriminate.
  Qed.
  Lemma in_begun l t i : In (t, Begin i) l -> In i (begun l).
  Proof. induction l as [|[u e] l IH]; intros H; [exact H|]. destruct H as [H|H]; [inversion H; subst; left; reflexivity|]. destruct e; cbn; try right; auto. Qed.
  Lemma limit_reached now ls s t : vrun K (tsv0 now) ls = Some s -> at_time s t (Over None) ->
    exists m, k_limit K = Some m /\ begun (v_log s) = seq 0 (Nat.max 1 m).
  Proof.
    intros H O. assert (L : turn s /\ lim s).
    { refine (vrun_inv K (fun s => turn s /\ lim s) lim_step ls (tsv0 now) s _ H). split; [apply turn0|]. constructor; cbn; auto; try discriminate; contradiction. }
    destruct (l_over _ (proj2 L) _ O) as (i & C & R & P & t0 & E). unfold reached in R, P. destruct (k_limit K) as [m|]; [|discriminate]. exists m. split; [reflexivity|].
    destruct (executed_in_order K now ls s H) as (n & B & N). destruct (g_end _ _ (good_run K now ls s H) _ _ E) as (t1 & Bi & _). apply in_begun in Bi. rewrite B in Bi. apply in_seq in Bi.
    rewrite B. f_equal. apply Nat.leb_le in R. destruct P as [->|P]; [|apply Nat.leb_gt in P]; lia.
  Qed.

  (** ** a busy server *)
  Lemma executions_coincide now : 0 <= k_interval K <= k_timeout K -> 0 <= k_late K -> (forall m, k_limit K = Some m -> (2 <= m)%nat) -> exists s,
    vrun K (tsv0 now) [VAsk; VTake; VCall; VTick (k_interval K); VDone None; VTake; VDone None; VAnswer; VCall; VTake] = Some s /\
    at_time s (now + k_interval K) (Begin 0) /\ at_time s (now + k_interval K) (Begin 1).
  Proof.
    intros I0 L0 Lm. unfold tsv0. cbn [vrun vstep v_now v_last v_wait v_count v_over v_queue v_exec v_inbox v_log due app].
    assert (E1 : (0 <=? k_interval K) && (now + k_interval K <=? Z.max now (now + k_timeout K + k_late K)) = true).
    { apply andb_true_intro. split; apply Z.leb_le; lia. }
    rewrite E1. cbn [vrun vstep v_now v_last v_wait v_count v_over v_queue v_exec v_inbox v_log due app Nat.eqb].
    assert (E2 : reached K 1 = false). { unfold reached. destruct (k_limit K) as [m|]; [|reflexivity]. apply Nat.leb_gt. specialize (Lm m eq_refl). lia. }
    rewrite E2. cbn [vrun vstep v_now v_last v_wait v_count v_over v_queue v_exec v_inbox v_log due app Nat.eqb].
    rewrite Z.leb_refl. cbn [vrun vstep v_now v_last v_wait v_count v_over v_queue v_exec v_inbox v_log due app Nat.eqb].
    eexists. split; [reflexivity|]. unfold at_time. cbn. auto 10.
  Qed.
  Lemma busy_server_ends_it now d : 0 <= d -> k_timeout K <= d <= k_timeout K + k_late K -> exists s,
    vrun K (tsv0 now) [VAsk; VTake; VCall; VTick d; VGiveUp; VDone None; VTake; VDone None] = Some s /\
    at_time s (now + d) (Over (Some TimeoutError)) /\ at_time s (now + d) (Begin 0) /\ at_time s (now + d) (End 0).
  Proof.
    intros D0 D. unfold tsv0. cbn [vrun vstep v_now v_last v_wait v_count v_over v_queue v_exec v_inbox v_log due app].
    assert (E1 : (0 <=? d) && (now + d <=? Z.max now (now + k_timeout K + k_late K)) = true).
    { apply andb_true_intro. split; apply Z.leb_le; lia. }
    rewrite E1. cbn [vrun vstep v_now v_last v_wait v_count v_over v_queue v_exec v_inbox v_log due app Nat.eqb].
    assert (E2 : (now + k_timeout K - 1000000 <=? now + d) = true) by (apply Z.leb_le; lia).
    rewrite E2. cbn [vrun vstep v_now v_last v_wait v_count v_over v_queue v_exec v_inbox v_log due app Nat.eqb].
    eexists. split; [reflexivity|]. unfold at_time. cbn. auto 10.
  Qed.
End Proofs.
