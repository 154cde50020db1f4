From Verif Require Import Py TimerSrvModel TimerSrvSpec TimerSrvProofs TimerSrvProofs2.
Local Open Scope list_scope.

Section Proofs3.
  Variable K : tcfg.

  (** the limit *)
  Definition few (s : tsv) : Prop := forall t i, In (t, Sent i) (v_log s) -> i = 0%nat \/ reached K i = false.
  Lemma few_step s l s' : lim K s -> few s -> vstep K s l = Some s' -> few s'.
  Proof.
    intros L F H. assert (G : forall es, v_log s' = v_log s ++ es -> (forall t i, In (t, Sent i) es -> i = 0%nat \/ reached K i = false) -> few s').
    { intros es E N t i X. rewrite E in X. apply in_app_or in X. destruct X as [X|X]; eauto. }
    destruct l; cbn [vstep] in H.
    - destruct (_ && _); inversion H; subst. apply (G []); [cbn; now rewrite app_nil_r|intros ? ? []].
    - destruct (v_wait s) eqn:W; [discriminate|]. destruct (v_over s) eqn:O; [discriminate|]. destruct (due K s); inversion H; subst.
      eapply G; [reflexivity|]. intros t i [X|[]]. inversion X; subst. exact (l_idle _ _ L W O).
    - inversion H; subst. apply (G []); [cbn; now rewrite app_nil_r|intros ? ? []].
    - destruct (v_exec s); [discriminate|]. destruct (v_queue s) as [|j q]; inversion H; subst.
      eapply G; [reflexivity|]. intros t i X. destruct j; [destruct X as [X|[]]; discriminate X|destruct X].
    - destruct (v_exec s) as [[j|]|]; inversion H; subst.
      + eapply G; [reflexivity|]. intros t i [X|[]]. discriminate X.
      + apply (G []); [cbn; now rewrite app_nil_r|intros ? ? []].
    - destruct (v_wait s) as [[i0 t0]|]; [|discriminate]. destruct (v_inbox s) as [|[j e] r]; [discriminate|].
      destruct (Nat.eqb i0 j); [destruct e as [x|]; [|destruct (reached K (S i0))]|]; inversion H; subst.
      + eapply G; [reflexivity|]. intros t i [X|[]]. discriminate X.
      + eapply G; [reflexivity|]. intros t i [X|[]]. discriminate X.
      + apply (G []); [cbn; now rewrite app_nil_r|intros ? ? []].
      + apply (G []); [cbn; now rewrite app_nil_r|intros ? ? []].
    - destruct (v_wait s) as [[i0 t0]|]; [|discriminate]. destruct (_ <=? _); inversion H; subst.
      eapply G; [reflexivity|]. intros t i [X|[]]. discriminate X.
  Qed.
  Lemma never_more now ls s t i m : vrun K (tsv0 now) ls = Some s -> k_limit K = Some m -> at_time s t (Sent i) -> (i < Nat.max 1 m)%nat.
  Proof.
    intros H Lm X. assert (A : (turn s /\ lim K s) /\ few s).
    { refine (vrun_inv K (fun s => (turn s /\ lim K s) /\ few s) _ ls (tsv0 now) s _ H).
      - intros u l u' [A F] E. split; [exact (lim_step K u l u' A E)|exact (few_step u l u' (proj2 A) F E)].
      - split; [split; [exact (turn0 now)|constructor; cbn; [discriminate|left; reflexivity|contradiction]]|]. intros ? ? []. }
    destruct A as [_ F]. destruct (F t i X) as [->|R]; [lia|]. unfold reached in R. rewrite Lm in R. apply Nat.leb_gt in R. lia.
  Qed.

  (** what is being executed has not been before *)
  Record now_only (s : tsv) : Prop := {
    o_exec : forall i, v_exec s = Some (Mine i) -> In i (begun (v_log s)) /\ forall t, ~ In (t, End i) (v_log s);
    o_end : forall t i, In (t, End i) (v_log s) -> In i (begun (v_log s))
  }.
  Lemma now_only_step s l s' : good K s -> now_only s -> vstep K s l = Some s' -> now_only s'.
  Proof.
    intros G [A B] H.
    assert (M : forall es, v_exec s' = v_exec s -> v_log s' = v_log s ++ es -> (forall t i, ~ In (t, End i) es) -> now_only s').
    { intros es Ex E N. constructor; rewrite E, ?Ex.
      - intros i X. destruct (A i X) as [A1 A2]. rewrite begun_app. split; [apply in_or_app; left; exact A1|].
        intros t Y. apply in_app_or in Y. destruct Y as [Y|Y]; [exact (A2 t Y)|exact (N _ _ Y)].
      - intros t i Y. rewrite begun_app. apply in_or_app. left. apply in_app_or in Y. destruct Y as [Y|Y]; [eauto|destruct (N _ _ Y)]. }
    destruct l; cbn [vstep] in H.
    - destruct (_ && _); inversion H; subst. apply (M []); [reflexivity|cbn; now rewrite app_nil_r|intros ? ? []].
    - destruct (v_wait s); [discriminate|]. destruct (v_over s); [discriminate|]. destruct (due K s); inversion H; subst.
      eapply M; [reflexivity|reflexivity|]. intros t i [X|[]]. discriminate X.
    - inversion H; subst. apply (M []); [reflexivity|cbn; now rewrite app_nil_r|intros ? ? []].
    - destruct (v_exec s) eqn:Ex; [discriminate|]. destruct (v_queue s) as [|j q] eqn:Q; inversion H; subst; clear H. constructor; cbn [v_exec v_log].
      + intros i X. inversion X; subst. rewrite begun_app. split; [apply in_or_app; right; left; reflexivity|].
        intros t Y. apply in_app_or in Y. destruct Y as [Y|[Y|[]]]; [|discriminate Y]. apply B in Y.
        pose proof (g_order _ _ G) as O. rewrite Q in O. change (mine (Mine i :: q)) with (i :: mine q) in O.
        pose proof (seq_NoDup (v_count s) 0) as ND. rewrite <- O in ND. apply NoDup_remove_2 in ND. apply ND. apply in_or_app. left. exact Y.
      + intros t i Y. rewrite begun_app. apply in_or_app. left. apply in_app_or in Y. destruct Y as [Y|Y]; [eauto|].
        destruct j; [destruct Y as [Y|[]]; discriminate Y|destruct Y].
    - destruct (v_exec s) as [[j|]|] eqn:Ex; inversion H; subst; clear H; constructor; cbn [v_exec v_log]; try discriminate.
      + intros t i Y. rewrite begun_app. apply in_or_app. left. apply in_app_or in Y. destruct Y as [Y|[Y|[]]]; [eauto|]. inversion Y; subst. apply A. exact eq_refl.
      + exact B.
    - destruct (v_wait s) as [[i0 t0]|]; [|discriminate]. destruct (v_inbox s) as [|[j e] r]; [discriminate|].
      destruct (Nat.eqb i0 j); [destruct e as [x|]; [|destruct (reached K (S i0))]|]; inversion H; subst.
      + eapply M; [reflexivity|reflexivity|]. intros t i [X|[]]. discriminate X.
      + eapply M; [reflexivity|reflexivity|]. intros t i [X|[]]. discriminate X.
      + apply (M []); [reflexivity|cbn; now rewrite app_nil_r|intros ? ? []].
      + apply (M []); [reflexivity|cbn; now rewrite app_nil_r|intros ? ? []].
    - destruct (v_wait s) as [[i0 t0]|]; [|discriminate]. destruct (_ <=? _); inversion H; subst.
      eapply M; [reflexivity|reflexivity|]. intros t i [X|[]]. discriminate X.
  Qed.

  (** number [i] failed: the timer is over, or will be when it has the answer *)
  Record failed (i : nat) (x : exn) (s : tsv) : Prop := {
    f_count : v_count s = S i;
    f_exec : v_exec s <> Some (Mine i);
    f_queue : ~ In (Mine i) (v_queue s);
    f_how : (v_over s = true /\ v_wait s = None) \/
            ((exists t, v_wait s = Some (i, t)) /\ In (i, Some x) (v_inbox s) /\ forall e, In (i, e) (v_inbox s) -> e = Some x)
  }.
  Lemma failed_step i x s l s' : failed i x s -> vstep K s l = Some s' -> failed i x s'.
  Proof.
    intros [A B C D] H. destruct l; cbn [vstep] in H.
    - destruct (_ && _); inversion H; subst. constructor; cbn; auto.
    - destruct (v_wait s) eqn:W; [discriminate|]. destruct (v_over s) eqn:O; [discriminate|].
      destruct D as [[D _]|[[t D] _]]; discriminate D.
    - inversion H; subst. constructor; cbn; auto. intros X. apply in_app_or in X. destruct X as [X|[X|[]]]; [auto|discriminate X].
    - destruct (v_exec s) eqn:Ex; [discriminate|]. destruct (v_queue s) as [|j q] eqn:Q; inversion H; subst; clear H. constructor; cbn; auto.
      + intros X. inversion X; subst. apply C. left. reflexivity.
      + intros X. apply C. right. exact X.
    - destruct (v_exec s) as [[j|]|] eqn:Ex; inversion H; subst; clear H; constructor; cbn; auto; try discriminate.
      destruct D as [D|(D1 & D2 & D3)]; [left; exact D|right]. split; [exact D1|]. split; [apply in_or_app; left; exact D2|].
      intros e0 X. apply in_app_or in X. destruct X as [X|[X|[]]]; [auto|]. inversion X; subst. destruct (B eq_refl).
    - destruct D as [[D1 D2]|((t & D1) & D2 & D3)]; [rewrite D2 in H; discriminate|]. rewrite D1 in H.
      destruct (v_inbox s) as [|[j e] r] eqn:I; [destruct D2|]. destruct (Nat.eqb i j) eqn:Q.
      + apply Nat.eqb_eq in Q. subst j. rewrite (D3 e (or_introl eq_refl)) in H. inversion H; subst. constructor; cbn; auto.
      + apply Nat.eqb_neq in Q. inversion H; subst. constructor; cbn; auto. right. split; [eauto|]. split.
        * destruct D2 as [D2|D2]; [inversion D2; subst; destruct (Q eq_refl)|exact D2].
        * intros e0 X. apply D3. right. exact X.
    - destruct (v_wait s) as [[i0 t0]|] eqn:W; [|discriminate]. destruct (_ <=? _); inversion H; subst. constructor; cbn; auto.
  Qed.
  Lemma failing_ends now ls1 s1 i x ls2 s : vrun K (tsv0 now) ls1 = Some s1 -> v_exec s1 = Some (Mine i) ->
    vrun K s1 (VDone (Some x) :: ls2) = Some s -> forall t j, at_time s t (Sent j) -> (j <= i)%nat.
  Proof.
    intros H1 Ex H2 t j X.
    assert (All1 : ((good K s1 /\ exec_ok s1) /\ turn s1) /\ now_only s1).
    { refine (vrun_inv K (fun s => ((good K s /\ exec_ok s) /\ turn s) /\ now_only s) _ ls1 (tsv0 now) s1 _ H1).
      - intros u l u' [[G T] N] E. split; [split; [exact (good_step K u l u' G E)|exact (turn_step K u l u' T E)]|exact (now_only_step u l u' (proj1 G) N E)].
      - split; [split; [split; [exact (good0 K now)|intros k Y; discriminate Y]|exact (turn0 now)]|constructor; cbn; [discriminate|contradiction]]. }
    destruct All1 as [[[G Eo] T] [N1 N2]]. destruct (N1 i Ex) as [Bi Ne]. destruct (Eo i Ex) as (tb & Tb). destruct (g_begin _ _ G _ _ Tb) as (ts & Ts & _).
    pose proof (u_last _ T _ _ Ts) as Lt.
    assert (C : v_count s1 = S i).
    { destruct (Nat.eq_dec (v_count s1) (S i)) as [Y|Y]; [exact Y|]. exfalso. destruct (g_all _ _ G (S i) ltac:(lia)) as (t1 & S1).
      destruct (u_sent _ T _ _ S1) as (t2 & S2 & _). exact (Ne _ S2). }
    cbn [vrun vstep] in H2. rewrite Ex in H2.
    match type of H2 with vrun _ ?u _ = _ => assert (F : failed i x u) end.
    { constructor; cbn; auto; try discriminate.
      - intros Y. pose proof (g_order _ _ G) as O. pose proof (seq_NoDup (v_count s1) 0) as ND. rewrite <- O in ND.
        assert (Z : In i (mine (v_queue s1))) by (apply in_flat_map; exists (Mine i); split; [exact Y|left; reflexivity]).
        apply in_split in Bi. destruct Bi as (a & b & Ea). rewrite Ea in ND. rewrite <- app_assoc in ND. cbn in ND. apply NoDup_remove_2 in ND.
        apply ND. apply in_or_app. right. apply in_or_app. right. exact Z.
      - assert (Fresh : forall e, ~ In (i, e) (v_inbox s1)) by (intros e Y; destruct (u_inbox _ T _ _ Y) as (t1 & E1); exact (Ne _ E1)).
        destruct (v_wait s1) as [[i0 t0]|] eqn:W.
        + right. destruct (u_wait _ T _ _ W) as (W1 & _ & _). assert (i0 = i) by lia. subst i0. split; [eauto|].
          split; [apply in_or_app; right; left; reflexivity|]. intros e Y. apply in_app_or in Y. destruct Y as [Y|[Y|[]]]; [destruct (Fresh _ Y)|]. inversion Y. reflexivity.
        + left. split; [|reflexivity]. destruct (v_over s1) eqn:O; [reflexivity|]. destruct (u_idle _ T W O i C) as (t1 & E1). destruct (Ne _ E1). }
    pose proof (vrun_inv K (failed i x) (failed_step i x) ls2 _ s F H2) as Fs.
    assert (Ts' : turn s). { refine (turn_run K now (ls1 ++ VDone (Some x) :: ls2) s _). rewrite vrun_app, H1. cbn [vrun vstep]. rewrite Ex. exact H2. }
    pose proof (u_last _ Ts' _ _ X) as L. rewrite (f_count _ _ _ Fs) in L. lia.
  Qed.
End Proofs3.
