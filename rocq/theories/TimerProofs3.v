(** C124: what remains of a timer after an exception in its thread. *)
From Verif Require Import Py TimerModel TimerSpec TimerProofs.

Section X.
  Variable iv : Z.
  Variable lim : option Z.

  Definition ending (s : timer) : Prop := t_th s = At PFin \/ t_th s = Dead.
  Definition quiet (e : tev) : Prop := is_begin e = false /\ is_decide e = false /\ is_raised e = false.

  Lemma ending_step s l : ending s ->
    ending (tstep iv lim s l) /\ exists r, t_log (tstep iv lim s l) = t_log s ++ r /\ Forall quiet r.
  Proof.
    intros En.
    assert (Same : ending s /\ exists r, t_log s = t_log s ++ r /\ Forall quiet r)
      by (split; [exact En|exists []; rewrite app_nil_r; auto]).
    assert (Q1 : forall e, quiet e -> Forall quiet [e]) by auto.
    unfold ending in *. destruct l as [d|i|i|i| |e]; cbn [tstep].
    - destruct (0 <=? d); [|exact Same]. cbn. destruct Same as [A B]. split; auto.
    - destruct (dget (t_calls s) i); [exact Same|]. cbn. split; [exact En|]. exists [EStart]. split; auto. apply Q1. repeat split.
    - destruct (dget (t_calls s) i) as [[|]|]; [|exact Same|exact Same].
      destruct En as [En|En]; rewrite En; cbn; (split; [auto|]).
      + eexists. split; [reflexivity|]. apply Q1. repeat split.
      + exists []. rewrite app_nil_r. auto.
    - destruct (dget (t_calls s) i) as [[|]|]; [exact Same| |exact Same].
      destruct En as [En|En]; rewrite En; cbn; (split; [auto|]); (eexists; split; [reflexivity|]; apply Q1; repeat split).
    - cbn. split; [exact En|]. exists [EStop]. split; auto. apply Q1. repeat split.
    - unfold run_step. destruct En as [En|En]; rewrite En; cbn.
      + split; auto. exists [EDead]. split; auto. apply Q1. repeat split.
      + rewrite En. split; auto. exists []. rewrite app_nil_r. auto.
  Qed.

  Lemma ending_run ls : forall s, ending s ->
    ending (trun iv lim s ls) /\ exists r, t_log (trun iv lim s ls) = t_log s ++ r /\ Forall quiet r.
  Proof.
    induction ls as [|l ls IH]; intros s En; cbn [trun fold_left].
    - split; [exact En|]. exists []. rewrite app_nil_r. auto.
    - destruct (ending_step s l En) as [En' (r & E & Q)]. destruct (IH _ En') as [A (r' & E' & Q')]. split; [exact A|].
      exists (r ++ r'). split; [|apply Forall_app; auto]. unfold trun in E'. rewrite E', E. now rewrite app_assoc.
  Qed.

  (** a step that logs an exception ends the timer *)
  Lemma raising_step s l : none_of is_raised (t_log s) -> ~ none_of is_raised (t_log (tstep iv lim s l)) ->
    ending (tstep iv lim s l) /\ exists e, t_log (tstep iv lim s l) = t_log s ++ [ERaised e].
  Proof.
    intros N I.
    assert (One : forall e, ~ none_of is_raised (t_log s ++ [e]) -> is_raised e = true).
    { intros e H. destruct (is_raised e) eqn:R; auto. exfalso. apply H. intros x Hx. apply in_app_or in Hx.
      destruct Hx as [Hx|[<-|[]]]; auto. }
    unfold ending. destruct l as [d|i|i|i| |e]; cbn [tstep] in *.
    - destruct (0 <=? d); contradiction.
    - destruct (dget (t_calls s) i); [contradiction|]. now apply One in I.
    - destruct (dget (t_calls s) i) as [[|]|]; [|contradiction|contradiction].
      destruct (t_th s); cbn in I; [contradiction| |contradiction]. now apply One in I.
    - destruct (dget (t_calls s) i) as [[|]|]; [contradiction| |contradiction].
      destruct (t_th s); cbn in I; now apply One in I.
    - cbn in I. now apply One in I.
    - unfold run_step in *. destruct (t_th s) as [|p|]; [contradiction| |contradiction].
      destruct p; unfold at_pc, log in *; cbn [t_log t_th] in *.
      + destruct e as [x|]; cbn [t_log t_th] in *; [|rewrite app_nil_r in I; contradiction]. eauto.
      + destruct (t_last s); cbn [t_log] in I; rewrite app_nil_r in I; contradiction.
      + rewrite app_nil_r in I; contradiction.
      + destruct (t_last s) as [z|]; cbn [t_log t_th] in *; [rewrite app_nil_r in I; contradiction|]. eauto.
      + rewrite app_nil_r in I; contradiction.
      + destruct (u <=? t_now s); cbn [t_log] in I; rewrite ?app_nil_r in I; contradiction.
      + destruct (t_running s); cbn [t_log] in I; [now apply One in I|]. rewrite app_nil_r in I; contradiction.
      + now apply One in I.
      + destruct e as [x|]; cbn [t_log t_th] in *; [|rewrite app_nil_r in I; contradiction]. eauto.
      + contradiction.
      + now apply One in I.
  Qed.

  Lemma none_dec l : none_of is_raised l \/ ~ none_of is_raised l.
  Proof.
    destruct (existsb is_raised l) eqn:E.
    - right. intros N. apply existsb_exists in E. destruct E as (x & Hx & R). rewrite (N x Hx) in R. discriminate.
    - left. intros x Hx. destruct (is_raised x) eqn:R; auto. assert (existsb is_raised l = true) by (apply existsb_exists; eauto). congruence.
  Qed.

  Lemma raised_inv ls : ~ none_of is_raised (t_log (trun iv lim timer0 ls)) ->
    ending (trun iv lim timer0 ls) /\
    exists l1 e r, t_log (trun iv lim timer0 ls) = l1 ++ ERaised e :: r /\ Forall quiet r /\ none_of is_raised l1.
  Proof.
    induction ls as [|l ls IH] using rev_ind; intros I; [exfalso; apply I; intros x []|].
    unfold trun in *. rewrite fold_left_app in *. cbn [fold_left] in *.
    set (s := fold_left (tstep iv lim) ls timer0) in *.
    destruct (none_dec (t_log s)) as [N|Y].
    - destruct (raising_step s l N I) as [En [e E]]. split; [exact En|].
      exists (t_log s), e, []. auto.
    - destruct (IH Y) as [En (l1 & e & r & E & Q & U)]. destruct (ending_step s l En) as [En' (r' & E' & Q')].
      split; [exact En'|]. exists l1, e, (r ++ r'). rewrite E', E. split; [|split; [apply Forall_app; auto|exact U]].
      now rewrite <- app_assoc.
  Qed.

  Theorem no_call_after_exception ls e l1 l2 : t_log (trun iv lim timer0 ls) = l1 ++ ERaised e :: l2 ->
    none_of is_begin l2 /\ none_of is_decide l2 /\ none_of is_raised l2.
  Proof.
    intros E. destruct (raised_inv ls) as [_ (a & e' & r & E' & Q & U)].
    { intros N. assert (H : is_raised (ERaised e) = false) by (apply N; rewrite E; apply in_or_app; right; now left). discriminate. }
    assert (l2 = r) as ->.
    { rewrite E in E'. clear E. revert l1 E' U. induction a as [|y a IHa]; intros l1 E' U.
      - destruct l1 as [|z l1]; cbn in E'; injection E' as E1 E2; [auto|]. exfalso.
        rewrite <- E2 in Q. apply Forall_app in Q. destruct Q as [_ Q]. inversion Q as [|? ? (_ & _ & F) _]; subst. discriminate.
      - apply none_cons in U. destruct U as [U1 U]. destruct l1 as [|z l1]; cbn in E'; injection E' as E1 E2.
        + subst y. discriminate.
        + exact (IHa _ E2 U). }
    unfold none_of. rewrite Forall_forall in Q. split; [|split]; intros x Hx; apply (Q x Hx).
  Qed.

  (** the exception ends the thread as soon as it runs on *)
  Theorem exception_ends s e ls1 e1 ls2 : t_th s = At PIn ->
    let s' := trun iv lim s (TRun (Some e) :: ls1 ++ TRun e1 :: ls2) in
    t_th s' = Dead /\ exists r, t_log s' = t_log s ++ ERaised e :: r /\ In EDead r.
  Proof.
    intros P. cbn zeta. unfold trun. cbn [fold_left]. rewrite fold_left_app. cbn [fold_left].
    set (s1 := tstep iv lim s (TRun (Some e))).
    assert (E1 : t_th s1 = At PFin /\ t_log s1 = t_log s ++ [ERaised e]).
    { unfold s1. cbn [tstep]. unfold run_step. rewrite P. cbn. auto. }
    destruct E1 as [T1 L1].
    assert (G : forall ls s0, t_th s0 = Dead -> t_th (fold_left (tstep iv lim) ls s0) = Dead).
    { induction ls as [|l ls IH]; intros s0 D; cbn; auto. apply IH. destruct l as [d|i|i|i| |x]; cbn [tstep].
      - destruct (0 <=? d); auto.
      - destruct (dget (t_calls s0) i); auto.
      - destruct (dget (t_calls s0) i) as [[|]|]; auto. rewrite D. auto.
      - destruct (dget (t_calls s0) i) as [[|]|]; auto. rewrite D. auto.
      - auto.
      - unfold run_step. now rewrite D. }
    destruct (ending_run ls1 s1 (or_introl T1)) as [En2 (r2 & L2 & Q2)]. unfold trun in En2, L2.
    set (s2 := fold_left (tstep iv lim) ls1 s1) in *.
    assert (D : forall l, In l ls1 -> True) by auto. clear D.
    assert (HD : t_th s2 = Dead -> In EDead r2).
    { intros D2. assert (K : forall ls s0, t_th s0 = At PFin -> t_th (fold_left (tstep iv lim) ls s0) = Dead ->
          exists r, t_log (fold_left (tstep iv lim) ls s0) = t_log s0 ++ r /\ In EDead r).
      { induction ls as [|l ls IH]; intros s0 T0 D0; cbn in *; [congruence|].
        destruct (ending_step s0 l (or_introl T0)) as [[Ea|Ea] (r & Er & Qr)].
        - destruct (IH _ Ea D0) as (r' & Er' & I'). exists (r ++ r'). rewrite Er', Er, app_assoc. split; auto. apply in_or_app. auto.
        - assert (Hr : In EDead r).
          { destruct l as [d|i|i|i| |x]; cbn [tstep] in Ea, Er.
            - destruct (0 <=? d); cbn in Ea; congruence.
            - destruct (dget (t_calls s0) i); cbn in Ea; congruence.
            - rewrite T0 in Ea, Er. destruct (dget (t_calls s0) i) as [[|]|]; cbn in Ea; congruence.
            - rewrite T0 in Ea, Er. destruct (dget (t_calls s0) i) as [[|]|]; cbn in Ea; congruence.
            - cbn in Ea. congruence.
            - unfold run_step in Er. rewrite T0 in Er. cbn in Er. apply app_inv_head in Er. subst r. now left. }
          destruct (ending_run ls _ (or_intror Ea)) as [_ (r' & Er' & _)]. unfold trun in Er'.
          exists (r ++ r'). rewrite Er', Er, app_assoc. split; auto. apply in_or_app. auto. }
      destruct (K ls1 s1 T1 D2) as (r & Er & Ir). fold s2 in Er. rewrite L2 in Er. apply app_inv_head in Er. now subst r. }
    destruct En2 as [T2|T2].
    - set (s3 := tstep iv lim s2 (TRun e1)).
      assert (E3 : t_th s3 = Dead /\ t_log s3 = t_log s2 ++ [EDead]).
      { unfold s3. cbn [tstep]. unfold run_step. rewrite T2. cbn. auto. }
      destruct E3 as [T3 L3]. split; [now apply G|].
      destruct (ending_run ls2 s3 (or_intror T3)) as [_ (r & Er & _)]. unfold trun in Er. rewrite Er, L3, L2, L1.
      exists (r2 ++ EDead :: r). split; [repeat rewrite <- app_assoc; reflexivity|]. apply in_or_app. right. now left.
    - assert (T3 : t_th (tstep iv lim s2 (TRun e1)) = Dead) by (cbn [tstep]; unfold run_step; now rewrite T2).
      split; [now apply G|].
      destruct (ending_run (TRun e1 :: ls2) s2 (or_intror T2)) as [_ (r & Er & _)]. unfold trun in Er. cbn [fold_left] in Er.
      rewrite Er, L2, L1. exists (r2 ++ r). split; [repeat rewrite <- app_assoc; reflexivity|]. apply in_or_app. auto.
  Qed.

  (** the thread that has ended is reported as not running *)
  Theorem dead_not_running ls l1 l2 : t_log (trun iv lim timer0 ls) = l1 ++ EDead :: l2 -> none_of is_start l2 ->
    t_running (trun iv lim timer0 ls) = false.
  Proof.
    intros E N. destruct (TI_trun iv lim ls timer0 (TI0 iv)) as [_ _ Ru _ _]. rewrite Ru, E, gof_app. cbn [fold_left].
    set (g := TimerProofs.gstep (gof l1) EDead). assert (R : g_run g = false) by reflexivity. clearbody g. clear - N R.
    revert g R. induction l2 as [|e l2 IH]; intros g R; cbn; auto. apply none_cons in N. destruct N as [Ne N].
    apply (IH N). destruct e; cbn; auto; discriminate.
  Qed.
End X.
