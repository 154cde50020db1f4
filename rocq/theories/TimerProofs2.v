From Verif Require Import Py TimerModel TimerSpec TimerProofs.

Section T.
  Variable iv : Z.
  Variable lim : option Z.

  Lemma trun_cons s l ls : trun iv lim s (l :: ls) = trun iv lim (tstep iv lim s l) ls.
  Proof. reflexivity. Qed.
  (** *** start() while the thread waits *)
  Definition going (l0 : list tev) (s : timer) : Prop :=
    exists l, t_log s = l0 ++ l /\
      (existsb is_begin l = true \/ existsb is_raised l = true \/
       t_running s = true /\ t_last s = None /\ waiting_to_call s \/ t_th s = At PBegin).
  Lemma going_mono l0 s s' x : t_log s' = t_log s ++ x -> (exists l, t_log s = l0 ++ l /\ (existsb is_begin l = true \/ existsb is_raised l = true)) -> going l0 s'.
  Proof.
    intros E (l & El & H). exists (l ++ x). rewrite E, El, app_assoc. split; auto. rewrite !existsb_app.
    destruct H as [->| ->]; cbn; rewrite ?orb_true_l; auto.
  Qed.
  Lemma logs s l : exists x, t_log (tstep iv lim s l) = t_log s ++ x.
  Proof.
    assert (R : exists x, t_log s = t_log s ++ x) by (exists []; now rewrite app_nil_r).
    destruct l as [d|i|i|i| |e]; cbn [tstep].
    - destruct (0 <=? d); auto.
    - destruct (dget (t_calls s) i); cbn; eauto.
    - destruct (dget (t_calls s) i) as [[|]|]; auto. destruct (t_th s); cbn; eauto.
    - destruct (dget (t_calls s) i) as [[|]|]; auto. destruct (t_th s); cbn; eauto.
    - cbn; eauto.
    - unfold run_step. destruct (t_th s) as [|p|]; auto. destruct p; cbn; eauto.
      + destruct e; cbn; eauto.
      + destruct (t_last s); cbn; eauto.
      + destruct (t_last s); cbn; eauto.
      + destruct (u <=? t_now s); cbn; eauto.
      + destruct (t_running s); cbn; eauto.
      + destruct e; cbn; eauto.
  Qed.
  Lemma going_step l0 s l : l <> TStop -> (forall i, l <> TStart i) -> going l0 s -> going l0 (tstep iv lim s l).
  Proof.
    intros N1 N2 G. destruct (logs s l) as [x Ex].
    destruct G as (l1 & El & [H|[H|[H|H]]]); [eapply going_mono; eauto 6|eapply going_mono; eauto 6| |].
    - destruct H as (R & L & W). unfold waiting_to_call in W. destruct l as [d|i|i|i| |e]; cbn [tstep]; try congruence.
      + destruct (0 <=? d); exists l1; unfold waiting_to_call; cbn; auto 7.
      + destruct (dget (t_calls s) i) as [[|]|]; [|exists l1; unfold waiting_to_call; auto 7|exists l1; unfold waiting_to_call; auto 7].
        destruct (t_th s) as [|p|] eqn:Th; [exists l1; unfold waiting_to_call; cbn; rewrite ?Th; auto 7|exists (l1 ++ [EStarted i (Ok tt)])|easy].
        unfold waiting_to_call. cbn. rewrite ?Th, El, app_assoc. auto 7.
      + destruct (dget (t_calls s) i) as [[|]|]; [exists l1; unfold waiting_to_call; auto 7| |exists l1; unfold waiting_to_call; auto 7].
        destruct (t_th s) as [|p|] eqn:Th; [eexists (l1 ++ [_])|eexists (l1 ++ [_])|easy]; (split; [cbn; rewrite El, <- app_assoc; reflexivity|]);
          right; right; left; unfold waiting_to_call; cbn; auto.
      + unfold run_step. destruct (t_th s) as [|p|] eqn:Th; [exists l1; unfold waiting_to_call; rewrite ?Th; auto 7| |easy].
        destruct p; try easy.
        * destruct e; [|exists l1; cbn; rewrite app_nil_r; unfold waiting_to_call; cbn; auto 7].
          exists (l1 ++ [ERaised e]). cbn. rewrite El, app_assoc, !existsb_app. cbn. rewrite orb_true_r. auto.
        * rewrite L. exists l1. cbn. rewrite app_nil_r. unfold waiting_to_call; cbn; auto 7.
        * exists l1. cbn. rewrite app_nil_r. unfold waiting_to_call; cbn; auto 7.
        * destruct (u <=? t_now s); [|exists l1; unfold waiting_to_call; rewrite ?Th; auto 7].
          exists l1. cbn. rewrite app_nil_r. unfold waiting_to_call; cbn; auto 7.
        * rewrite R. exists (l1 ++ [EDecide (t_now s)]). cbn. rewrite El, app_assoc. auto 7.
    - destruct l as [d|i|i|i| |e]; cbn [tstep]; try congruence.
      + destruct (0 <=? d); exists l1; cbn; auto 7.
      + destruct (dget (t_calls s) i) as [[|]|]; [|exists l1; auto 7|exists l1; auto 7].
        rewrite H. exists (l1 ++ [EStarted i (Ok tt)]). cbn. rewrite El, app_assoc. auto 7.
      + destruct (dget (t_calls s) i) as [[|]|]; [exists l1; auto 7| |exists l1; auto 7].
        rewrite H. eexists (l1 ++ [_]). split; [cbn; rewrite El, <- app_assoc; reflexivity|]. cbn. auto.
      + unfold run_step. rewrite H. exists (l1 ++ [EBegin (t_now s)]). cbn. rewrite El, app_assoc, !existsb_app. cbn. rewrite orb_true_r. auto.
  Qed.
  Lemma started_calls s i ls : waiting_to_call s -> dget (t_calls s) i = None -> no_stop ls -> no_start ls ->
    let s' := trun iv lim s (TStart i :: ls) in
    exists l, t_log s' = t_log s ++ EStart :: l /\
      (existsb is_begin l = true \/ existsb is_raised l = true \/
       t_running s' = true /\ t_last s' = None /\ waiting_to_call s' \/ t_th s' = At PBegin).
  Proof.
    intros W D N1 N2. cbn [trun fold_left].
    assert (G : going (t_log s ++ [EStart]) (tstep iv lim s (TStart i))).
    { cbn [tstep]. rewrite D. exists []. cbn. rewrite app_nil_r. auto 7. }
    revert G. generalize (tstep iv lim s (TStart i)). intros s1 G.
    assert (H : forall ls s1, no_stop ls -> no_start ls -> going (t_log s ++ [EStart]) s1 -> going (t_log s ++ [EStart]) (trun iv lim s1 ls)).
    { clear. induction ls as [|l ls IH]; cbn; auto. intros s1 N1 N2 G. apply IH.
      - intros C. apply N1. now right.
      - intros j C. apply (N2 j). now right.
      - apply going_step; auto. + intros ->. apply N1. now left. + intros j ->. apply (N2 j). now left. }
    destruct (H ls s1 N1 N2 G) as (l & El & K). exists l. unfold trun in El. rewrite El, <- app_assoc. auto.
  Qed.

  (** without exceptions the thread does not end before calling *)
  Lemma dead_not_waiting s : t_th s = Dead -> ~ waiting_to_call s.
  Proof. unfold waiting_to_call. now intros ->. Qed.

  (** *** and it gets there *)
  Lemma gets_there s : (t_running s = true /\ t_last s = None /\ waiting_to_call s /\ t_th s <> NotYet) \/ t_th s = At PBegin ->
    exists ls, (forall l, In l ls -> l = TRun None \/ exists d, l = TTick d) /\
      exists l, t_log (trun iv lim s ls) = t_log s ++ l /\ existsb is_begin l = true.
  Proof.
    assert (B : forall s, t_th s = At PBegin -> exists l, t_log (trun iv lim s [TRun None]) = t_log s ++ l /\ existsb is_begin l = true).
    { intros s0 H. cbn. unfold run_step. rewrite H. cbn. eexists. split; [reflexivity|]. reflexivity. }
    assert (T : forall s, t_running s = true -> t_th s = At PTake -> exists l, t_log (trun iv lim s [TRun None; TRun None]) = t_log s ++ l /\ existsb is_begin l = true).
    { intros s0 R H. cbn. unfold run_step. rewrite H, R. cbn. eexists. rewrite <- app_assoc. split; [reflexivity|]. reflexivity. }
    assert (Te : forall s, t_running s = true -> t_last s = None -> t_th s = At PTest -> exists l, t_log (trun iv lim s [TRun None; TRun None; TRun None]) = t_log s ++ l /\ existsb is_begin l = true).
    { intros s0 R L H. cbn. unfold run_step at 3. rewrite H, L. destruct (T (at_pc s0 PTake) R eq_refl) as (l & E & X).
      cbn [at_pc log t_log] in E. rewrite app_nil_r in E. exists l. split; [exact E|exact X]. }
    assert (Sl : forall s u, t_running s = true -> t_th s = At (PSleep u) ->
       exists l, t_log (trun iv lim s [TTick (Z.max 0 (u - t_now s)); TRun None; TRun None; TRun None]) = t_log s ++ l /\ existsb is_begin l = true).
    { intros s0 u R H. cbn [trun fold_left tstep]. destruct (Z.leb_spec 0 (Z.max 0 (u - t_now s0))); [|lia].
      unfold run_step at 3. cbn [t_th]. rewrite H. cbn [t_now]. destruct (Z.leb_spec u (t_now s0 + Z.max 0 (u - t_now s0))); [|lia].
      destruct (T (at_pc (mkT (t_now s0 + Z.max 0 (u - t_now s0)) (t_running s0) (t_last s0) (t_count s0) (t_th s0) (t_calls s0) (t_log s0)) PTake)) as (l & E & X); auto.
      cbn [at_pc log t_log] in E. rewrite app_nil_r in E. exists l. split; [exact E|exact X]. }
    intros [(R & L & W & N)|H].
    - unfold waiting_to_call in W. destruct (t_th s) as [|p|] eqn:Th; try easy. destruct p; try easy.
      + exists [TRun None; TRun None; TRun None; TRun None]. split; [cbn; intuition|].
        destruct (Te (at_pc s PTest)) as (l & E & X); auto. cbn [at_pc log t_log] in E. rewrite app_nil_r in E. exists l. split; [|exact X]. rewrite trun_cons. replace (tstep iv lim s (TRun None)) with (at_pc s PTest); [exact E|]. cbn. unfold run_step. now rewrite Th.
      + eexists. split; [|apply Te; auto]. cbn; intuition.
      + exists (TRun None :: [TTick (Z.max 0 (t_now s + s0 - t_now s)); TRun None; TRun None; TRun None]). split; [cbn; intuition eauto|].
        destruct (Sl (at_pc s (PSleep (t_now s + s0))) (t_now s + s0)) as (l & E & X); auto.
        cbn [at_pc log t_log t_now] in E. rewrite app_nil_r in E. exists l. split; [|exact X]. rewrite trun_cons. replace (tstep iv lim s (TRun None)) with (at_pc s (PSleep (t_now s + s0))); [exact E|]. cbn. unfold run_step. now rewrite Th.
      + eexists. split; [|apply (Sl s u); auto]. cbn; intuition eauto.
      + eexists. split; [|apply T; auto]. cbn; intuition.
    - eexists. split; [|apply B; auto]. cbn; intuition.
  Qed.

  (** *** exactly as many calls as the limit says, if nothing interferes *)
  Definition EX (b0 : Z) (s : timer) : Prop :=
    let b := begins (t_log s) - b0 in
    let below := match lim with Some m => t_count s < Z.max 1 m | None => True end in
    t_running s = true /\ 0 <= t_count s /\
    match t_th s with
    | NotYet => b = 0 /\ t_count s = 0 /\ below
    | At PFin => exists m, lim = Some m /\ b = Z.max 1 m
    | At PIn | At PCount => b = t_count s + 1 /\ below
    | At PClock | At (PLast _) => t_last s <> None /\ b = t_count s /\ below
    | At _ => b = t_count s /\ below
    | Dead => False
    end.
  Definition EXd (b0 : Z) (s : timer) : Prop := EX b0 s \/ t_th s = Dead /\ exists m, lim = Some m /\ begins (t_log s) - b0 = Z.max 1 m.
  Lemma begins_app l1 l2 : begins (l1 ++ l2) = begins l1 + begins l2.
  Proof. unfold begins. rewrite filter_app, app_length. lia. Qed.
  Ltac xfin := cbn [t_now t_running t_last t_count t_th t_calls t_log at_pc log] in *; rewrite ?app_nil_r, ?begins_app, ?begins_cons, ?begins_nil; cbn [is_begin]; rewrite ?Z.add_0_r; auto.
  Lemma EX_step b0 s l : l <> TStop -> (forall i, l <> TStart i) -> (forall e, l <> TRun (Some e)) -> EXd b0 s -> EXd b0 (tstep iv lim s l).
  Proof.
    intros N1 N2 N3 [E|(D & m & Lm & B)].
    - unfold EX in E. destruct E as (R & C0 & E). destruct l as [d|i|i|i| |e]; cbn [tstep]; try congruence.
      + left. unfold EX. destruct (0 <=? d); xfin.
      + left. unfold EX. destruct (dget (t_calls s) i) as [[|]|]; auto. destruct (t_th s) as [|p|] eqn:Th; xfin; rewrite ?Th; auto.
      + left. unfold EX. destruct (dget (t_calls s) i) as [[|]|]; auto. destruct (t_th s) as [|p|] eqn:Th; xfin; rewrite ?Th; auto.
        destruct E as (E0 & E & E1). repeat split; auto; lia.
      + destruct e as [e|]; [now destruct (N3 e)|]. unfold run_step.
        destruct (t_th s) as [|p|] eqn:Th; [left; unfold EX; rewrite ?Th; auto| |easy].
        destruct p.
        * left. unfold EX. xfin.
        * left. unfold EX. destruct (t_last s) eqn:L; xfin. split; auto. split; auto. rewrite L. split; [easy|auto].
        * left. unfold EX. xfin.
        * left. unfold EX. destruct (t_last s); [|easy]. xfin. split; auto. split; auto. destruct (0 <? _); tauto.
        * left. unfold EX. xfin.
        * left. unfold EX. destruct (u <=? t_now s); xfin. rewrite ?Th. auto.
        * left. unfold EX. rewrite R. xfin.
        * left. unfold EX. xfin. split; auto. split; auto. destruct E as [E ?]. split; [lia|auto].
        * left. unfold EX. xfin.
        * left. unfold EX. xfin. split; auto. split; [lia|]. destruct E as [E0 E]. destruct lim as [m|]; auto.
          destruct (Z.leb_spec m (t_count s + 1)); [exists m; split; auto; lia|lia].
        * right. xfin.
    - right. destruct l as [d|i|i|i| |e]; cbn [tstep]; try congruence.
      + destruct (0 <=? d); xfin; eauto.
      + destruct (dget (t_calls s) i) as [[|]|]; eauto. rewrite D. xfin. eauto.
      + destruct (dget (t_calls s) i) as [[|]|]; eauto. rewrite D. xfin. eauto.
      + unfold run_step. rewrite D. eauto.
  Qed.
  Lemma EX_run b0 ls : forall s, starts_in ls = 0%nat -> no_stop ls -> nothing_raises ls -> EXd b0 s -> EXd b0 (trun iv lim s ls).
  Proof.
    induction ls as [|l ls0 IH]; cbn; auto. intros s S N1 N3 E. unfold starts_in in S. cbn in S.
    apply IH.
    - unfold starts_in. destruct l; try discriminate S; exact S.
    - intros C. apply N1. now right.
    - intros e C. apply (N3 e). now right.
    - apply EX_step; auto. + intros ->. apply N1. now left. + intros i ->. discriminate S. + intros e ->. apply (N3 e). now left.
  Qed.
  Definition idle (s : timer) : Prop := t_th s = NotYet /\ t_count s = 0 /\ begins (t_log s) = 0 /\ t_calls s = [].
  Theorem exact_count ls : starts_in ls = 1%nat -> no_stop ls -> nothing_raises ls ->
    t_th (trun iv lim timer0 ls) = Dead ->
    exists m, lim = Some m /\ begins (t_log (trun iv lim timer0 ls)) = Z.max 1 m.
  Proof.
    assert (B : forall ls s, starts_in ls = 1%nat -> no_stop ls -> nothing_raises ls -> idle s -> EXd 0 (trun iv lim s ls)).
    { induction ls0 as [|l ls0 IH]; [discriminate|]. intros s S N1 N3 I. cbn [trun fold_left].
      assert (N1' : no_stop ls0) by (intros C; apply N1; now right).
      assert (N3' : nothing_raises ls0) by (intros e C; apply (N3 e); now right).
      destruct I as (I1 & I2 & I3 & I4).
      destruct l as [d|i|i|i| |e].
      - apply IH; auto. cbn [tstep]. destruct (0 <=? d); repeat split; auto.
      - apply EX_run; auto. left. cbn [tstep]. rewrite I4. cbn [dget]. unfold EX. xfin. rewrite I1, I3. split; auto. split; [lia|]. split; auto. split; auto.
          destruct lim; auto. lia.
      - apply IH; auto. cbn [tstep]. rewrite I4. cbn [dget]. repeat split; auto.
      - apply IH; auto. cbn [tstep]. rewrite I4. cbn [dget]. repeat split; auto.
      - exfalso. apply N1. now left.
      - apply IH; auto. cbn [tstep]. unfold run_step. rewrite I1. repeat split; auto. }
    intros S N1 N3 D. destruct (B ls timer0 S N1 N3) as [E|(_ & m & E1 & E2)].
    - repeat split.
    - unfold EX in E. destruct E as (_ & _ & E). rewrite D in E. destruct E.
    - exists m. split; [exact E1|lia].
  Qed.
  (** the same again after each start() *)
  Theorem exact_again s i ls : waiting_to_call s -> dget (t_calls s) i = None -> no_stop ls -> no_start ls -> nothing_raises ls ->
    t_th (trun iv lim s (TStart i :: ls)) = Dead ->
    exists m l, lim = Some m /\ t_log (trun iv lim s (TStart i :: ls)) = t_log s ++ EStart :: l /\ begins l = Z.max 1 m.
  Proof.
    intros W C N1 N2 N3 D.
    assert (Z0 : starts_in ls = 0%nat).
    { clear - N2. unfold starts_in. induction ls as [|l ls IH]; auto. cbn [filter]. destruct l; try (apply IH; intros k H; apply (N2 k); right; exact H).
      destruct (N2 i). left. reflexivity. }
    assert (E : EXd (begins (t_log s)) (trun iv lim s (TStart i :: ls))).
    { rewrite trun_cons. apply EX_run; auto. left. cbn [tstep]. rewrite C. unfold EX. xfin.
      split; auto. split; [lia|]. unfold waiting_to_call in W.
      assert (B : match lim with Some m => 0 < Z.max 1 m | None => True end) by (destruct lim; [lia|exact I]).
      destruct (t_th s) as [|[]|]; try contradiction; repeat split; auto; lia. }
    assert (L : exists l, t_log (trun iv lim s (TStart i :: ls)) = t_log s ++ EStart :: l).
    { assert (G : forall ls s, exists x, t_log (trun iv lim s ls) = t_log s ++ x).
      { clear. induction ls as [|l ls IH]; intros s; [exists []; cbn; now rewrite app_nil_r|]. rewrite trun_cons.
        destruct (IH (tstep iv lim s l)) as (x & X). destruct (logs s l) as (y & Y). exists (y ++ x). rewrite X, Y, app_assoc. reflexivity. }
      rewrite trun_cons. destruct (G ls (tstep iv lim s (TStart i))) as (x & X). exists x. rewrite X. cbn [tstep]. rewrite C. cbn [t_log].
      rewrite <- app_assoc. reflexivity. }
    destruct L as (l & L). destruct E as [E|(_ & m & Lm & B)].
    - exfalso. unfold EX in E. rewrite D in E. tauto.
    - exists m, l. split; auto. split; auto. rewrite L, begins_app, begins_cons in B. cbn [is_begin] in B. lia.
  Qed.
End T.

(** ** The thread is held up, or is about to end *)
Lemma coincide iv lim s l : t_th s = At PBegin -> t_running s = true -> t_last s = Some l -> l + iv <= t_now s ->
  (forall m, lim = Some m -> t_count s + 1 < m) ->
  t_log (trun iv lim s (runs 8)) = t_log s ++ [EBegin (t_now s); EDecide (t_now s); EBegin (t_now s)].
Proof.
  destruct s as [now run last cnt th calls lg]. cbn [t_th t_running t_last t_now t_count t_log]. intros -> -> -> L Lm.
  unfold runs. cbn [repeat trun fold_left tstep]. cbn.
  assert (F : match lim with Some m => if m <=? cnt + 1 then PFin else PTest | None => PTest end = PTest).
  { destruct lim as [m|]; auto. specialize (Lm m eq_refl). destruct (Z.leb_spec m (cnt + 1)); [lia|reflexivity]. }
  rewrite F. cbn. assert (G : (0 <? iv - (now - l)) = false) by (apply Z.ltb_ge; lia). rewrite G. cbn.
  rewrite !app_nil_r, <- !app_assoc. reflexivity.
Qed.

Lemma dead_step iv lim s l : t_th s = Dead -> t_th (tstep iv lim s l) = Dead /\ begins (t_log (tstep iv lim s l)) = begins (t_log s).
Proof.
  intros D. destruct l; cbn [tstep].
  - destruct (0 <=? d); auto.
  - destruct (dget (t_calls s) i); auto. cbn. rewrite begins_app. split; [exact D|cbn; lia].
  - destruct (dget (t_calls s) i) as [[]|]; auto. rewrite D. auto.
  - destruct (dget (t_calls s) i) as [[]|]; auto. rewrite D. cbn. rewrite begins_app. split; [reflexivity|cbn; lia].
  - cbn. rewrite begins_app. split; [exact D|cbn; lia].
  - unfold run_step. rewrite D. auto.
Qed.
Lemma dead_run iv lim ls : forall s, t_th s = Dead -> begins (t_log (trun iv lim s ls)) = begins (t_log s).
Proof.
  induction ls as [|l ls IH]; intros s D; [reflexivity|]. destruct (dead_step iv lim s l D) as [D' B].
  change (trun iv lim s (l :: ls)) with (trun iv lim (tstep iv lim s l) ls). rewrite (IH _ D'). exact B.
Qed.
Lemma without_effect iv lim s i : t_th s = At PFin -> dget (t_calls s) i = None ->
  let s' := trun iv lim s [TStart i; TCheck i; TRun None] in
  t_log s' = t_log s ++ [EStart; EStarted i (Ok tt); EDead] /\ t_th s' = Dead /\
  forall ls, begins (t_log (trun iv lim s' ls)) = begins (t_log s).
Proof.
  intros P C s'. assert (A : t_log s' = t_log s ++ [EStart; EStarted i (Ok tt); EDead] /\ t_th s' = Dead).
  { unfold s'. cbn [trun fold_left tstep]. rewrite C. cbn [t_calls]. rewrite dget_dset_same. cbn [t_th]. rewrite P. cbn [t_th].
    unfold run_step. cbn. rewrite ?P. cbn. rewrite <- !app_assoc. auto. }
  destruct A as [A B]. split; [exact A|]. split; [exact B|]. intro ls. rewrite (dead_run _ _ _ _ B), A, begins_app. cbn. lia.
Qed.
