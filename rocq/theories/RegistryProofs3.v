From Verif Require Import Py RegistryModel RegistrySpec RegistryProofs RegistryProofs2.
Local Open Scope nat_scope.

Lemma srun_len es : forall s s' l, sev_run s es = Some (s', l) -> List.length l = List.length es.
Proof.
  induction es as [|e es IH]; cbn; intros s s' l H; [now injection H as <- <-|].
  destruct (sev_step s e) as [[s1 a]|]; [|easy]. destruct (sev_run s1 es) as [[s2 l2]|] eqn:R; [|easy].
  injection H as <- <-. cbn. f_equal. eapply IH; eauto.
Qed.
Lemma srun_app es1 : forall es2 s s' l, sev_run s (es1 ++ es2) = Some (s', l) <->
  exists s1 l1 l2, sev_run s es1 = Some (s1, l1) /\ sev_run s1 es2 = Some (s', l2) /\ l = l1 ++ l2.
Proof.
  induction es1 as [|e es IH]; cbn; intros es2 s s' l.
  - split; [intro H; exists s, [], l; auto|intros (s1 & l1 & l2 & [= <- <-] & H & ->); exact H].
  - destruct (sev_step s e) as [[s1 a]|]; [|split; [easy|intros (? & ? & ? & [=] & _)]]. split.
    + destruct (sev_run s1 (es ++ es2)) as [[s2 l2]|] eqn:R; [|easy]. intros [= <- <-].
      apply IH in R. destruct R as (s3 & l3 & l4 & R3 & R4 & ->). rewrite R3. exists s3, (a :: l3), l4. auto.
    + intros (s3 & l3 & l4 & H & R4 & ->). destruct (sev_run s1 es) as [[s5 l5]|] eqn:R; [|easy]. injection H as -> <-.
      assert (X : sev_run s1 (es ++ es2) = Some (s', l5 ++ l4)) by (apply IH; exists s3, l5, l4; auto). rewrite X. reflexivity.
Qed.
Lemma happened_s_ind (P : list (sev * sans) -> sreg -> Prop) : P [] sreg0 ->
  (forall tr s e s' x, happened_s tr s -> P tr s -> sev_step s e = Some (s', x) -> P (tr ++ [(e, x)]) s') ->
  forall tr s, happened_s tr s -> P tr s.
Proof.
  intros P0 PS tr s (es & l & R & ->). revert s l R. induction es as [|e es IH] using List.rev_ind; intros s l R.
  - injection R as <- <-. exact P0.
  - apply srun_app in R. destruct R as (s1 & l1 & l2 & R1 & R2 & ->). cbn in R2.
    destruct (sev_step s1 e) as [[s2 x]|] eqn:E; [|easy]. injection R2 as <- <-.
    rewrite combine_app by (eapply srun_len; eauto). apply (PS _ s1); [exists es, l1; auto|eauto|exact E].
Qed.
Lemma snil {A} (tr : list A) x : tr ++ [x] = [] -> False.
Proof. intro E. symmetry in E. now apply app_cons_not_nil in E. Qed.

Lemma serving_snoc tr e x i v : serving (tr ++ [(e, x)]) i v <->
  (serving tr i v /\ e <> Unreg v i) \/ (e = RLock i v /\ x = SMore).
Proof.
  split.
  - intro S. inversion S as [t i' v' E|t e' x' i' v' S' N E]; apply app_inj_tail in E; destruct E as [-> E]; injection E as <- <-; subst; auto.
  - intros [[S N]|[-> ->]]; [now apply serv_before|apply serv_now].
Qed.
Lemma asking_snoc tr e x i v : asking (tr ++ [(e, x)]) i v <->
  (asking tr i v /\ e <> RLock i v) \/ (e = RCheck i v /\ x = SMore).
Proof.
  split.
  - intro S. inversion S as [t i' v' E|t e' x' i' v' S' N E]; apply app_inj_tail in E; destruct E as [-> E]; injection E as <- <-; subst; auto.
  - intros [[S N]|[-> ->]]; [now apply ask_before|apply ask_now].
Qed.
Lemma placed_snoc tr e x i v : placed (tr ++ [(e, x)]) v i <->
  (placed tr v i /\ forall j, e <> RSet j v) \/ e = RSet i v.
Proof.
  split.
  - intro S. inversion S as [t x' i' v' E|t e' x' i' v' S' N E]; apply app_inj_tail in E; destruct E as [-> E]; injection E as <- <-; subst; auto.
  - intros [[S N]| ->]; [now apply place_before|apply place_now].
Qed.

Record VInv (tr : list (sev * sans)) (s : sreg) : Prop := {
  vi_d : NoDup (dkeys (v_dict s));
  vi_p : NoDup (dkeys (v_pend s));
  vi_s : forall i v, serving tr i v <-> dget (v_dict s) i = Some v;
  vi_a : forall i v, asking tr i v <-> dget (v_pend s) (i, v) = Some PLock;
  vi_t : forall i v, placed tr v i <-> dget (v_thread s) v = Some i
}.
Ltac no3 := intros; first [intros [=]|discriminate].
Lemma vstep tr s e s' x : VInv tr s -> sev_step s e = Some (s', x) -> VInv (tr ++ [(e, x)]) s'.
Proof.
  intros V H. pose proof (sev_nodup _ _ _ _ (vi_d _ _ V) H) as ND.
  assert (Same : s' = s -> (forall i v, ~ (e = RLock i v)) -> (forall v i, e = Unreg v i -> ~ serving tr i v) ->
    (forall i v, ~ (e = RCheck i v /\ x = SMore)) -> (forall i v, ~ (e = RSet i v)) -> VInv (tr ++ [(e, x)]) s').
  { intros -> N1 N2 N3 N4. constructor; try apply V.
    - intros i v. rewrite serving_snoc, <- (vi_s _ _ V). split; [intros [[S _]|[E _]]; [exact S|destruct (N1 _ _ E)]|].
      intro S. left. split; [exact S|]. intro E. exact (N2 _ _ E S).
    - intros i v. rewrite asking_snoc, <- (vi_a _ _ V). split; [intros [[S _]|E]; [exact S|destruct (N3 _ _ E)]|].
      intro S. left. split; [exact S|apply N1].
    - intros i v. rewrite placed_snoc, <- (vi_t _ _ V). split; [intros [[S _]|E]; [exact S|destruct (N4 _ _ E)]|].
      intro S. left. split; [exact S|]. intro j. apply N4. }
  destruct e as [j w|j w|j w|w k|j]; cbn in H.
  - destruct (dget (v_pend s) (j, w)) eqn:Pj; [easy|]. destruct (dget (v_thread s) w) as [t|] eqn:T.
    + destruct (t =? j); injection H as <- <-; apply Same; auto; try (intros ? ? [? ?]; congruence); intros; congruence.
    + injection H as <- <-. constructor; cbn [v_dict v_pend v_thread] in *; auto.
      * apply NoDup_dset, V.
      * intros i v. rewrite serving_snoc, <- (vi_s _ _ V). split; [intros [[S _]|[[=] _]]; exact S|]. intro S. left. split; [exact S|no3].
      * intros i v. rewrite asking_snoc, dget_dset. destruct (eqb_reflect (i, v) (j, w)) as [[= -> ->]|N].
        -- split; [reflexivity|]. auto.
        -- rewrite <- (vi_a _ _ V). split; [intros [[S _]|[[= -> ->] _]]; [exact S|congruence]|]. intro S. left. split; [exact S|no3].
      * intros i v. rewrite placed_snoc, <- (vi_t _ _ V). split; [intros [[S _]|[=]]; exact S|]. intro S. left. split; [exact S|no3].
  - destruct (dget (v_pend s) (j, w)) as [[|]|] eqn:Pj; try easy.
    destruct (dget (v_dict s) j) as [u|] eqn:Dj; injection H as <- <-; constructor; cbn [v_dict v_pend v_thread] in *; auto.
    + apply NoDup_ddel, V.
    + intros i v. rewrite serving_snoc, <- (vi_s _ _ V). split; [intros [[S _]|[_ [=]]]; exact S|]. intro S. left. split; [exact S|no3].
    + intros i v. rewrite asking_snoc. destruct (eqb_reflect (j, w) (i, v)) as [[= <- <-]|N].
      * rewrite dget_ddel_same by apply V. split; [intros [[_ X]|[[=] _]]; congruence|discriminate].
      * rewrite dget_ddel_other by exact N. rewrite <- (vi_a _ _ V). split; [intros [[S _]|[[=] _]]; exact S|]. intro S. left. split; [exact S|congruence].
    + intros i v. rewrite placed_snoc, <- (vi_t _ _ V). split; [intros [[S _]|[=]]; exact S|]. intro S. left. split; [exact S|no3].
    + apply NoDup_dset, V.
    + intros i v. rewrite serving_snoc, dget_dset. destruct (eqb_reflect i j) as [->|N].
      * split; [intros [[S _]|[[= <-] _]]; [apply (vi_s _ _ V) in S; congruence|reflexivity]|]. intros [= <-]. auto.
      * rewrite <- (vi_s _ _ V). split; [intros [[S _]|[[= <- <-] _]]; [exact S|congruence]|]. intro S. left. split; [exact S|no3].
    + intros i v. rewrite asking_snoc, dget_dset. destruct (eqb_reflect (i, v) (j, w)) as [[= -> ->]|N].
      * split; [intros [[_ X]|[[=] _]]; congruence|discriminate].
      * rewrite <- (vi_a _ _ V). split; [intros [[S _]|[[=] _]]; exact S|]. intro S. left. split; [exact S|congruence].
    + intros i v. rewrite placed_snoc, <- (vi_t _ _ V). split; [intros [[S _]|[=]]; exact S|]. intro S. left. split; [exact S|no3].
  - destruct (dget (v_pend s) (j, w)) as [[|]|] eqn:Pj; try easy.
    injection H as <- <-; constructor; cbn [v_dict v_pend v_thread] in *; auto.
    + apply NoDup_ddel, V.
    + intros i v. rewrite serving_snoc, <- (vi_s _ _ V). split; [intros [[S _]|[[=] _]]; exact S|]. intro S. left. split; [exact S|no3].
    + intros i v. rewrite asking_snoc. destruct (eqb_reflect (j, w) (i, v)) as [[= <- <-]|N].
      * rewrite dget_ddel_same by apply V. split; [|discriminate]. intros [[X _]|[[=] _]]. apply (vi_a _ _ V) in X. congruence.
      * rewrite dget_ddel_other by exact N. rewrite <- (vi_a _ _ V). split; [intros [[S _]|[[=] _]]; exact S|]. intro S. left. split; [exact S|no3].
    + intros i v. rewrite placed_snoc, dget_dset. destruct (eqb_reflect v w) as [->|N].
      * split; [intros [[_ X]|[= ->]]; [destruct (X j eq_refl)|reflexivity]|]. intros [= <-]. auto.
      * rewrite <- (vi_t _ _ V). split; [intros [[S _]|[= <- <-]]; [exact S|congruence]|]. intro S. left. split; [exact S|congruence].
  - destruct (dget (v_dict s) k) as [u|] eqn:Dk.
    + destruct (Nat.eqb_spec u w) as [->|N]; injection H as <- <-.
      * constructor; cbn [v_dict v_pend v_thread] in *; auto; try apply V.
        -- intros i v. rewrite serving_snoc. destruct (Nat.eq_dec k i) as [->|N].
           ++ rewrite dget_ddel_same by apply V. split; [|discriminate]. intros [[S X]|[[=] _]]. apply (vi_s _ _ V) in S. congruence.
           ++ rewrite dget_ddel_other by exact N. rewrite <- (vi_s _ _ V). split; [intros [[S _]|[[=] _]]; exact S|]. intro S. left. split; [exact S|congruence].
        -- intros i v. rewrite asking_snoc, <- (vi_a _ _ V). split; [intros [[S _]|[[=] _]]; exact S|]. intro S. left. split; [exact S|no3].
        -- intros i v. rewrite placed_snoc, <- (vi_t _ _ V). split; [intros [[S _]|[=]]; exact S|]. intro S. left. split; [exact S|no3].
      * apply Same; auto; try (intros ? ? [? ?]; congruence); try (intros; congruence).
        intros v i [= <- <-] S. apply (vi_s _ _ V) in S. congruence.
    + injection H as <- <-. apply Same; auto; try (intros ? ? [? ?]; congruence); try (intros; congruence).
      intros v i [= <- <-] S. apply (vi_s _ _ V) in S. congruence.
  - injection H as <- <-. apply Same; auto; try (intros ? ? [? ?]; congruence); intros; congruence.
Qed.
Lemma vinv tr s : happened_s tr s -> VInv tr s.
Proof.
  intro H. induction H using happened_s_ind; [|eapply vstep; eauto].
  assert (E1 : forall i v, ~ serving [] i v) by (intros i v S; inversion S; match goal with E : _ ++ [_] = [] |- _ => destruct (snil _ _ E) end).
  assert (E2 : forall i v, ~ asking [] i v) by (intros i v S; inversion S; match goal with E : _ ++ [_] = [] |- _ => destruct (snil _ _ E) end).
  assert (E3 : forall i v, ~ placed [] v i) by (intros i v S; inversion S; match goal with E : _ ++ [_] = [] |- _ => destruct (snil _ _ E) end).
  constructor; cbn; try (now constructor); intros i v; split; intro S; try discriminate; exfalso; [eapply E1|eapply E2|eapply E3]; eauto.
Qed.

Theorem get_server_finds tr s i : happened_s tr s ->
  exists r, sev_step s (GetS i) = Some (s, r) /\ (forall v, r = SServer v <-> serving tr i v) /\ (r = SNone <-> forall v, ~ serving tr i v).
Proof.
  intro H. pose proof (vinv _ _ H) as V. cbn [sev_step]. eexists. split; [reflexivity|].
  destruct (dget (v_dict s) i) as [w|] eqn:D; split.
  - intro v. rewrite (vi_s _ _ V), D. split; congruence.
  - split; [discriminate|]. intro N. destruct (N w). now apply (vi_s _ _ V).
  - intro v. rewrite (vi_s _ _ V), D. split; discriminate.
  - split; [|auto]. intros _ v S. apply (vi_s _ _ V) in S. congruence.
Qed.
Theorem registration tr s i v : happened_s tr s -> asking tr i v ->
  exists s' r, sev_step s (RLock i v) = Some (s', r) /\
    ((exists w, serving tr i w) -> r = SErr KeyError) /\ ((forall w, ~ serving tr i w) -> r = SMore).
Proof.
  intros H A. pose proof (vinv _ _ H) as V. apply (vi_a _ _ V) in A. cbn [sev_step]. rewrite A.
  destruct (dget (v_dict s) i) as [w|] eqn:D; do 2 eexists; (split; [reflexivity|]); split.
  - reflexivity.
  - intro N. destruct (N w). now apply (vi_s _ _ V).
  - intros [w S]. apply (vi_s _ _ V) in S. congruence.
  - reflexivity.
Qed.
Theorem second_thread tr s v j i s' r : happened_s tr s -> placed tr v j -> i <> j ->
  sev_step s (RCheck i v) = Some (s', r) -> r = SErr AssertionError /\ s' = s.
Proof.
  intros H P N E. pose proof (vinv _ _ H) as V. apply (vi_t _ _ V) in P. cbn in E. rewrite P in E.
  destruct (dget (v_pend s) (i, v)); [easy|]. destruct (Nat.eqb_spec j i) as [->|_]; [congruence|]. now injection E as <- <-.
Qed.
Theorem unregister tr s v k : happened_s tr s ->
  exists s' r, sev_step s (Unreg v k) = Some (s', r) /\ (serving tr k v -> r = SOk) /\ (~ serving tr k v -> (exists e, r = SErr e) /\ s' = s).
Proof.
  intro H. pose proof (vinv _ _ H) as V. pose proof (vi_s _ _ V k v) as S. cbn [sev_step]. destruct (dget (v_dict s) k) as [w|] eqn:D.
  - destruct (Nat.eqb_spec w v) as [->|N]; do 2 eexists; (split; [reflexivity|]); split; auto.
    + intro X. destruct (X (proj2 S eq_refl)).
    + intro X. apply S in X. congruence.
    + eauto.
  - do 2 eexists; (split; [reflexivity|]); split; [intro X; apply S in X; discriminate|eauto].
Qed.
Theorem not_replaced2 tr s e s' x i v : happened_s tr s -> sev_step s (GetS i) = Some (s, SServer v) -> sev_step s e = Some (s', x) ->
  sev_step s' (GetS i) = Some (s', SServer v) \/ (e = Unreg v i /\ sev_step s' (GetS i) = Some (s', SNone)).
Proof.
  intros H G E. pose proof (vinv _ _ H) as V. cbn in G. destruct (dget (v_dict s) i) as [w|] eqn:D; [|discriminate]. injection G as ->.
  destruct (never_replaced _ _ _ _ i v (vi_d _ _ V) E D) as [X|[X Y]]; cbn; [rewrite X|rewrite Y]; auto.
Qed.
Theorem one_thread2 es s l i j v : sev_run sreg0 es = Some (s, l) -> apart sreg0 es ->
  sev_step s (GetS i) = Some (s, SServer v) -> sev_step s (GetS j) = Some (s, SServer v) -> i = j.
Proof.
  intros R A Gi Gj. cbn in Gi, Gj. destruct (dget (v_dict s) i) eqn:Di; [|discriminate]. destruct (dget (v_dict s) j) eqn:Dj; [|discriminate].
  injection Gi as ->. injection Gj as ->. eapply one_thread; eauto.
Qed.
