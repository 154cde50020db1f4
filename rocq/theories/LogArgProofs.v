(** Lemmas about the arguments of log messages. *)
From Verif Require Import Py LogArgModel LogArgSpec.
Local Open Scope nat_scope.

Definition logs (os : list aop) : nat := List.length (filter (fun o => match o with ALog _ => true | _ => false end) os).
Lemma logs_app a b : logs (a ++ b) = logs a + logs b.
Proof. unfold logs. now rewrite filter_app, app_length. Qed.
Lemma objects_app a : forall f b, objects f (a ++ b) = objects (objects f a) b.
Proof. induction a as [|o a IH]; intros f b; [reflexivity|]. destruct o; cbn; apply IH. Qed.
Lemma run_snoc s os o : arun s (os ++ [o]) = astep (arun s os) o.
Proof. unfold arun. now rewrite fold_left_app. Qed.
Lemma about_more f os i v o : about f os i v -> about f (os ++ [o]) i v.
Proof. intros (l & a & r & -> & I & X). exists l, a, (r ++ [o])%list. split; [now rewrite <- app_assoc|auto]. Qed.
Lemma unchanged_less os o : unchanged (os ++ [o]) -> unchanged os.
Proof.
  intros U l c m v r ->. apply (U l c m v (r ++ [o])%list). rewrite <- !app_assoc. cbn. do 2 f_equal. rewrite <- app_assoc. reflexivity.
Qed.
Lemma set_kept os c v : unchanged (os ++ [ASet c v]) -> ~ In (ALog (Ref c)) os.
Proof.
  intros U I. apply in_split in I. destruct I as (l & m & ->). apply (U l c m v []). rewrite <- app_assoc. reflexivity.
Qed.
Record ainv (f : nat -> Z) (os : list aop) (s : ast) : Prop := {
  v_obj : forall c, a_obj s c = objects f os c;
  v_next : a_next s = logs os;
  v_log : forall i a, In (i, a) (a_queue s) -> In (ALog a) os;
  v_queue : forall i a, In (i, a) (a_queue s) -> about f os i (show (a_obj s) a);
  v_out : forall i v, In (i, v) (a_out s) -> about f os i v
}.
Lemma inv_all f os : unchanged os -> ainv f os (arun (ast0 f) os).
Proof.
  induction os as [|o os IH] using rev_ind; intro U.
  - constructor; cbn; try contradiction; reflexivity.
  - specialize (IH (unchanged_less _ _ U)). rewrite run_snoc. destruct IH as [H1 H2 H3 H4 H5]. set (s := arun _ os) in *.
    destruct o as [a|c v|]; cbn [astep].
    + constructor; cbn [a_obj a_queue a_next a_out].
      * intro c. rewrite objects_app. apply H1.
      * rewrite logs_app, H2. cbn. lia.
      * intros i a' J. apply in_or_app. apply in_app_or in J. destruct J as [J|[[= <- <-]|[]]]; [eauto|right; left; reflexivity].
      * intros i a' J. apply in_app_or in J. destruct J as [J|[[= <- <-]|[]]]; [apply about_more; auto|].
        exists os, a, []. split; [reflexivity|]. split; [exact H2|]. destruct a; cbn; auto.
      * intros i v J. apply about_more. auto.
    + pose proof (set_kept _ _ _ U) as K. constructor; cbn [a_obj a_queue a_next a_out].
      * intro x. rewrite objects_app. cbn. rewrite H1. reflexivity.
      * rewrite logs_app, H2. cbn. lia.
      * intros i a J. apply in_or_app. eauto.
      * intros i a J. apply about_more. specialize (H4 i a J). destruct a as [z|c']; [exact H4|]. cbn in *.
        destruct (Nat.eqb_spec c' c) as [->|N]; [exfalso; apply K; eauto|exact H4].
      * intros i w J. apply about_more. auto.
    + destruct (a_queue s) as [|[i a] q] eqn:Q; constructor; cbn [a_obj a_queue a_next a_out]; try rewrite Q.
      * intro c. rewrite objects_app. apply H1.
      * rewrite logs_app, H2. cbn. lia.
      * intros ? ? [].
      * intros ? ? [].
      * intros j v J. apply about_more. auto.
      * intro c. rewrite objects_app. apply H1.
      * rewrite logs_app, H2. cbn. lia.
      * intros j b J. apply in_or_app. left. apply (H3 j). right. exact J.
      * intros j b J. apply about_more, H4. right. exact J.
      * intros j v J. apply in_app_or in J. destruct J as [J|[[= <- <-]|[]]]; apply about_more; auto. apply H4. left. reflexivity.
Qed.
Lemma says f os i v : unchanged os -> In (i, v) (a_out (arun (ast0 f) os)) -> about f os i v.
Proof. intros U J. apply (v_out _ _ _ (inv_all f os U)). exact J. Qed.

Lemma next_logs f os : a_next (arun (ast0 f) os) = logs os.
Proof.
  induction os as [|o os IH] using rev_ind; [reflexivity|]. rewrite run_snoc, logs_app. unfold logs at 2.
  destruct o; cbn; rewrite <- ?IH; try lia. destruct (a_queue (arun (ast0 f) os)) as [|[]]; cbn; lia.
Qed.
Lemma writes q : forall s, a_queue s = q ->
  a_out (arun s (repeat AWrite (List.length q))) = (a_out s ++ map (fun x => (fst x, show (a_obj s) (snd x))) q)%list.
Proof.
  induction q as [|[i a] q IH]; intros s Q; [cbn; now rewrite app_nil_r|].
  cbn [List.length repeat]. change (arun s (AWrite :: repeat AWrite (List.length q))) with (arun (astep s AWrite) (repeat AWrite (List.length q))).
  rewrite (IH (astep s AWrite)) by (cbn; now rewrite Q). cbn. rewrite Q. cbn. now rewrite <- app_assoc.
Qed.
Lemma changed_shown f os c v :
  exists n, In (logs os, v) (a_out (arun (ast0 f) (os ++ [ALog (Ref c); ASet c v] ++ repeat AWrite n))).
Proof.
  set (s := arun (ast0 f) (os ++ [ALog (Ref c); ASet c v])). exists (List.length (a_queue s)).
  rewrite app_assoc. unfold arun. rewrite fold_left_app. fold (arun (ast0 f) (os ++ [ALog (Ref c); ASet c v])). fold s. fold (arun s (repeat AWrite (List.length (a_queue s)))).
  rewrite writes by reflexivity. apply in_or_app. right. apply in_map_iff. exists (logs os, Ref c). split.
  - cbn. unfold s, arun. rewrite fold_left_app. cbn. now rewrite Nat.eqb_refl.
  - unfold s, arun. rewrite fold_left_app. cbn. apply in_or_app. right. left. fold (arun (ast0 f) os). now rewrite next_logs.
Qed.
Lemma about_end f os c v i w : i = logs os -> about f (os ++ [ALog (Ref c); ASet c v]) i w -> w = objects f os c.
Proof.
  intros -> (l & a & r & E & I & X). fold (logs l) in I.
  assert (L : l = os /\ a = Ref c).
  { destruct (List.app_eq_app _ _ _ _ E) as (m & [(E1 & E2)|(E1 & E2)]).
    - (* os = l ++ m *) destruct m as [|o m]; cbn in E2; [injection E2 as <- _; rewrite app_nil_r in E1; auto|].
      injection E2 as <- E2. subst os. rewrite logs_app in I. cbn in I. lia.
    - subst l. rewrite logs_app in I. destruct m as [|o m]; cbn in E2; [injection E2 as <- _; rewrite app_nil_r; auto|].
      injection E2 as <- E2. cbn in I. lia. }
  destruct L as (-> & ->). exact X.
Qed.
Lemma refuted f os c v : v <> objects f os c ->
  exists n i, let h := (os ++ [ALog (Ref c); ASet c v])%list in
    In (i, v) (a_out (arun (ast0 f) (h ++ repeat AWrite n))) /\ about f h i (objects f os c) /\ ~ about f h i v.
Proof.
  intro N. destruct (changed_shown f os c v) as (n & J). exists n, (logs os). cbv zeta. rewrite <- app_assoc. split; [exact J|]. split.
  - exists os, (Ref c), [ASet c v]. auto.
  - intro A. apply (about_end _ _ _ _ _ _ eq_refl) in A. contradiction.
Qed.
