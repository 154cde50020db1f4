(** Lemmas about the end of a program. *)
From Verif Require Import Py AtExitModel AtExitSpec.
From Coq Require Import Sorted.
Local Open Scope nat_scope.

Definition starts (os : list xop) : nat := List.length (filter (fun o => match o with KStart _ _ => true | _ => false end) os).
Lemma starts_app a b : starts (a ++ b) = starts a + starts b.
Proof. unfold starts. now rewrite filter_app, app_length. Qed.
Lemma ends_len l : forall i, List.length (ends l i) = List.length l.
Proof. induction l as [|k l IH]; intros [|i]; cbn; auto. Qed.
Lemma ends_nth l : forall i j, nth_error (ends l i) j =
  match nth_error l j with Some k => Some (if Nat.eqb j i then mkKid (kd_daemon k) (kd_beh k) false else k) | None => None end.
Proof.
  induction l as [|k l IH]; intros [|i] [|j]; cbn; try reflexivity. { destruct (nth_error l j); reflexivity. } apply IH.
Qed.
Lemma xrun_snoc os o : xrun (os ++ [o]) = xstep (xrun os) o.
Proof. unfold xrun. now rewrite fold_left_app. Qed.
Lemma kids_len os : List.length (x_kids (xrun os)) = starts os.
Proof.
  induction os as [|o os IH] using rev_ind; [reflexivity|]. rewrite xrun_snoc, starts_app. destruct o; cbn.
  - rewrite app_length, IH. reflexivity.
  - rewrite ends_len, IH. lia.
Qed.
Definition live (l : list kid) (i : nat) (b : beh) : Prop := exists k, nth_error l i = Some k /\ kd_daemon k = false /\ kd_beh k = b /\ kd_running k = true.
Lemma still_iff os i b : still os i b <-> live (x_kids (xrun os)) i b.
Proof.
  induction os as [|o os IH] using rev_ind.
  - split; [intros (l & r & E & _); destruct l; discriminate|]. intros (k & E & _). destruct i; discriminate.
  - rewrite xrun_snoc. assert (S : still (os ++ [o]) i b <-> (o = KStart false b /\ i = starts os) \/ (still os i b /\ o <> KEnds i)).
    { split.
      - intros (l & r & E & I & N). destruct r as [|o' r _] using rev_ind.
        + apply app_inj_tail in E. destruct E as (<- & <-). left. auto.
        + change (l ++ KStart false b :: r ++ [o'])%list with (l ++ (KStart false b :: r) ++ [o'])%list in E. rewrite app_assoc in E.
          apply app_inj_tail in E. destruct E as (-> & <-). right. split.
          * exists l, r. split; [reflexivity|]. split; [exact I|]. intro J. apply N, in_or_app. auto.
          * intros ->. apply N, in_or_app. right. left. reflexivity.
      - intros [(-> & ->)|((l & r & -> & I & N) & O)].
        + exists os, []. auto.
        + exists l, (r ++ [o])%list. split; [now rewrite <- app_assoc|]. split; [exact I|]. intro J. apply in_app_or in J. destruct J as [J|[J|[]]]; auto. }
    rewrite S, IH. unfold live. destruct o as [d b'|j]; cbn [xstep x_kids].
    + split.
      * intros [([= -> ->] & ->)|((k & E & Q) & _)].
        -- exists (mkKid false b true). rewrite nth_error_app2 by (rewrite kids_len; lia). rewrite kids_len, Nat.sub_diag. cbn. auto.
        -- exists k. split; [|exact Q]. rewrite nth_error_app1; [exact E|]. apply nth_error_Some. congruence.
      * intros (k & E & D & B & R). destruct (Nat.lt_ge_cases i (List.length (x_kids (xrun os)))) as [L|L].
        -- rewrite nth_error_app1 in E by exact L. right. split; [exists k; auto|discriminate].
        -- rewrite nth_error_app2 in E by exact L. left. destruct (i - List.length (x_kids (xrun os))) as [|z] eqn:Z; [|destruct z; discriminate E].
           cbn in E. injection E as <-. cbn in D, B. subst. split; [reflexivity|]. rewrite <- kids_len. lia.
    + split.
      * intros [([=] & _)|((k & E & Q) & N)]. exists k. split; [|exact Q]. rewrite ends_nth, E. destruct (Nat.eqb_spec i j) as [->|]; [contradiction N; reflexivity|reflexivity].
      * intros (k & E & D & B & R). right. rewrite ends_nth in E. destruct (nth_error (x_kids (xrun os)) i) as [k'|] eqn:F; [|discriminate].
        injection E as E. destruct (Nat.eqb_spec i j) as [->|N]; [subst k; discriminate R|]. subst k'. split; [exists k; auto|congruence].
Qed.
Lemma hooks_ok os i : In i (x_hooks (xrun os)) <-> exists k, nth_error (x_kids (xrun os)) i = Some k /\ kd_daemon k = false.
Proof.
  induction os as [|o os IH] using rev_ind.
  - split; [intros []|]. intros (k & E & _). destruct i; discriminate.
  - rewrite xrun_snoc. destruct o as [d b|j]; cbn [xstep x_kids x_hooks].
    + assert (H : (exists k, nth_error (x_kids (xrun os) ++ [mkKid d b true])%list i = Some k /\ kd_daemon k = false) <->
        (exists k, nth_error (x_kids (xrun os)) i = Some k /\ kd_daemon k = false) \/ (i = List.length (x_kids (xrun os)) /\ d = false)).
      { split.
        - intros (k & E & D). destruct (Nat.lt_ge_cases i (List.length (x_kids (xrun os)))) as [L|L].
          + rewrite nth_error_app1 in E by exact L. left. eauto.
          + rewrite nth_error_app2 in E by exact L. right. destruct (i - List.length (x_kids (xrun os))) as [|z] eqn:Z; [|destruct z; discriminate E].
            cbn in E. injection E as <-. cbn in D. split; [lia|exact D].
        - intros [(k & E & D)|(-> & ->)].
          + exists k. split; [|exact D]. rewrite nth_error_app1; [exact E|]. apply nth_error_Some. congruence.
          + exists (mkKid false b true). rewrite nth_error_app2 by lia. rewrite Nat.sub_diag. cbn. auto. }
      rewrite H, <- IH. destruct d.
      * split; [auto|]. intros [X|(_ & [=])]. exact X.
      * rewrite in_app_iff. cbn. split; [intros [X|[X|[]]]|intros [X|(X & _)]]; auto.
    + rewrite IH. split; intros (k & E & D).
      * rewrite ends_nth, E. eexists. split; [reflexivity|]. destruct (Nat.eqb i j); exact D.
      * rewrite ends_nth in E. destruct (nth_error (x_kids (xrun os)) i) as [k'|]; [|discriminate]. injection E as <-. exists k'. split; [reflexivity|]. destruct (Nat.eqb i j) in D; exact D.
Qed.
Lemma hooks_sorted os : StronglySorted lt (x_hooks (xrun os)) /\ forall i, In i (x_hooks (xrun os)) -> i < starts os.
Proof.
  induction os as [|o os IH] using rev_ind; [split; [constructor|intros ? []]|]. rewrite xrun_snoc, starts_app. destruct IH as (S & B).
  destruct o as [d b|j]; cbn [xstep x_hooks]; unfold starts at 2; cbn.
  - destruct d; [split; [exact S|intros i I; specialize (B i I); lia]|]. rewrite kids_len. split.
    + clear - S B. induction S as [|x l S IH F]; cbn; [constructor; constructor|]. constructor; [apply IH; intros i I; apply B; right; exact I|].
      apply Forall_app. split; [exact F|]. constructor; [apply B; left; reflexivity|constructor].
    + intros i I. apply in_app_or in I. destruct I as [I|[<-|[]]]; [specialize (B i I)|]; lia.
  - split; [exact S|]. intros i I. specialize (B i I). lia.
Qed.
(** the functions, one after the other *)
Lemma stop_other l i j : j <> i -> nth_error (fst (stop_kid l i)) j = nth_error l j.
Proof.
  intro N. unfold stop_kid. destruct (nth_error l i) as [k|]; [|reflexivity]. destruct (kd_running k), (kd_beh k); try reflexivity.
  cbn. rewrite ends_nth. destruct (nth_error l j); [|reflexivity]. destruct (Nat.eqb_spec j i); congruence.
Qed.
Definition runb (l : list kid) (i : nat) : bool := match nth_error l i with Some k => kd_running k | None => false end.
Lemma exits_spec hooks : forall l, NoDup hooks ->
  asked (snd (exits l hooks)) = filter (runb l) hooks /\
  (forall j, ~ In j hooks -> nth_error (fst (exits l hooks)) j = nth_error l j) /\
  (forall j, In j hooks -> nth_error (fst (exits l hooks)) j = nth_error (fst (stop_kid l j)) j).
Proof.
  induction hooks as [|i r IH]; intros l N; [cbn; repeat split; auto; intros _ []|]. inversion N as [|? ? N1 N2]; subst. cbn [exits].
  pose proof (stop_other l i) as O. assert (A : asked (snd (stop_kid l i)) = if runb l i then [i] else []).
  { unfold stop_kid, runb. destruct (nth_error l i) as [k|]; [|reflexivity]. destruct (kd_running k), (kd_beh k); reflexivity. }
  destruct (stop_kid l i) as [l1 e1] eqn:E1. cbn [fst snd] in *. destruct (IH l1 N2) as (H1 & H2 & H3). destruct (exits l1 r) as [l2 e2]. cbn [fst snd] in *.
  assert (R : forall j, In j r -> nth_error l1 j = nth_error l j) by (intros j J; apply O; intros ->; contradiction).
  split; [|split].
  - unfold asked in *. rewrite flat_map_app, A, H1. cbn [filter]. assert (F : filter (runb l1) r = filter (runb l) r).
    { apply filter_ext_in. intros j J. unfold runb. now rewrite R. } rewrite F. destruct (runb l i); reflexivity.
  - intros j J. cbn in J. rewrite H2 by tauto. apply O. intros ->. apply J. auto.
  - intros j [<-|J].
    + rewrite H2 by exact N1. rewrite E1. reflexivity.
    + rewrite H3 by exact J. unfold stop_kid. rewrite (R j J). destruct (nth_error l j) as [k|] eqn:K; [|cbn; now rewrite (R j J), K].
      destruct (kd_running k), (kd_beh k); cbn; rewrite ?ends_nth, ?(R j J), ?K; reflexivity.
Qed.
Lemma sorted_nodup l : StronglySorted lt l -> NoDup l.
Proof. induction 1 as [|x l S IH F]; constructor; auto. intro I. rewrite Forall_forall in F. specialize (F x I). lia. Qed.
Lemma hooks_nodup os : NoDup (rev (x_hooks (xrun os))).
Proof. apply NoDup_rev, sorted_nodup, hooks_sorted. Qed.
Lemma asked_iff os i : In i (asked (snd (at_exit (xrun os)))) <-> exists b, still os i b.
Proof.
  unfold at_exit. destruct (exits_spec _ (x_kids (xrun os)) (hooks_nodup os)) as (A & _). rewrite A, filter_In, <- in_rev, hooks_ok. split.
  - intros ((k & E & D) & R). unfold runb in R. rewrite E in R. exists (kd_beh k). apply still_iff. exists k. auto.
  - intros (b & S). apply still_iff in S. destruct S as (k & E & D & B & R). split; [eauto|]. unfold runb. now rewrite E.
Qed.
Lemma filter_sorted {A} (R : A -> A -> Prop) f l : StronglySorted R l -> StronglySorted R (filter f l).
Proof.
  induction 1 as [|x l S IH F]; cbn; [constructor|]. destruct (f x); [|exact IH]. constructor; [exact IH|]. rewrite Forall_forall in *. intros y I. apply filter_In in I. apply F, I.
Qed.
Lemma rev_sorted l : StronglySorted lt l -> StronglySorted gt (rev l).
Proof.
  induction 1 as [|x l S IH F]; cbn; [constructor|].
  assert (G : forall y, In y (rev l) -> x < y) by (intros y I; apply in_rev in I; rewrite Forall_forall in F; auto). clear - IH G.
  induction (rev l) as [|y r IHr]; cbn; [constructor; constructor|]. inversion IH as [|? ? S F]; subst. constructor; [apply IHr; auto; intros z I; apply G; right; exact I|].
  apply Forall_app. split; [exact F|]. constructor; [|constructor]. specialize (G y (or_introl eq_refl)). lia.
Qed.
Lemma latest_first os : StronglySorted gt (asked (snd (at_exit (xrun os)))).
Proof. unfold at_exit. destruct (exits_spec _ (x_kids (xrun os)) (hooks_nodup os)) as (A & _). rewrite A. apply filter_sorted, rev_sorted, hooks_sorted. Qed.
Lemma after os i b : still os i b -> (runs (fst (at_exit (xrun os))) i <-> b <> BCloses).
Proof.
  intro S. apply still_iff in S. destruct S as (k & E & D & <- & R). unfold at_exit. destruct (exits_spec _ (x_kids (xrun os)) (hooks_nodup os)) as (_ & _ & H).
  unfold runs. rewrite H by (rewrite <- in_rev, hooks_ok; eauto). unfold stop_kid. rewrite E, R.
  destruct (kd_beh k) eqn:B; cbn [fst]; rewrite ?ends_nth, ?E, ?Nat.eqb_refl.
  - split; [intros (k' & [= <-] & X); discriminate X|intro X; congruence].
  - split; [discriminate|eauto].
  - split; [discriminate|eauto].
  - split; [discriminate|eauto].
Qed.
Lemma cooperative os i : still os i BCloses -> ~ runs (fst (at_exit (xrun os))) i.
Proof. intros S X. apply (after _ _ _ S) in X. congruence. Qed.
Lemma left_running os i b : still os i b -> b <> BCloses -> runs (fst (at_exit (xrun os))) i.
Proof. intros S B. apply (after _ _ _ S). exact B. Qed.
