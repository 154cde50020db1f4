From Verif Require Import Py LogHandlerModel LogHandlerSpec.
Local Open Scope Z_scope.

Lemma insert_perm x l : Permutation (x :: l) (insert_rec x l).
Proof.
  induction l as [|y l IH]; cbn; auto. destruct (_ <? _); auto. rewrite perm_swap. now apply perm_skip.
Qed.
Lemma sort_perm l : Permutation l (sort_recs l).
Proof. induction l as [|x l IH]; cbn; auto. rewrite <- insert_perm. now apply perm_skip. Qed.
Lemma insert_sorted x l : StronglySorted older l -> StronglySorted older (insert_rec x l).
Proof.
  induction l as [|y l IH]; cbn; intros H; [repeat constructor|]. inversion H; subst.
  destruct (Z.ltb_spec (r_created y) (r_created x)).
  - constructor; auto. rewrite <- insert_perm. constructor; auto. unfold older. lia.
  - constructor; auto. constructor; auto. eapply Forall_impl; [|exact H3]. unfold older. intros a Ha. lia.
Qed.
Lemma sort_sorted l : StronglySorted older (sort_recs l).
Proof. induction l as [|x l IH]; cbn; [constructor|]. now apply insert_sorted. Qed.

Lemma pop_split lim l : forall a b, pop_older lim l = (a, b) -> l = a ++ b /\ (forall x, In x a -> r_created x < lim).
Proof.
  induction l as [|x l IH]; cbn; intros a b E; [injection E as <- <-; easy|].
  destruct (Z.ltb_spec (r_created x) lim).
  - destruct (pop_older lim l) as [a' b'] eqn:P. injection E as <- <-. destruct (IH a' b' eq_refl) as [-> H1].
    split; auto. intros y [<-|Hy]; auto.
  - injection E as <- <-. easy.
Qed.

Section H.
  Variable delay : Z.
  Variable color : bool.

  (** *** nothing lost, nothing twice *)
  Definition all (s : hst) : list lrec := h_out s ++ h_bad s ++ being_written s ++ being_flushed s ++ h_recs s.
  Lemma all_write s r : Permutation (r :: all s) (all (write color s r)).
  Proof.
    unfold write, all, being_written, being_flushed. destruct (formats color r); cbn.
    - rewrite <- app_assoc. cbn. apply Permutation_middle.
    - rewrite <- app_assoc. cbn. rewrite <- !Permutation_middle. reflexivity.
  Qed.
  Lemma step_all s l : h_exit s = false -> Permutation (all s ++ emitted [l]) (all (hstep delay color s l)).
  Proof.
    intros E. unfold hstep. rewrite E.
    assert (R : Permutation (all s ++ []) (all s)) by now rewrite app_nil_r.
    destruct l; cbn [emitted]; auto.
    - destruct (0 <=? d); auto.
    - unfold all, being_written, being_flushed. cbn. rewrite <- sort_perm. now rewrite !app_assoc.
    - destruct (h_poll s) eqn:P; auto. rewrite app_nil_r. unfold all, being_written, being_flushed, set_poll. cbn. now rewrite P.
    - destruct (h_poll s) eqn:P; auto. destruct (pop_older limit (h_recs s)) as [a b] eqn:Q. apply pop_split in Q. destruct Q as [Q _].
      rewrite app_nil_r. unfold all, being_written, being_flushed. cbn. rewrite P, Q. apply Permutation_app_head, Permutation_app_head. cbn.
      rewrite (Permutation_app_comm _ (a ++ b)), <- app_assoc. apply Permutation_app_head, Permutation_app_comm.
    - destruct (h_poll s) as [| |[|r rs]] eqn:P; auto.
      + rewrite app_nil_r. unfold all, being_written, being_flushed, set_poll. cbn. now rewrite P.
      + rewrite app_nil_r, <- all_write. unfold all, being_written, being_flushed, set_poll. cbn. rewrite P. cbn.
        rewrite <- !Permutation_middle. reflexivity.
    - destruct (h_flush s) eqn:F; auto. rewrite app_nil_r. unfold all, being_written, being_flushed. cbn. rewrite F. cbn. now rewrite !app_nil_r.
    - destruct (h_flush s) as [[|r rs]|] eqn:F; auto.
      rewrite app_nil_r, <- all_write. unfold all, being_written, being_flushed, set_flush. cbn. rewrite F. cbn.
      rewrite <- !Permutation_middle. reflexivity.
    - destruct (h_flush s) as [[|r rs]|] eqn:F; auto. rewrite app_nil_r. unfold all, being_written, being_flushed. cbn. now rewrite F.
  Qed.
  Lemma exit_stays ls : forall s, h_exit s = true -> fold_left (hstep delay color) ls s = s.
  Proof. induction ls as [|l ls IH]; cbn; auto. intros s E. unfold hstep at 2. rewrite E. auto. Qed.
  Lemma run_all ls : forall s, h_exit (fold_left (hstep delay color) ls s) = false ->
    Permutation (all s ++ emitted ls) (all (fold_left (hstep delay color) ls s)).
  Proof.
    induction ls as [|l ls IH]; intros s E; cbn [fold_left]; [cbn; now rewrite app_nil_r|].
    destruct (h_exit s) eqn:X.
    { cbn [fold_left] in E. rewrite exit_stays in E; [|unfold hstep; now rewrite X]. unfold hstep in E. rewrite X in E. congruence. }
    rewrite <- IH by exact E. rewrite <- (step_all s l X), <- app_assoc. apply Permutation_app_head. destruct l; cbn; auto.
  Qed.
  Theorem kept ls : h_exit (hrun delay color ls) = false ->
    Permutation (emitted ls) (h_out (hrun delay color ls) ++ h_bad (hrun delay color ls) ++
      being_written (hrun delay color ls) ++ being_flushed (hrun delay color ls) ++ h_recs (hrun delay color ls)).
  Proof. exact (run_all ls h0). Qed.

  (** *** sorted *)
  Record HI (s : hst) : Prop := {
    hi_x : h_exit s = false /\ h_flush s = None;
    hi_recs : StronglySorted older (h_recs s);
    hi_out : StronglySorted older (h_out s ++ being_written s);
    hi_le : forall a b, In a (h_out s ++ being_written s) -> In b (h_recs s) -> older a b;
    hi_old : forall a, In a (h_out s ++ being_written s) -> r_created a < h_now s - delay;
    hi_lim : match h_poll s with PGot l => l <= h_now s - delay | _ => True end
  }.
  Lemma ss_app (l1 l2 : list lrec) : StronglySorted older (l1 ++ l2) <-> StronglySorted older l1 /\ StronglySorted older l2 /\ forall a b, In a l1 -> In b l2 -> older a b.
  Proof.
    induction l1 as [|x l1 IH]; cbn.
    - split; [intros H; split; [constructor|split; [exact H|easy]]|tauto].
    - split.
      + intros H. inversion H; subst. apply IH in H2. destruct H2 as (A & B & C). rewrite Forall_app in H3. destruct H3 as [F1 F2].
        split; [constructor; auto|]. split; auto. intros a b [<-|Ha] Hb; auto. rewrite Forall_forall in F2. auto.
      + intros (A & B & C). inversion A; subst. constructor.
        * apply IH. split; auto.
        * rewrite Forall_app. split; auto. rewrite Forall_forall. intros b Hb. apply C; auto.
  Qed.
  Lemma HI_step s l : HI s -> l <> HFlush -> l <> HExit ->
    (forall r, l = HEmit r -> h_now s - delay < r_created r) -> HI (hstep delay color s l).
  Proof.
    intros [[X F] Rs Os Le Od Lm] N1 N2 Em. unfold hstep. rewrite X.
    assert (I : HI s) by (constructor; auto).
    destruct l; auto; try congruence.
    - destruct (Z.leb_spec 0 d); auto. constructor; cbn; auto.
      + intros a Ha. specialize (Od a Ha). lia.
      + destruct (h_poll s); auto. lia.
    - specialize (Em r eq_refl). constructor; cbn; auto.
      + apply sort_sorted.
      + intros a b Ha Hb. apply (Permutation_in _ (Permutation_sym (sort_perm _))) in Hb. apply in_app_or in Hb.
        destruct Hb as [Hb|[<-|[]]]; [now apply Le|]. specialize (Od a Ha). unfold older. lia.
    - destruct (h_poll s) eqn:P; auto. unfold being_written in *. rewrite P in *. constructor; unfold being_written; cbn; auto. lia.
    - destruct (h_poll s) eqn:P; auto. destruct (pop_older limit (h_recs s)) as [a b] eqn:Q. apply pop_split in Q. destruct Q as [Q L].
      unfold being_written in *. rewrite P in *. rewrite app_nil_r in *. rewrite Q in *. apply ss_app in Rs. destruct Rs as (Ra & Rb & Rab).
      constructor; unfold being_written; cbn; auto.
      + apply ss_app. split; auto. split; auto. intros x y Hx Hy. apply Le; auto. apply in_or_app. auto.
      + intros x y Hx Hy. apply in_app_or in Hx. destruct Hx; auto. apply Le; auto. apply in_or_app. auto.
      + intros x Hx. apply in_app_or in Hx. destruct Hx as [Hx|Hx]; auto. specialize (L x Hx). lia.
    - destruct (h_poll s) as [| |[|r rs]] eqn:P; auto.
      + unfold being_written in *. rewrite P in *. constructor; unfold being_written; cbn; auto.
      + unfold being_written in *. rewrite P in *.
        assert (S1 : forall x, In x (h_out s ++ rs) -> In x (h_out s ++ r :: rs)).
        { intros x Hx. apply in_app_or in Hx. apply in_or_app. cbn. tauto. }
        unfold write. destruct (formats color r); constructor; unfold being_written; cbn; auto.
        * now rewrite <- app_assoc.
        * rewrite <- app_assoc. auto.
        * rewrite <- app_assoc. auto.
        * apply ss_app in Os. destruct Os as (A & B & C). inversion B; subst. apply ss_app. split; auto. split; auto.
          intros x y Hx Hy. apply C; auto. now right.
    - now rewrite F.
  Qed.
  Lemma tick_now s d : h_exit s = false -> h_now (hstep delay color s (HTick d)) = h_now s + Z.max 0 d.
  Proof. intros X. unfold hstep. rewrite X. destruct (Z.leb_spec 0 d); cbn; lia. Qed.
  Lemma other_now s l : (forall d, l <> HTick d) -> h_now (hstep delay color s l) = h_now s.
  Proof.
    intros N. unfold hstep. destruct (h_exit s); auto. destruct l; auto.
    - now destruct (N d).
    - destruct (h_poll s); auto.
    - destruct (h_poll s); auto. now destruct (pop_older limit (h_recs s)).
    - destruct (h_poll s) as [| |[|r rs]]; auto. unfold write. now destruct (formats color r).
    - now destruct (h_flush s).
    - destruct (h_flush s) as [[|r rs]|]; auto. unfold write. now destruct (formats color r).
    - now destruct (h_flush s) as [[|]|].
  Qed.
  Lemma HI_run ls : forall s, HI s -> no_exit ls -> prompt delay (h_now s) ls -> HI (fold_left (hstep delay color) ls s).
  Proof.
    induction ls as [|l ls IH]; cbn [fold_left]; auto. intros s I [N1 N2] P.
    assert (N' : no_exit ls) by (split; intros C; [apply N1|apply N2]; now right).
    assert (I' : HI (hstep delay color s l)).
    { apply HI_step; auto.
      - intros ->. apply N1. now left.
      - intros ->. apply N2. now left.
      - intros r ->. cbn in P. tauto. }
    apply IH; auto. destruct l; try (rewrite other_now by discriminate; cbn in P; tauto).
    rewrite tick_now by apply (hi_x _ I). exact P.
  Qed.
  Theorem sorted_out ls : no_exit ls -> prompt delay 0 ls -> StronglySorted older (h_out (hrun delay color ls)).
  Proof.
    intros N P. assert (I : HI (hrun delay color ls)).
    { apply HI_run; auto. constructor; cbn; auto; try easy; constructor. }
    pose proof (hi_out _ I) as H. apply ss_app in H. tauto.
  Qed.

  (** *** everything old enough is written when the polling thread gets to run *)
  Lemma pop_rest lim l : StronglySorted older l -> forall a b, pop_older lim l = (a, b) -> forall x, In x b -> lim <= r_created x.
  Proof.
    induction l as [|y l IH]; cbn; intros S a b E; [injection E as <- <-; easy|]. inversion S; subst.
    destruct (Z.ltb_spec (r_created y) lim).
    - destruct (pop_older lim l) as [a' b'] eqn:P. injection E as <- <-. intros x Hx. eapply IH; eauto.
    - injection E as <- <-. intros x [<-|Hx]; auto. rewrite Forall_forall in H2. specialize (H2 x Hx). unfold older in H2. lia.
  Qed.
  Lemma writes_all rs : forall s, h_exit s = false -> h_poll s = PWrite rs ->
    forall r, In r rs -> formats color r = true -> In r (h_out (fold_left (hstep delay color) (repeat HWrite (List.length rs)) s)).
  Proof.
    assert (K : forall n s r, h_exit s = false -> In r (h_out s) -> In r (h_out (fold_left (hstep delay color) (repeat HWrite n) s)) /\ True).
    { induction n as [|n IH]; cbn; auto. intros s r X H. apply IH.
      - unfold hstep. rewrite X. destruct (h_poll s) as [| |[|y ys]]; cbn; auto. unfold write. now destruct (formats color y).
      - unfold hstep. rewrite X. destruct (h_poll s) as [| |[|y ys]]; cbn; auto. unfold write. destruct (formats color y); cbn; auto. apply in_or_app. auto. }
    induction rs as [|y rs IH]; [easy|]. intros s X P r Hr Fr. cbn [List.length repeat fold_left].
    assert (E : hstep delay color s HWrite = write color (set_poll s (PWrite rs)) y) by (unfold hstep; now rewrite X, P).
    rewrite E. destruct Hr as [->|Hr].
    - apply K.
      + unfold write. rewrite Fr. exact X.
      + unfold write. rewrite Fr. cbn. apply in_or_app. right. now left.
    - apply IH; auto.
      + unfold write. now destruct (formats color y).
      + unfold write. now destruct (formats color y).
  Qed.
  Theorem old_written ls r : no_exit ls -> let s := hrun delay color ls in h_poll s = PIdle -> In r (h_recs s) ->
    r_created r < h_now s - delay -> formats color r = true ->
    exists n, In r (h_out (fold_left (hstep delay color) ([HLimit; HCollect] ++ repeat HWrite n) s)).
  Proof.
    intros N s P Hr Lt Fr.
    assert (A : forall ls s, no_exit ls -> h_exit s = false -> StronglySorted older (h_recs s) ->
              h_exit (fold_left (hstep delay color) ls s) = false /\ StronglySorted older (h_recs (fold_left (hstep delay color) ls s))).
    { clear. induction ls as [|l ls IH]; cbn [fold_left]; auto. intros s [N1 N2] X S.
      assert (N' : no_exit ls) by (split; intros C; [apply N1|apply N2]; now right).
      assert (B : h_exit (hstep delay color s l) = false /\ StronglySorted older (h_recs (hstep delay color s l))); [|now apply IH].
      unfold hstep. rewrite X. destruct l; auto.
      - destruct (0 <=? d); auto.
      - cbn. split; auto. apply sort_sorted.
      - destruct (h_poll s); auto.
      - destruct (h_poll s); auto. destruct (pop_older limit (h_recs s)) as [a b] eqn:Q. cbn. split; auto.
        apply pop_split in Q. destruct Q as [Q _]. rewrite Q in S. now apply ss_app in S.
      - destruct (h_poll s) as [| |[|y ys]]; auto. unfold write. destruct (formats color y); cbn; auto.
      - destruct N1. now left.
      - destruct (h_flush s) as [[|y ys]|]; auto. unfold write. destruct (formats color y); cbn; auto.
      - destruct N2. now left. }
    destruct (A ls h0 N eq_refl) as [X S]; [constructor|]. fold (hrun delay color ls) in X, S. fold s in X, S.
    destruct (pop_older (h_now s - delay) (h_recs s)) as [a b] eqn:Q. pose proof (pop_rest _ _ S _ _ Q) as Rest. pose proof (pop_split _ _ _ _ Q) as [Sp _].
    assert (Ha : In r a). { rewrite Sp in Hr. apply in_app_or in Hr. destruct Hr as [H|H]; auto. specialize (Rest r H). lia. }
    exists (List.length a). cbn [app fold_left].
    assert (E1 : hstep delay color s HLimit = set_poll s (PGot (h_now s - delay))) by (unfold hstep; now rewrite X, P). rewrite E1.
    set (s1 := set_poll s (PGot (h_now s - delay))).
    assert (E2 : hstep delay color s1 HCollect = mkH (h_now s) b (PWrite a) (h_flush s) (h_exit s) (h_out s) (h_bad s)).
    { unfold hstep, s1, set_poll. cbn. rewrite X, Q. reflexivity. }
    rewrite E2. apply writes_all; auto.
  Qed.
End H.

(** *** records created at the same time *)
Lemma at_app t a b : at_time t (a ++ b) = at_time t a ++ at_time t b.
Proof. apply filter_app. Qed.
Lemma at_insert t x l : at_time t (insert_rec x l) = at_time t [x] ++ at_time t l.
Proof.
  induction l as [|y l IH]; [cbn [insert_rec at_time filter]; rewrite app_nil_r; reflexivity|]. cbn [insert_rec].
  destruct (Z.ltb_spec (r_created y) (r_created x)) as [H|H]; [|apply (at_app t [x] (y :: l))].
  unfold at_time in *. cbn [filter] in *. rewrite IH.
  destruct (Z.eqb_spec (r_created y) t) as [E|E], (Z.eqb_spec (r_created x) t) as [F|F]; cbn [app]; auto. lia.
Qed.
Lemma at_sort t l : at_time t (sort_recs l) = at_time t l.
Proof. induction l as [|x l IH]; auto. cbn [sort_recs]. rewrite at_insert, IH. symmetry. apply (at_app t [x] l). Qed.
Lemma subseq_app {A} (a b c d : list A) : subseq a b -> subseq c d -> subseq (a ++ c) (b ++ d).
Proof. intros H K. induction H; cbn [app]; [exact K|apply ss_skip, IHsubseq|apply ss_take, IHsubseq]. Qed.
Lemma subseq_refl {A} (a : list A) : subseq a a.
Proof. induction a; [apply ss_nil|apply ss_take, IHa]. Qed.
Lemma subseq_empty {A} (a : list A) : subseq [] a.
Proof. induction a; [apply ss_nil|apply ss_skip, IHa]. Qed.
Section Ties.
  Variables (delay : Z) (color : bool) (t : Z).
  Definition TO (s : hst) (em : list lrec) : Prop :=
    h_exit s = false /\ h_flush s = None /\
    exists d, subseq (at_time t (h_out s)) d /\ at_time t em = d ++ at_time t (being_written s ++ h_recs s).
  Lemma TO_step s l em : l <> HFlush -> TO s em -> TO (hstep delay color s l) (em ++ emitted [l]).
  Proof.
    intros N (X & F & d & S & E).
    assert (K : TO s (em ++ [])) by (rewrite app_nil_r; split; eauto).
    unfold hstep. rewrite X. destruct l as [z|r| | | | | |]; cbn [emitted]; try congruence.
    - destruct (0 <=? z); [|exact K]. rewrite app_nil_r. split; cbn; eauto.
    - split; [first [reflexivity|exact X]|]. split; [exact F|]. exists d. split; [exact S|]. cbn [h_poll h_recs being_written].
      unfold being_written in *. cbn [h_poll]. rewrite (at_app t em), E, !at_app, at_sort, at_app, <- !app_assoc. reflexivity.
    - destruct (h_poll s) eqn:P; try exact K. rewrite app_nil_r. split; [first [reflexivity|exact X]|]. split; [exact F|].
      exists d. split; [exact S|]. unfold being_written in *. cbn. rewrite P in E. exact E.
    - destruct (h_poll s) eqn:P; try exact K. destruct (pop_older limit (h_recs s)) as [a b] eqn:Q. apply pop_split in Q. destruct Q as [Q _].
      rewrite app_nil_r. split; [first [reflexivity|exact X]|]. split; [exact F|]. exists d. split; [exact S|].
      unfold being_written in *. cbn [h_poll h_recs]. rewrite P in E. rewrite <- Q. exact E.
    - destruct (h_poll s) as [| |[|r rs]] eqn:P; try exact K.
      + rewrite app_nil_r. split; [first [reflexivity|exact X]|]. split; [exact F|]. exists d. split; [exact S|]. unfold being_written in *. cbn. rewrite P in E. exact E.
      + rewrite app_nil_r. unfold being_written in E. rewrite P in E.
        change ((r :: rs) ++ h_recs s) with ([r] ++ (rs ++ h_recs s)) in E. rewrite at_app, app_assoc in E.
        unfold write. destruct (formats color r); (split; [first [reflexivity|exact X]|]; split; [exact F|]; exists (d ++ at_time t [r]); split; [|exact E]).
        * cbn [h_out set_poll]. rewrite at_app. apply subseq_app; [exact S|apply subseq_refl].
        * cbn [h_out set_poll]. rewrite <- (app_nil_r (at_time t (h_out s))). apply subseq_app; [exact S|apply subseq_empty].
    - rewrite F. exact K.
    - rewrite F. exact K.
  Qed.
  Theorem ties_kept ls : no_exit ls -> subseq (at_time t (h_out (hrun delay color ls))) (at_time t (emitted ls)).
  Proof.
    assert (A : forall ls s em, no_exit ls -> TO s em -> TO (fold_left (hstep delay color) ls s) (em ++ emitted ls)).
    { induction ls0 as [|l ls0 IH]; intros s em [N1 N2] T; cbn [fold_left]; [cbn; rewrite app_nil_r; exact T|].
      assert (Q : emitted (l :: ls0) = emitted [l] ++ emitted ls0) by (destruct l; reflexivity).
      rewrite Q, app_assoc. apply IH.
      - split; intros C; [apply N1|apply N2]; right; exact C.
      - apply TO_step; [|exact T]. intros ->. apply N1. left. reflexivity. }
    intros N. destruct (A ls h0 [] N) as (_ & _ & d & S & E).
    { split; [reflexivity|]. split; [reflexivity|]. exists []. split; [constructor|reflexivity]. }
    cbn [app] in E. rewrite E. rewrite <- (app_nil_r (at_time t (h_out _))). apply subseq_app; [exact S|apply subseq_empty].
  Qed.
End Ties.
Lemma formats_level color r : color = false \/ 0 <= r_level r < 60 -> formats color r = true.
Proof.
  unfold formats. intros [->|L]; [reflexivity|]. destruct color; [|reflexivity]. cbn [negb orb].
  pose proof (Z.div_le_mono (r_level r) 59 10 ltac:(lia) ltac:(lia)) as A. change (59 / 10) with 5 in A.
  pose proof (Z.div_pos (r_level r) 10 ltac:(lia) ltac:(lia)).
  apply andb_true_iff. split; apply Z.leb_le; lia.
Qed.

Lemma no_exit_state delay color ls : no_exit ls ->
  h_flush (hrun delay color ls) = None /\ h_exit (hrun delay color ls) = false.
Proof.
  unfold hrun. enough (A : forall s, no_exit ls -> h_flush s = None /\ h_exit s = false ->
    h_flush (fold_left (hstep delay color) ls s) = None /\ h_exit (fold_left (hstep delay color) ls s) = false) by (intro N; apply A; auto).
  induction ls as [|l ls IH]; intros s [N1 N2] [F E]; [auto|]. cbn [fold_left]. apply IH.
  - split; intro C; [apply N1|apply N2]; now right.
  - unfold hstep. rewrite E. destruct l; auto.
    + destruct (0 <=? d); auto.
    + destruct (h_poll s); auto.
    + destruct (h_poll s); auto. destruct (pop_older limit (h_recs s)); auto.
    + destruct (h_poll s) as [| |[|r rs]]; auto. unfold write. destruct (formats color r); auto.
    + exfalso. apply N1. now left.
    + rewrite F. auto.
    + exfalso. apply N2. now left.
Qed.
Lemma overtaken_at_exit delay color ls r rs x xs : no_exit ls -> let s := hrun delay color ls in
  being_written s = r :: rs -> h_recs s = x :: xs -> r_created r < r_created x ->
  color = false \/ 0 <= r_level r < 60 /\ 0 <= r_level x < 60 ->
  h_out (hrun delay color (ls ++ [HFlush; HFlushWrite; HWrite])) = h_out s ++ [x; r].
Proof.
  intros N s W R L F. unfold hrun. rewrite fold_left_app. fold (hrun delay color ls). fold s.
  assert (NE : h_flush s = None /\ h_exit s = false) by (apply no_exit_state; exact N).
  destruct NE as [Fl Ex]. unfold being_written in W. destruct (h_poll s) as [| |l] eqn:P; try discriminate W. subst l.
  assert (Fr : formats color r = true) by (apply formats_level; tauto).
  assert (Fx : formats color x = true) by (apply formats_level; tauto).
  cbn [fold_left].
  assert (S1 : hstep delay color s HFlush = mkH (h_now s) [] (PWrite (r :: rs)) (Some (x :: xs)) false (h_out s) (h_bad s))
    by (unfold hstep; rewrite Ex, Fl, R, P; reflexivity).
  rewrite S1. unfold hstep. cbn [h_exit h_flush]. unfold write. rewrite Fx. cbn [set_flush h_now h_recs h_poll h_flush h_exit h_out h_bad].
  rewrite Fr. cbn [set_poll h_out]. rewrite <- app_assoc. reflexivity.
Qed.
