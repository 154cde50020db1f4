From Verif Require Import Py ObjTableModel ObjTableSpec SerModel SerSpec FrameModel ServerModel ClientModel WireSpec ApiModel ApiSpec
  RpcModel RpcSpec ServerProofs ApiProofs ApiProofs2 ProxyModel ProxySpec ProxyProofs.
Local Open Scope nat_scope.

Record LI (s : lst) : Prop := {
  li_nd : NoDup (map l_id (ls_live s));
  li_lt : forall x, In x (ls_live s) -> l_id x < ls_next s;
  li_par : forall x q, In x (ls_live s) -> l_parent x = Some q ->
             q < l_id x /\ exists y, In y (ls_live s) /\ l_id y = q /\ l_ref y = l_ref x;
  li_root : forall x y, In x (ls_live s) -> In y (ls_live s) -> l_parent x = None -> l_parent y = None ->
             l_ref x = l_ref y -> l_id x = l_id y;
  li_auto : forall x, In x (ls_live s) -> l_auto x = true -> l_parent x = None;
  li_log : forall r x, In r (ls_log s) -> In x (ls_live s) -> l_ref x <> r
}.

Lemma lfind_in l i x : lfind l i = Some x -> In x l /\ l_id x = i.
Proof.
  induction l as [|y l IH]; cbn; [easy|]. destruct (Nat.eqb_spec (l_id y) i); [intros [= ->]; auto|]. intros H. destruct (IH H). auto.
Qed.
Lemma lfind_some l x : In x l -> exists y, lfind l (l_id x) = Some y.
Proof.
  induction l as [|y l IH]; cbn; [easy|]. intros [->|H]; [rewrite Nat.eqb_refl; eauto|]. destruct (l_id y =? l_id x); eauto.
Qed.
Lemma id_inj l x y : NoDup (map l_id l) -> In x l -> In y l -> l_id x = l_id y -> x = y.
Proof.
  induction l as [|z l IH]; cbn; [easy|]. intros ND. inversion ND; subst.
  intros [->|Hx] [->|Hy] E; auto.
  - exfalso. apply H1. rewrite E. now apply in_map.
  - exfalso. apply H1. rewrite <- E. now apply in_map.
Qed.
Lemma lremove_in l i x : In x (lremove l i) <-> In x l /\ l_id x <> i.
Proof.
  unfold lremove. rewrite filter_In, negb_true_iff, Nat.eqb_neq. reflexivity.
Qed.
Lemma nodup_remove l i : NoDup (map l_id l) -> NoDup (map l_id (lremove l i)).
Proof.
  induction l as [|x l IH]; cbn; auto. intros ND. inversion ND; subst. destruct (l_id x =? i); cbn; auto.
  constructor; auto. intros C. apply H1. apply in_map_iff in C. destruct C as (y & <- & Hy). apply lremove_in in Hy. now apply in_map.
Qed.
Lemma no_child l i x : has_child l i = false -> In x l -> l_parent x <> Some i.
Proof.
  intros H Hx E. enough (has_child l i = true) by congruence. apply existsb_exists. exists x. split; auto.
  rewrite E. apply Nat.eqb_refl.
Qed.
Lemma lset_ids l y : map l_id (lset l y) = map l_id l.
Proof.
  unfold lset. rewrite map_map. apply map_ext. intros x. destruct (Nat.eqb_spec (l_id x) (l_id y)); auto.
Qed.
Lemma lset_in l y x : In x (lset l y) -> (x = y /\ exists z, In z l /\ l_id z = l_id y) \/ (In x l /\ l_id x <> l_id y).
Proof.
  unfold lset. intros H. apply in_map_iff in H. destruct H as (z & E & Hz).
  destruct (Nat.eqb_spec (l_id z) (l_id y)); subst; eauto.
Qed.
Lemma lset_in_other l y x : In x l -> l_id x <> l_id y -> In x (lset l y).
Proof. intros H N. unfold lset. apply in_map_iff. exists x. destruct (Nat.eqb_spec (l_id x) (l_id y)); easy. Qed.
Lemma lset_in_self l y z : In z l -> l_id z = l_id y -> In y (lset l y).
Proof. intros H N. unfold lset. apply in_map_iff. exists z. destruct (Nat.eqb_spec (l_id z) (l_id y)); easy. Qed.

(** nobody else has the reference of a childless root *)
Lemma root_alone s x : LI s -> In x (ls_live s) -> l_parent x = None -> has_child (ls_live s) (l_id x) = false ->
  forall y, In y (ls_live s) -> l_ref y = l_ref x -> y = x.
Proof.
  intros I Hx Px Nc.
  assert (A : forall n y, l_id y < n -> In y (ls_live s) -> l_ref y = l_ref x -> y = x).
  { induction n as [|n IH]; intros y Hn Hy Er; [lia|].
    destruct (l_parent y) as [q|] eqn:Py.
    - destruct (li_par _ I y q Hy Py) as (Hq & z & Hz & Iz & Rz).
      assert (z = x) as -> by (apply IH; auto; [lia|congruence]).
      exfalso. apply (no_child _ _ y Nc Hy). congruence.
    - eapply id_inj; eauto; [apply I|]. eapply li_root; eauto. }
  intros y. apply (A (S (l_id y))). lia.
Qed.

Lemma li_collect n : forall s i, LI s -> LI (collect n s i).
Proof.
  induction n as [|n IH]; cbn; auto. intros s i I. destruct (lfind (ls_live s) i) as [x|] eqn:F; auto.
  apply lfind_in in F. destruct F as [Hx Ei].
  destruct (l_held x); cbn; auto. destruct (has_child (ls_live s) i) eqn:Nc; auto.
  assert (I' : LI (mkLst (lremove (ls_live s) i) (ls_next s) (if l_auto x then ls_log s ++ [l_ref x] else ls_log s))).
  { constructor; cbn.
    - apply nodup_remove, I.
    - intros y Hy. apply lremove_in in Hy. apply I. tauto.
    - intros y q Hy Py. apply lremove_in in Hy. destruct Hy as [Hy Ny].
      destruct (li_par _ I y q Hy Py) as (Hq & z & Hz & Iz & Rz). split; auto. exists z. split; auto.
      apply lremove_in. split; auto. intros C. apply (no_child _ _ y Nc Hy). congruence.
    - intros y z Hy Hz. apply lremove_in in Hy, Hz. apply I; tauto.
    - intros y Hy. apply lremove_in in Hy. apply I. tauto.
    - intros r y Hr Hy. apply lremove_in in Hy. destruct Hy as [Hy Ny].
      destruct (l_auto x) eqn:Au; [|now apply (li_log _ I)].
      apply in_app_or in Hr. destruct Hr as [Hr|[<-|[]]]; [now apply (li_log _ I)|].
      intros C. apply Ny. rewrite <- Ei. f_equal. apply (root_alone s x); auto; [now apply I|now rewrite Ei]. }
  destruct (l_parent x); auto.
Qed.

Lemma li_step s o : LI s -> careful s o -> LI (lstep s o).
Proof.
  intros I C. destruct o as [ref|i b|i|i]; cbn [lstep].
  - destruct C as [C1 C2]. constructor; cbn.
    + constructor; [|apply I]. intros H. apply in_map_iff in H. destruct H as (x & E & Hx). apply I in Hx. lia.
    + intros x [<-|H]; cbn; [lia|]. apply (li_lt _ I) in H. lia.
    + intros x q [<-|H]; cbn; [easy|]. intros Px. destruct (li_par _ I _ _ H Px) as (? & y & ? & ?). split; auto. eauto.
    + intros x y [<-|Hx] [<-|Hy]; cbn; auto.
      * intros _ _ E. exfalso. eapply C1; eauto.
      * intros _ _ E. exfalso. eapply C1; eauto.
      * apply I; auto.
    + intros x [<-|H]; cbn; auto. apply (li_auto _ I _ H).
    + intros r x Hr [<-|H]; cbn; [intros ->; auto|]. now apply (li_log _ I).
  - destruct (lfind (ls_live s) i) as [x|] eqn:F; auto. apply lfind_in in F as F'. destruct F' as [Hx Ei].
    set (y := mkL i (l_ref x) b (l_parent x) (l_held x)). constructor; cbn.
    + rewrite lset_ids. apply I.
    + intros z Hz. apply lset_in in Hz. destruct Hz as [[-> _]|[Hz _]]; [|now apply I]. cbn. rewrite <- Ei. now apply I.
    + intros z q Hz Pz. assert (P : exists z0, In z0 (ls_live s) /\ l_id z0 = l_id z /\ l_ref z0 = l_ref z /\ l_parent z0 = Some q).
      { apply lset_in in Hz. destruct Hz as [[-> _]|[Hz _]]; [|eauto 6]. exists x. cbn in *. auto. }
      destruct P as (z0 & Hz0 & E0 & R0 & P0). destruct (li_par _ I _ _ Hz0 P0) as (Hq & w & Hw & Iw & Rw). split; [lia|].
      destruct (Nat.eq_dec (l_id w) i) as [E|N].
      * exists y. split; [eapply lset_in_self; eauto|]. cbn. split; [lia|].
        assert (w = x) as -> by (eapply id_inj; eauto; [apply I|lia]). congruence.
      * exists w. split; [apply lset_in_other; auto|]. split; [auto|congruence].
    + intros u v Hu Hv Pu Pv E.
      assert (A : forall z, In z (lset (ls_live s) y) -> exists z0, In z0 (ls_live s) /\ l_id z0 = l_id z /\ l_ref z0 = l_ref z /\ l_parent z0 = l_parent z).
      { intros z Hz. apply lset_in in Hz. destruct Hz as [[-> _]|[Hz _]]; [|eauto 6]. exists x. cbn. auto. }
      destruct (A u Hu) as (u0 & ? & <- & Ru & Pu0), (A v Hv) as (v0 & ? & <- & Rv & Pv0).
      apply (li_root _ I); auto; congruence.
    + intros z Hz. apply lset_in in Hz. destruct Hz as [[-> _]|[Hz _]]; [|now apply I]. cbn. intros ->.
      cbn in C. now apply C.
    + intros r z Hr Hz. apply lset_in in Hz. destruct Hz as [[-> _]|[Hz _]]; cbn; now apply (li_log _ I).
  - destruct (lfind (ls_live s) i) as [x|] eqn:F; auto. cbn in C. specialize (C x F). apply lfind_in in F as F'. destruct F' as [Hx Ei].
    constructor; cbn.
    + constructor; [|apply I]. intros H. apply in_map_iff in H. destruct H as (z & E & Hz). apply I in Hz. lia.
    + intros z [<-|H]; cbn; [lia|]. apply (li_lt _ I) in H. lia.
    + intros z q [<-|H]; cbn.
      * intros [= <-]. split; [rewrite <- Ei; now apply I|]. exists x. auto.
      * intros Pz. destruct (li_par _ I _ _ H Pz) as (? & w & ? & ?). split; auto. eauto.
    + intros u v [<-|Hu] [<-|Hv]; cbn; try easy. apply I; auto.
    + intros z [<-|H]; cbn; [congruence|]. apply (li_auto _ I _ H).
    + intros r z Hr [<-|H]; cbn; now apply (li_log _ I).
  - destruct (lfind (ls_live s) i) as [x|] eqn:F; auto. apply lfind_in in F as F'. destruct F' as [Hx Ei].
    set (y := mkL i (l_ref x) (l_auto x) (l_parent x) false). apply li_collect.
    assert (A : forall z, In z (lset (ls_live s) y) -> exists z0, In z0 (ls_live s) /\ l_id z0 = l_id z /\ l_ref z0 = l_ref z /\ l_parent z0 = l_parent z /\ l_auto z0 = l_auto z).
    { intros z Hz. apply lset_in in Hz. destruct Hz as [[-> _]|[Hz _]]; [|eauto 7]. exists x. cbn. auto. }
    constructor; cbn.
    + rewrite lset_ids. apply I.
    + intros z Hz. destruct (A z Hz) as (z0 & H0 & <- & _). now apply I.
    + intros z q Hz Pz. destruct (A z Hz) as (z0 & H0 & E0 & R0 & P0 & _).
      rewrite Pz in P0. destruct (li_par _ I _ _ H0 P0) as (Hq & w & Hw & Iw & Rw). split; [lia|].
      destruct (Nat.eq_dec (l_id w) i) as [E|N].
      * exists y. split; [eapply lset_in_self; eauto|]. cbn. split; [lia|].
        assert (w = x) as -> by (eapply id_inj; eauto; [apply I|lia]). congruence.
      * exists w. split; [apply lset_in_other; auto|]. split; [auto|congruence].
    + intros u v Hu Hv Pu Pv E.
      destruct (A u Hu) as (u0 & ? & <- & Ru & Pu0 & _), (A v Hv) as (v0 & ? & <- & Rv & Pv0 & _).
      apply (li_root _ I); auto; congruence.
    + intros z Hz. destruct (A z Hz) as (z0 & H0 & _ & _ & <- & <-). now apply I.
    + intros r z Hr Hz. destruct (A z Hz) as (z0 & H0 & _ & <- & _). now apply (li_log _ I).
Qed.

Theorem released_last l : careful_run lst0 l -> forall r x, In r (ls_log (lrun lst0 l)) -> In x (ls_live (lrun lst0 l)) -> l_ref x <> r.
Proof.
  assert (A : forall l s, LI s -> careful_run s l -> LI (lrun s l)).
  { clear. intros l. induction l as [|o l IH]; cbn; auto. intros s I [C1 C2]. apply IH; auto. now apply li_step. }
  intros C r x. apply li_log, A; auto. constructor; cbn; try easy. constructor.
Qed.

(** *** released when collected, in every history *)
Lemma collect_log n : forall s i r, In r (ls_log s) -> In r (ls_log (collect n s i)).
Proof.
  induction n as [|n IH]; cbn; auto. intros s i r H. destruct (lfind (ls_live s) i) as [x|]; auto.
  destruct (_ || _); auto. destruct (l_parent x); [apply IH|]; cbn; destruct (l_auto x); auto; apply in_or_app; auto.
Qed.
Lemma collect_live n : forall s i x, In x (ls_live (collect n s i)) -> In x (ls_live s).
Proof.
  induction n as [|n IH]; cbn; auto. intros s i x. destruct (lfind (ls_live s) i) as [y|]; auto.
  destruct (_ || _); auto. destruct (l_parent y).
  - intros H. apply IH in H. cbn in H. apply lremove_in in H. tauto.
  - cbn. intros H. apply lremove_in in H. tauto.
Qed.
Lemma collect_released n : forall s i x, NoDup (map l_id (ls_live s)) -> In x (ls_live s) -> l_auto x = true ->
  In x (ls_live (collect n s i)) \/ In (l_ref x) (ls_log (collect n s i)).
Proof.
  induction n as [|n IH]; cbn; auto. intros s i x ND Hx Au. destruct (lfind (ls_live s) i) as [y|] eqn:F; auto.
  apply lfind_in in F. destruct F as [Hy Ei].
  destruct (_ || _); auto.
  destruct (Nat.eq_dec (l_id x) i) as [E|N].
  - right. assert (x = y) as -> by (eapply id_inj; eauto; lia). rewrite Au.
    destruct (l_parent y); [apply collect_log|]; cbn; apply in_or_app; cbn; auto.
  - assert (Hr : In x (lremove (ls_live s) i)) by (apply lremove_in; auto).
    destruct (l_parent y); [|now left]. apply IH; auto. cbn. now apply nodup_remove.
Qed.

Definition sane (s : lst) : Prop := NoDup (map l_id (ls_live s)) /\ forall x, In x (ls_live s) -> l_id x < ls_next s.
Lemma collect_sane n : forall s i, sane s -> sane (collect n s i).
Proof.
  induction n as [|n IH]; cbn; auto. intros s i I. destruct (lfind (ls_live s) i) as [y|]; auto.
  destruct (_ || _); auto.
  assert (sane (mkLst (lremove (ls_live s) i) (ls_next s) (if l_auto y then ls_log s ++ [l_ref y] else ls_log s))).
  { destruct I as [A B]. split; cbn; [now apply nodup_remove|]. intros x Hx. apply lremove_in in Hx. apply B. tauto. }
  destruct (l_parent y); auto.
Qed.
Lemma sane_step s o : sane s -> sane (lstep s o).
Proof.
  intros I. pose proof I as [A B]. destruct o as [ref|i b|i|i]; cbn [lstep].
  - split; cbn.
    + constructor; auto. intros H. apply in_map_iff in H. destruct H as (x & E & Hx). apply B in Hx. lia.
    + intros x [<-|H]; cbn; [lia|]. apply B in H. lia.
  - destruct (lfind (ls_live s) i) as [x|] eqn:F; auto. apply lfind_in in F. destruct F as [Hx Ei]. split; cbn.
    + now rewrite lset_ids.
    + intros z Hz. apply lset_in in Hz. destruct Hz as [[-> _]|[Hz _]]; [|auto]. cbn. rewrite <- Ei. auto.
  - destruct (lfind (ls_live s) i) as [x|]; auto. split; cbn.
    + constructor; auto. intros H. apply in_map_iff in H. destruct H as (z & E & Hz). apply B in Hz. lia.
    + intros z [<-|H]; cbn; [lia|]. apply B in H. lia.
  - destruct (lfind (ls_live s) i) as [x|] eqn:F; auto. apply lfind_in in F. destruct F as [Hx Ei].
    apply collect_sane. split; cbn.
    + now rewrite lset_ids.
    + intros z Hz. apply lset_in in Hz. destruct Hz as [[-> _]|[Hz _]]; [|auto]. cbn. rewrite <- Ei. auto.
Qed.
Lemma sane_run l : forall s, sane s -> sane (lrun s l).
Proof. induction l as [|o l IH]; cbn; auto. intros s I. apply IH. now apply sane_step. Qed.
Lemma sane0 : sane lst0.
Proof. split; cbn; [constructor|easy]. Qed.

Theorem released_when_collected l i x s : s = lrun lst0 l -> In x (ls_live s) -> l_auto x = true ->
  (exists y, In y (ls_live (lstep s (LDrop i))) /\ l_id y = l_id x) \/ In (l_ref x) (ls_log (lstep s (LDrop i))).
Proof.
  intros Es Hx Au. assert (I : sane s) by (subst; apply sane_run, sane0). destruct I as [ND _]. cbn [lstep].
  destruct (lfind (ls_live s) i) as [z|] eqn:F; [|eauto]. apply lfind_in in F. destruct F as [Hz Ei].
  set (y := mkL i (l_ref z) (l_auto z) (l_parent z) false).
  set (s1 := mkLst (lset (ls_live s) y) (ls_next s) (ls_log s)).
  assert (X : exists x1, In x1 (ls_live s1) /\ l_id x1 = l_id x /\ l_auto x1 = true /\ l_ref x1 = l_ref x).
  { destruct (Nat.eq_dec (l_id x) i) as [E|N].
    - assert (x = z) as -> by (eapply id_inj; eauto; lia). exists y. cbn. split; [eapply lset_in_self; eauto|auto].
    - exists x. split; [apply lset_in_other; auto|auto]. }
  destruct X as (x1 & H1 & E1 & A1 & R1). rewrite <- R1, <- E1.
  destruct (collect_released (S (List.length (ls_live s))) s1 i x1) as [H|H]; auto.
  - cbn. now rewrite lset_ids.
  - left. exists x1. auto.
Qed.

Theorem dropped_is_collected l i s : s = lrun lst0 l -> (forall x, In x (ls_live s) -> l_parent x <> Some i) ->
  forall y, In y (ls_live (lstep s (LDrop i))) -> l_id y <> i.
Proof.
  intros Es Nc y. assert (I : sane s) by (subst; apply sane_run, sane0). destruct I as [ND _]. cbn [lstep].
  destruct (lfind (ls_live s) i) as [z|] eqn:F.
  - apply lfind_in in F. destruct F as [Hz Ei].
    set (w := mkL i (l_ref z) (l_auto z) (l_parent z) false). cbn [collect ls_live].
    destruct (lfind (lset (ls_live s) w) i) as [u|] eqn:F2.
    + apply lfind_in in F2. destruct F2 as [Hu Eu].
      assert (u = w) as ->. { apply lset_in in Hu. destruct Hu as [[-> _]|[_ C]]; auto. cbn in C. lia. }
      cbn [l_held]. assert (has_child (lset (ls_live s) w) i = false) as ->.
      { destruct (has_child (lset (ls_live s) w) i) eqn:H; auto. apply existsb_exists in H. destruct H as (v & Hv & Pv).
        destruct (l_parent v) as [q|] eqn:Pq; [|easy]. apply Nat.eqb_eq in Pv. subst q.
        apply lset_in in Hv. destruct Hv as [[-> _]|[Hv _]].
        - cbn in Pq. exfalso. eapply Nc; eauto.
        - exfalso. eapply Nc; eauto. }
      cbn [orb]. destruct (l_parent w); intros H; [apply collect_live in H|]; cbn in H; apply lremove_in in H; tauto.
    + exfalso. assert (Hw : In w (lset (ls_live s) w)) by (eapply lset_in_self; eauto).
      apply lfind_some in Hw. cbn in Hw. destruct Hw. congruence.
  - intros H E. apply lfind_some in H. rewrite E in H. destruct H. congruence.
Qed.

(** *** copies *)
Lemma copy_root p : made p -> x_parent p = None -> forall v,
  exists q, copy p v = Ok (q, []) /\ x_rec q = x_rec p /\ forall k, opt q k = opt p k.
Proof.
  intros M P v. apply made_well in M. unfold copy.
  destruct (make_inherits (x_rec p) (x_opts p) M) as (q & E & _ & R & _ & O). rewrite E, P. cbn. exists q. auto.
Qed.
Lemma copy_attr p b : made p -> made b -> x_parent p = Some b -> forall v,
  exists q x1 x2, copy p v = Ok (q, [x1; x2]) /\ x_rec q = x_rec p /\ (forall k, opt q k = opt p k) /\
    sn_req x1 = rq_proxy_call (deferred_attr (x_rec b) "copy") [] [] /\
    sn_req x2 = rq_proxy_call (deferred_attr (x_rec p) "__setattr__") [VStr "_parent_proxy"; v] [].
Proof.
  intros M Mb P v. apply made_well in M. apply made_well in Mb. unfold copy.
  destruct (make_inherits (x_rec p) (x_opts p) M) as (q & E & W & R & _ & O). rewrite E, P. cbn [bind].
  destruct (deferred_ok b "copy" [] Mb) as (c & Ec & _ & Rc & _); [constructor|easy|]. rewrite Ec. cbn [bind].
  destruct (deferred_ok q "__setattr__" [] W) as (d & Ed & _ & Rd & _); [constructor|easy|]. rewrite Ed. cbn [bind].
  rewrite !call_sends by constructor. do 3 eexists. split; [reflexivity|]. rewrite Rc, Rd, R. auto.
Qed.

(** *** iteration *)
Lemma iter_remote item n : (forall i, i < n -> exists v, item i = Ok v) -> item n = Err (UserExc "IndexError") ->
  forall m i, i <= n -> n - i < m ->
  snd (py_iter item m i) = Some (Ok tt) /\
  snd (py_iter (fun j => at_client (item j)) m i) = Some (Err (RemoteCallException "IndexError")) /\
  fst (py_iter (fun j => at_client (item j)) m i) = fst (py_iter item m i).
Proof.
  intros Hi Hn. induction m as [|m IH]; intros i Li Lm; [lia|]. cbn.
  destruct (Nat.eq_dec i n) as [->|N].
  - rewrite Hn. cbn. auto.
  - destruct (Hi i) as [v Ev]; [lia|]. rewrite Ev. cbn [at_client].
    destruct (IH (S i)) as (A & B & C); [lia|lia|].
    destruct (py_iter item m (S i)), (py_iter (fun j => at_client (item j)) m (S i)). cbn in *. subst. auto.
Qed.

(** *** equality *)
Lemma equals_true p q : equals p (VProxy (x_rec q)) = inl true -> p_addr (x_rec p) = p_addr (x_rec q) /\ p_oid (x_rec p) = p_oid (x_rec q).
Proof.
  unfold equals. destruct (String.eqb_spec (p_addr (x_rec q)) (p_addr (x_rec p))), (Z.eqb_spec (p_oid (x_rec q)) (p_oid (x_rec p))); cbn; try easy.
Qed.
Lemma equal_plain p q : p_attrs (x_rec p) = [] -> p_attrs (x_rec q) = [] -> equals p (VProxy (x_rec q)) = inl true ->
  hash_key p = hash_key q /\ forall E st, unwrap_proxy E st (x_rec p) = unwrap_proxy E st (x_rec q).
Proof.
  intros A B E. apply equals_true in E. destruct E as [E1 E2]. unfold hash_key, unwrap_proxy. now rewrite E1, E2, A, B.
Qed.
Lemma same_equal p q : p_addr (x_rec p) = p_addr (x_rec q) -> p_oid (x_rec p) = p_oid (x_rec q) -> equals p (VProxy (x_rec q)) = inl true.
Proof. intros A B. unfold equals. now rewrite A, B, String.eqb_refl, Z.eqb_refl. Qed.
Lemma never_unequal p v : equals p v <> inl false.
Proof. unfold equals. destruct v; try easy. now destruct (_ && _)%bool. Qed.
Lemma attr_equal p a q : made p -> deferred p a [] = Ok q ->
  equals p (VProxy (x_rec q)) = inl true /\ equals q (VProxy (x_rec p)) = inl true /\ hash_key p <> hash_key q.
Proof.
  intros M D. destruct (deferred_ok p a [] (made_well _ M)) as (q' & E & _ & R & _); [constructor|easy|].
  rewrite D in E. injection E as <-. split; [|split].
  - apply same_equal; now rewrite R.
  - apply same_equal; now rewrite R.
  - unfold hash_key. rewrite R. cbn. intros [= C]. apply (f_equal (@List.length string)) in C. rewrite app_length in C. cbn in C. lia.
Qed.
Lemma rxor_wrong p args : made p -> exists x, operate p "__rxor__" args = Some (Ok x) /\
    sn_req x = rq_proxy_call (deferred_attr (x_rec p) "__ror__") args [] /\
    sn_req x <> rq_proxy_call (deferred_attr (x_rec p) "__rxor__") args [].
Proof.
  intros M. unfold operate. cbn [assoc special String.eqb Ascii.eqb Bool.eqb].
  destruct (deferred_ok p "__ror__" [] (made_well _ M)) as (q & E & _ & R & _); [constructor|easy|].
  rewrite E. cbn [bind]. eexists. split; [reflexivity|]. rewrite call_sends by constructor. cbn [sn_req filter]. rewrite R. split; [reflexivity|].
  unfold rq_proxy_call, rq_call. intros C. injection C as C. apply app_inj_tail in C. destruct C. discriminate.
Qed.
Lemma call_options p args kw : NoDup (map fst kw) ->
  sn_sync (call p args kw) = or_else (given kw "_sync") (opt p "sync") /\
  sn_rt (call p args kw) = or_else (given kw "_return_type") (opt p "return_type") /\
  sn_timeout (call p args kw) = or_else (given kw "_timeout") (opt p "timeout") /\
  exists kw', sn_req (call p args kw) = rq_proxy_call (x_rec p) args kw' /\
    forall k v, In (k, v) kw' <-> In (k, v) kw /\ ~ In k ["_sync"; "_return_type"; "_timeout"].
Proof.
  intros ND. rewrite call_sends by auto. cbn [sn_sync sn_rt sn_timeout sn_req]. repeat split; auto. eexists. split; [reflexivity|].
  intros k v. rewrite filter_In. cbn [fst]. unfold call_option.
  destruct (String.eqb_spec k "_sync") , (String.eqb_spec k "_return_type"), (String.eqb_spec k "_timeout"); cbn;
    intuition (try congruence).
Qed.

Section None.
  Variable V : venv.
  Hypothesis GV : good_venv V.
  Lemma none_fails k p args : made p -> c_disc k = false -> c_open k = true ->
    let opts := fields [("obj", VProxy (x_rec p)); ("args", VTuple args); ("kwargs", fields [])] in
    objs (ve_ser V) opts = [] -> supported V (c_ser k) opts ->
    (exists p', set_options p [("sync", VNone); ("return_type", VStr "auto")] = (p', Ok tt) /\
       exists k' m, send_as V k (call p' args []) = (k', Some m, Err ValueError)) /\
    (exists p', set_options p [("return_type", VNone)] = (p', Ok tt) /\
       exists k', send_as V k (call p' args []) = (k', None, Err AttributeError)).
  Proof.
    intros M D O opts Ob Su.
    destruct (request_arrives V GV k "call_obj" opts "auto" BadSync D O Su Ob) as (k' & m & r & Se & _).
    split.
    - destruct (set_known p [("sync", VNone); ("return_type", VStr "auto")] (made_well _ M)) as (p' & E & _ & R & _ & Op).
      + repeat (constructor; [cbn; intuition discriminate|]). constructor.
      + cbn. intuition.
      + exists p'. split; [exact E|]. rewrite call_sends by constructor. unfold send_as. cbn [sn_rt sn_sync sn_req given or_else filter].
        rewrite !Op. cbn [given or_else String.eqb Ascii.eqb Bool.eqb]. rewrite R. exists k', m.
        cbn [rq_proxy_call rq_call rq_action rq_opts]. fold opts. rewrite Se. f_equal.
        revert Se. unfold send. rewrite D. destruct (dumps _ _ _ _ _) as [st' [q|]]; [|easy].
        cbn. destruct (c_open k); [|easy]. now intros [= _ _ <-].
    - destruct (set_known p [("return_type", VNone)] (made_well _ M)) as (p' & E & _ & R & _ & Op).
      + repeat (constructor; [cbn; intuition discriminate|]). constructor.
      + cbn. intuition.
      + exists p'. split; [exact E|]. rewrite call_sends by constructor. unfold send_as. cbn [sn_rt sn_sync sn_req given or_else filter].
        rewrite !Op. cbn [given or_else String.eqb Ascii.eqb Bool.eqb]. rewrite R, D.
        cbn [rq_proxy_call rq_call rq_action rq_opts]. fold opts.
        revert Se. unfold send. rewrite D.
        change (c_ser (set_next k (c_next k + 1))) with (c_ser k). change (c_local (set_next k (c_next k + 1))) with (c_local k).
        change (c_st (set_next k (c_next k + 1))) with (c_st k).
        destruct (dumps V (c_ser k) (c_local k) (c_st k) opts) as [st' [q|]] eqn:Du; [|easy]. intros _.
        assert (X : forall b, exists k1, (let k2 := match b with Off => k | _ => set_next k (c_next k + 1) end in
           let '(st', r) := dumps V (c_ser k2) (c_local k2) (c_st k2) opts in (set_cst k2 st', @None msg, bind r (fun _ => @Err (option Z) AttributeError))) =
           (k1, None, Err AttributeError)).
        { intros b. destruct b; cbn [set_next c_ser c_local c_st]; rewrite Du; cbn [bind]; eauto. }
        apply X.
  Qed.

  Lemma not_implemented s a t o tr0 : served V s (a_caller a) t -> (0 <= m_req (a_msg a))%Z ->
    m_action (a_msg a) <> "close" -> m_rt (a_msg a) = "auto" ->
    ser_ok (ve_ser V) (VObj o) = false -> history (ss_o (sv_st s)) tr0 -> proxyable (sv_st s) (VObj o) ->
    exists s' p px, finish_request V s a (Ok (VObj o)) = (s', [Sent (a_caller a) p], None) /\
      (forall k, c_ser k = t -> waiting k (m_req (a_msg a)) -> c_local k <> Some (sv_addr s) ->
        finished (fst (client_recv V k p)) (m_req (a_msg a)) (Ok (VProxy px))) /\
      forall right is_eq,
        py_binop (VObj o) (Ok (VProxy px)) right is_eq = Ok (VProxy px) /\
        py_binop (VObj o) (Ok (VObj o)) (Ok (VObj o)) true = Ok (VBool false).
  Proof.
    intros S R C T N H A.
    destruct (delivered_proxy V GV s a t (VObj o) tr0 S R C (or_intror (conj T N)) H A) as (s' & p & px & tr & F & _ & _ & _ & _ & _ & G).
    exists s', p, px. split; [exact F|]. split; [exact G|]. intros right is_eq. cbn. now rewrite Nat.eqb_refl.
  Qed.
End None.

(** *** nothing unreachable stays *)
Definition needed (l : list lp) (x : lp) : Prop := l_held x = true \/ exists y, In y l /\ l_parent y = Some (l_id x).
Lemma child_of l i : has_child l i = true -> exists y, In y l /\ l_parent y = Some i.
Proof.
  intros H. apply existsb_exists in H. destruct H as (y & Hy & E). exists y. split; auto.
  destruct (l_parent y) as [q|]; [|discriminate]. apply Nat.eqb_eq in E. now subst.
Qed.
Lemma lremove_shorter l i x : In x l -> l_id x = i -> List.length (lremove l i) < List.length l.
Proof.
  induction l as [|y l IH]; [easy|]. intros [->|H] E; cbn.
  - rewrite E, Nat.eqb_refl. cbn. clear. induction l as [|y l IH]; cbn; [lia|]. destruct (negb (l_id y =? i)); cbn in *; lia.
  - specialize (IH H E). unfold lremove in IH. destruct (negb (l_id y =? i)); cbn; lia.
Qed.
Lemma collect_needed n : forall s i, List.length (ls_live s) < n -> NoDup (map l_id (ls_live s)) ->
  (forall x, In x (ls_live s) -> l_id x <> i -> needed (ls_live s) x) ->
  forall x, In x (ls_live (collect n s i)) -> needed (ls_live (collect n s i)) x.
Proof.
  induction n as [|n IH]; intros s i L ND H; [lia|]. cbn [collect].
  destruct (lfind (ls_live s) i) as [z|] eqn:F.
  - apply lfind_in in F. destruct F as [Hz Ei].
    destruct (l_held z) eqn:Hh; cbn [orb].
    { intros x Hx. destruct (Nat.eq_dec (l_id x) i) as [E|N]; [|auto]. left. assert (x = z) as -> by (eapply id_inj; eauto; lia). exact Hh. }
    destruct (has_child (ls_live s) i) eqn:Hc.
    { intros x Hx. destruct (Nat.eq_dec (l_id x) i) as [E|N]; [|auto]. right. rewrite E. now apply child_of. }
    set (s' := mkLst (lremove (ls_live s) i) (ls_next s) _).
    assert (A : forall x, In x (ls_live s') -> l_parent z <> Some (l_id x) -> needed (ls_live s') x).
    { intros x Hx N. cbn in Hx. apply lremove_in in Hx. destruct Hx as [Hx Nx]. destruct (H x Hx Nx) as [?|(y & Hy & Py)]; [now left|].
      right. exists y. split; auto. cbn. apply lremove_in. split; auto. intros C. apply N. rewrite <- Py. f_equal.
      eapply id_inj; eauto. lia. }
    destruct (l_parent z) as [q|] eqn:Pz.
    + apply IH.
      * cbn. pose proof (lremove_shorter _ _ _ Hz Ei). lia.
      * cbn. now apply nodup_remove.
      * intros x Hx N. apply A; auto. congruence.
    + intros x Hx. apply A; auto. discriminate.
  - intros x Hx. apply H; auto. intros E. destruct (lfind_some _ _ Hx) as [y Y]. rewrite E in Y. congruence.
Qed.
Lemma needed_mono l l' x : (forall y, In y l -> In y l') -> needed l x -> needed l' x.
Proof. intros M [H|(y & H & E)]; [now left|]. right. eauto. Qed.
Lemma needed_lset l y z x : In z l -> l_id z = l_id y -> l_parent z = l_parent y -> NoDup (map l_id l) ->
  needed l x -> l_id x <> l_id y -> needed (lset l y) x.
Proof.
  intros Hz Ez Pz ND [H|(c & Hc & Pc)] N; [now left|]. right.
  destruct (Nat.eq_dec (l_id c) (l_id y)) as [E|Nc].
  - assert (c = z) as -> by (eapply id_inj; eauto; lia). exists y. split; [eapply lset_in_self; eauto|]. congruence.
  - exists c. split; [now apply lset_in_other|auto].
Qed.
Lemma needed_step s o : sane s -> (forall x, In x (ls_live s) -> needed (ls_live s) x) ->
  forall x, In x (ls_live (lstep s o)) -> needed (ls_live (lstep s o)) x.
Proof.
  intros [ND B] H. destruct o as [ref|i b|i|i]; cbn [lstep].
  - intros x [<-|Hx]; [now left|]. apply (needed_mono (ls_live s)); [now right|auto].
  - destruct (lfind (ls_live s) i) as [x|] eqn:F; auto. apply lfind_in in F. destruct F as [Hx Ei]. cbn [ls_live].
    intros z Hz. set (y := mkL i (l_ref x) b (l_parent x) (l_held x)) in *. apply lset_in in Hz. destruct Hz as [[-> _]|[Hz N]].
    + destruct (H x Hx) as [?|(c & Hc & Pc)]; [now left|]. right.
      destruct (Nat.eq_dec (l_id c) i) as [E|Nc].
      * assert (c = x) as -> by (eapply id_inj; eauto; lia). exists y. split; [eapply lset_in_self; eauto|]. cbn. congruence.
      * exists c. split; [now apply lset_in_other|]. cbn. congruence.
    + apply (needed_lset (ls_live s) y x z Hx); auto.
  - destruct (lfind (ls_live s) i) as [x|] eqn:F; auto.
    intros z [<-|Hz]; [now left|]. apply (needed_mono (ls_live s)); [now right|auto].
  - destruct (lfind (ls_live s) i) as [x|] eqn:F; auto. apply lfind_in in F. destruct F as [Hx Ei].
    apply collect_needed; cbn [ls_live].
    + unfold lset. rewrite map_length. lia.
    + now rewrite lset_ids.
    + intros z Hz N. apply lset_in in Hz. destruct Hz as [[-> _]|[Hz _]]; [now cbn in N|].
      apply (needed_lset (ls_live s) _ x z Hx); auto.
Qed.
Lemma needed_run l : forall s, sane s -> (forall x, In x (ls_live s) -> needed (ls_live s) x) ->
  forall x, In x (ls_live (lrun s l)) -> needed (ls_live (lrun s l)) x.
Proof.
  induction l as [|o l IH]; cbn; auto. intros s I H. apply IH; [now apply sane_step|]. now apply needed_step.
Qed.

(** parents are older and stay as long as their attributes *)
Definition rooted (s : lst) : Prop := forall x q, In x (ls_live s) -> l_parent x = Some q ->
  q < l_id x /\ exists y, In y (ls_live s) /\ l_id y = q /\ l_ref y = l_ref x.
Lemma rooted_collect n : forall s i, rooted s -> rooted (collect n s i).
Proof.
  induction n as [|n IH]; cbn; auto. intros s i I. destruct (lfind (ls_live s) i) as [x|]; auto.
  destruct (l_held x); cbn; auto. destruct (has_child (ls_live s) i) eqn:Nc; auto.
  assert (R : rooted (mkLst (lremove (ls_live s) i) (ls_next s) (if l_auto x then ls_log s ++ [l_ref x] else ls_log s))).
  { intros y q Hy Py. cbn in *. apply lremove_in in Hy. destruct Hy as [Hy Ny].
    destruct (I y q Hy Py) as (Hq & z & Hz & Iz & Rz). split; auto. exists z. split; auto.
    apply lremove_in. split; auto. intros C. apply (no_child _ _ y Nc Hy). congruence. }
  destruct (l_parent x); auto.
Qed.
Lemma rooted_lset s x y : sane s -> rooted s -> In x (ls_live s) -> l_id x = l_id y -> l_ref x = l_ref y -> l_parent x = l_parent y ->
  rooted (mkLst (lset (ls_live s) y) (ls_next s) (ls_log s)).
Proof.
  intros [ND _] R Hx Ei Er Ep z q Hz Pz. cbn [ls_live] in *.
  assert (P : exists z0, In z0 (ls_live s) /\ l_id z0 = l_id z /\ l_ref z0 = l_ref z /\ l_parent z0 = Some q).
  { apply lset_in in Hz. destruct Hz as [[-> _]|[Hz _]]; [|eauto 6]. exists x. rewrite Ep. auto. }
  destruct P as (z0 & Hz0 & E0 & R0 & P0). destruct (R _ _ Hz0 P0) as (Hq & w & Hw & Iw & Rw). split; [lia|].
  destruct (Nat.eq_dec (l_id w) (l_id y)) as [E|N].
  - exists y. split; [eapply lset_in_self; eauto|]. split; [lia|]. assert (w = x) as -> by (eapply id_inj; eauto; lia). congruence.
  - exists w. split; [apply lset_in_other; auto|]. split; [auto|congruence].
Qed.
Lemma rooted_step s o : sane s -> rooted s -> rooted (lstep s o).
Proof.
  intros S R. destruct o as [ref|i b|i|i]; cbn [lstep].
  - intros x q [<-|H]; cbn; [easy|]. intros Px. destruct (R _ _ H Px) as (? & y & ? & ?). split; auto. eauto.
  - destruct (lfind (ls_live s) i) as [x|] eqn:F; auto. apply lfind_in in F. destruct F as [Hx Ei].
    eapply rooted_lset; eauto.
  - destruct (lfind (ls_live s) i) as [x|] eqn:F; auto. apply lfind_in in F. destruct F as [Hx Ei].
    intros z q [<-|H]; cbn.
    + intros [= <-]. split; [rewrite <- Ei; now apply S|]. exists x. auto.
    + intros Pz. destruct (R _ _ H Pz) as (? & w & ? & ?). split; auto. eauto.
  - destruct (lfind (ls_live s) i) as [x|] eqn:F; auto. apply lfind_in in F. destruct F as [Hx Ei].
    apply rooted_collect. eapply rooted_lset; eauto.
Qed.
Lemma rooted_run l : forall s, sane s -> rooted s -> rooted (lrun s l).
Proof. induction l as [|o l IH]; cbn; auto. intros s I R. apply IH; [now apply sane_step|now apply rooted_step]. Qed.

Theorem live_is_in_use l x s : s = lrun lst0 l -> In x (ls_live s) -> in_use s x.
Proof.
  intros Es. assert (S : sane s) by (subst; apply sane_run, sane0).
  assert (R : rooted s) by (subst; apply rooted_run; [apply sane0|intros ? ? []]).
  assert (N : forall x, In x (ls_live s) -> needed (ls_live s) x) by (subst; apply needed_run; [apply sane0|intros ? []]).
  clear Es l. assert (A : forall n x, ls_next s - l_id x < n -> In x (ls_live s) -> in_use s x).
  { intros n. induction n as [|n IH]; intros y L Hy; [lia|]. destruct (N y Hy) as [H|(c & Hc & Pc)]; [now constructor|].
    eapply use_child; eauto. apply IH; auto. destruct (R c _ Hc Pc) as [Q _]. pose proof (proj2 S c Hc). lia. }
  intros H. apply (A (1 + (ls_next s - l_id x))); [lia|auto].
Qed.
Lemma collect_keeps_held n : forall s i x, NoDup (map l_id (ls_live s)) -> In x (ls_live s) -> l_held x = true -> In x (ls_live (collect n s i)).
Proof.
  induction n as [|n IH]; cbn; auto. intros s i x ND Hx Hh. destruct (lfind (ls_live s) i) as [y|] eqn:F; auto.
  apply lfind_in in F. destruct F as [Hy Ei].
  destruct (l_held y) eqn:Hy2; cbn [orb]; auto. destruct (has_child _ _); auto.
  assert (Hr : In x (lremove (ls_live s) i)).
  { apply lremove_in. split; auto. intros E. assert (x = y) as -> by (eapply id_inj; eauto; lia). congruence. }
  destruct (l_parent y); auto. apply IH; auto. cbn. now apply nodup_remove.
Qed.
Theorem held_stays l s x o : s = lrun lst0 l -> In x (ls_live s) -> l_held x = true -> o <> LDrop (l_id x) ->
  exists y, In y (ls_live (lstep s o)) /\ l_id y = l_id x /\ l_ref y = l_ref x /\ l_held y = true.
Proof.
  intros Es Hx Hh No. assert (S : sane s) by (subst; apply sane_run, sane0). destruct S as [ND _].
  destruct o as [ref|i b|i|i]; cbn [lstep].
  - exists x. cbn. auto.
  - destruct (lfind (ls_live s) i) as [z|] eqn:F; [|eauto 6]. apply lfind_in in F. destruct F as [Hz Ei]. cbn [ls_live].
    destruct (Nat.eq_dec (l_id x) i) as [E|N].
    + assert (x = z) as -> by (eapply id_inj; eauto; lia). eexists. split; [eapply lset_in_self; eauto|]. auto.
    + exists x. split; [now apply lset_in_other|auto].
  - destruct (lfind (ls_live s) i); exists x; cbn; auto.
  - destruct (lfind (ls_live s) i) as [z|] eqn:F; [|eauto 6]. apply lfind_in in F. destruct F as [Hz Ei].
    assert (N : l_id x <> i) by (intros <-; now apply No).
    exists x. split; [|auto]. apply collect_keeps_held; auto; cbn [ls_live]; [now rewrite lset_ids|]. now apply lset_in_other.
Qed.
Theorem collected_iff_unreachable l s : s = lrun lst0 l ->
  (forall x, In x (ls_live s) -> in_use s x) /\
  (forall x o, In x (ls_live s) -> l_held x = true -> o <> LDrop (l_id x) ->
     exists y, In y (ls_live (lstep s o)) /\ l_id y = l_id x /\ l_ref y = l_ref x /\ l_held y = true) /\
  (forall y q, In y (ls_live s) -> l_parent y = Some q -> exists x, In x (ls_live s) /\ l_id x = q /\ l_ref x = l_ref y).
Proof.
  intros Es. split; [intros x; apply (live_is_in_use l x s Es)|]. split; [intros x o; apply (held_stays l s x o Es)|].
  intros y q Hy Py. assert (R : rooted s) by (subst; apply rooted_run; [apply sane0|intros ? ? []]).
  destruct (R y _ Hy Py) as (_ & H). exact H.
Qed.

(** C125 *)
Lemma refused_not_sent V k x k' om e : In (sn_sync x) [VStr "sync"; VStr "async"; VStr "off"] ->
  send_as V k x = (k', om, Err e) -> om = None.
Proof.
  intros I. unfold send_as.
  assert (S : exists sy, sy <> BadSync /\ match sn_sync x with VStr "sync" => Sync | VStr "async" => Async | VStr "off" => Off | _ => BadSync end = sy).
  { destruct I as [<-|[<-|[<-|[]]]]; eexists; (split; [|reflexivity]); discriminate. }
  destruct S as (sy & Ns & ->). destruct (sn_rt x); try (destruct (c_disc k); [intros [= _ <- _]; auto|]; destruct (rq_opts (sn_req x)) as [v'|];
    [destruct (dumps V _ _ _ v') as [st' [pl0|er]]; cbn; intros [= _ <- _]; auto|intros [= _ <- _]; auto]).
  unfold send. destruct (c_disc k); [intros [= _ <- _]; auto|].
  destruct sy; try contradiction; destruct (rq_opts (sn_req x)) as [v'|];
    try (destruct (dumps V _ _ _ v') as [st' [pl0|er]]; [|intros [= _ <- _]; auto]);
    match goal with |- context [c_open ?c] => destruct (c_open c); intros [= _ <- H]; auto; discriminate end.
Qed.
Lemma bad_sync_sent V k p args v k' m r : ~ In v [VStr "sync"; VStr "async"; VStr "off"] ->
  send_as V k (call p args [("_sync", VStr "sync")]) = (k', Some m, r) ->
  send_as V k (call p args [("_sync", v)]) = (k', Some m, Err ValueError).
Proof.
  intros N. unfold call, send_as. cbn [kwpop String.eqb Ascii.eqb Bool.eqb sn_sync sn_rt sn_req].
  assert (E : match v with VStr "sync" => Sync | VStr "async" => Async | VStr "off" => Off | _ => BadSync end = BadSync).
  { destruct v; auto.
    destruct (string_dec s "sync") as [->|N1]; [exfalso; apply N; cbn; auto|].
    destruct (string_dec s "async") as [->|N2]; [exfalso; apply N; cbn; auto|].
    destruct (string_dec s "off") as [->|N3]; [exfalso; apply N; cbn; auto|].
    clear N. repeat (match goal with |- context [match ?x with _ => _ end] => destruct x; auto; try congruence end). }
  rewrite E. destruct (opt p "return_type"); try (destruct (c_disc k); [discriminate|]; destruct (rq_opts _) as [v'|];
    [destruct (dumps V _ _ _ v') as [st' [pl0|er]]; cbn; discriminate|discriminate]).
  unfold send. destruct (c_disc k); [discriminate|]. destruct (rq_opts _) as [v'|];
    try (destruct (dumps V _ _ _ v') as [st' [pl0|er]]; [|discriminate]);
    match goal with |- context [c_open ?c] => destruct (c_open c); [|discriminate]; intros [= <- <- _]; reflexivity end.
Qed.
