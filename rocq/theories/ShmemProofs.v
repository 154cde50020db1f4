(** Proofs about shared arrays. *)
From Verif Require Import Py ShmemModel ShmemSpec.
Local Open Scope Z_scope.

Lemma prod_pos sh : Forall (fun n => 0 < n) sh -> 0 < prod sh.
Proof. induction 1; cbn; [lia|]. apply Z.mul_pos_pos; lia. Qed.
Lemma in_shape_indices ix sh : in_shape ix sh -> In ix (indices sh).
Proof.
  revert sh. induction ix as [|i ix IH]; intros [|n sh]; cbn; try tauto.
  intros [H I]. apply in_flat_map. exists (Z.to_nat i). split; [apply in_seq; lia|].
  rewrite Z2Nat.id by lia. apply in_map, IH, I.
Qed.
Lemma indices_in_shape ix sh : In ix (indices sh) -> in_shape ix sh.
Proof.
  revert ix. induction sh as [|n sh IH]; intros ix; cbn.
  - intros [<-|[]]. exact I.
  - rewrite in_flat_map. intros (i & Hi & H). apply in_map_iff in H. destruct H as (ix' & <- & H).
    apply in_seq in Hi. cbn. split; [lia|]. apply IH, H.
Qed.
Lemma in_shape_pos ix sh : in_shape ix sh -> Forall (fun n => 0 < n) sh.
Proof.
  revert sh. induction ix as [|i ix IH]; intros [|n sh]; cbn; try tauto; [constructor|].
  intros [H I]. constructor; [lia|auto].
Qed.

(** C order: the address is item * (position in C order) *)
Fixpoint pos (ix sh : list Z) : Z :=
  match ix, sh with i :: ix, n :: sh => i * prod sh + pos ix sh | _, _ => 0 end.
Lemma dot_pos item ix sh : in_shape ix sh -> dot ix (c_strides item sh) = item * pos ix sh.
Proof.
  revert sh. induction ix as [|i ix IH]; intros [|n sh]; cbn; try tauto; [lia|].
  intros [_ H]. rewrite (IH _ H). lia.
Qed.
Lemma pos_bound ix sh : in_shape ix sh -> 0 <= pos ix sh < prod sh.
Proof.
  revert sh. induction ix as [|i ix IH]; intros [|n sh]; cbn; try tauto; [lia|].
  intros [H I]. specialize (IH _ I). nia.
Qed.
Lemma pos_inj ix iy sh : in_shape ix sh -> in_shape iy sh -> pos ix sh = pos iy sh -> ix = iy.
Proof.
  revert iy sh. induction ix as [|i ix IH]; intros [|j iy] [|n sh]; cbn; try tauto.
  intros [Hi I] [Hj J] E. pose proof (pos_bound _ _ I). pose proof (pos_bound _ _ J).
  assert (i = j) by nia. subst j. f_equal. apply (IH _ sh); auto. lia.
Qed.

Lemma peek_poke_same m seg a b : peek (poke m seg a b) seg a (List.length b) = b.
Proof.
  unfold peek, poke. apply nth_ext with 0 0; rewrite map_length, seq_length; auto.
  intros k H. rewrite nth_indep with (d' := (fun k => if String.eqb seg seg && (a <=? a + Z.of_nat k) &&
     (a + Z.of_nat k <? a + Z.of_nat (List.length b)) then nth (Z.to_nat (a + Z.of_nat k - a)) b 0 else m seg (a + Z.of_nat k)) 0%nat)
     by (rewrite map_length, seq_length; auto).
  rewrite map_nth with (f := fun k => if String.eqb seg seg && (a <=? a + Z.of_nat k) &&
     (a + Z.of_nat k <? a + Z.of_nat (List.length b)) then nth (Z.to_nat (a + Z.of_nat k - a)) b 0 else m seg (a + Z.of_nat k)).
  rewrite seq_nth by auto. cbn [plus]. rewrite String.eqb_refl.
  destruct (Z.leb_spec a (a + Z.of_nat k)); [|lia]. destruct (Z.ltb_spec (a + Z.of_nat k) (a + Z.of_nat (List.length b))); [|lia].
  cbn [andb]. f_equal. lia.
Qed.
Lemma peek_poke_other m seg seg' a a' b n :
  seg <> seg' \/ a + Z.of_nat (List.length b) <= a' \/ a' + Z.of_nat n <= a ->
  peek (poke m seg a b) seg' a' n = peek m seg' a' n.
Proof.
  intros D. unfold peek, poke. apply map_ext_in. intros k K. apply in_seq in K.
  destruct (String.eqb_spec seg' seg); cbn [andb]; auto.
  destruct (Z.leb_spec a (a' + Z.of_nat k)); cbn [andb]; auto.
  destruct (Z.ltb_spec (a' + Z.of_nat k) (a + Z.of_nat (List.length b))); auto.
  destruct D as [D|D]; [congruence|lia].
Qed.

Section Fill.
  Variables (v : view) (f : list Z -> bytes).
  Hypothesis C : v_strides v = c_strides (Z.of_nat (v_item v)) (v_shape v).
  Hypothesis F : forall ix, in_shape ix (v_shape v) -> List.length (f ix) = v_item v.

  Lemma write_read_same m ix : in_shape ix (v_shape v) -> read (write m v ix (f ix)) v ix = f ix.
  Proof. intros I. unfold read, write. rewrite <- (F ix I) at 1. apply peek_poke_same. Qed.
  Lemma write_read_other m ix iy : in_shape ix (v_shape v) -> in_shape iy (v_shape v) -> ix <> iy ->
    read (write m v ix (f ix)) v iy = read m v iy.
  Proof.
    intros I J N. unfold read, write. apply peek_poke_other. right. unfold addr. rewrite C, !dot_pos by auto. rewrite (F ix I).
    assert (pos ix (v_shape v) <> pos iy (v_shape v)) by (intros E; apply N; apply (pos_inj _ _ (v_shape v)); auto).
    nia.
  Qed.
  Lemma fill_list l : (forall ix, In ix l -> in_shape ix (v_shape v)) -> forall m iy, in_shape iy (v_shape v) ->
    read (fold_left (fun m ix => write m v ix (f ix)) l m) v iy =
    if in_dec (list_eq_dec Z.eq_dec) iy l then f iy else read m v iy.
  Proof.
    intros H. induction l as [|ix l IH]; intros m iy J; cbn [fold_left]; [reflexivity|].
    assert (Hx : in_shape ix (v_shape v)) by (apply H; left; reflexivity).
    rewrite IH by (auto; intros z Z; apply H; right; exact Z).
    destruct (in_dec (list_eq_dec Z.eq_dec) iy l) as [I|I].
    - destruct (in_dec _ iy (ix :: l)) as [I'|I']; auto. exfalso. apply I'. right. exact I.
    - destruct (in_dec (list_eq_dec Z.eq_dec) iy (ix :: l)) as [[<-|I']|I'].
      + apply write_read_same, Hx.
      + contradiction.
      + apply write_read_other; auto. intros ->. apply I'. left. reflexivity.
  Qed.
  Lemma fill_read m iy : in_shape iy (v_shape v) -> read (fill m v f) v iy = f iy.
  Proof.
    intros J. unfold fill. rewrite fill_list by (auto; intros z Hz; apply (indices_in_shape z _ Hz)).
    destruct (in_dec _ iy _) as [I|I]; auto. destruct I. apply in_shape_indices, J.
  Qed.
  (** filling an array leaves other segments alone *)
  Lemma fill_other m seg a : seg <> v_seg v -> fill m v f seg a = m seg a.
  Proof.
    intros N. unfold fill. generalize (indices (v_shape v)). intros l. revert m.
    induction l as [|ix l IH]; intros m; cbn [fold_left]; auto. rewrite IH. unfold write, poke.
    destruct (String.eqb_spec seg (v_seg v)); [congruence|]. reflexivity.
  Qed.
End Fill.

(** ** close_all *)
Lemma close_loop l s :
  let s' := fold_left close_one l s in
  ss_mem s' = ss_mem s /\ (forall n, In n (ss_linked s') <-> In n (ss_linked s) /\ ~ In n l) /\
  (forall n, In n (ss_closed s') <-> In n (ss_closed s) \/ In n l) /\ ss_all s' = ss_all s.
Proof.
  revert s. induction l as [|g l IH]; intros s; cbn [fold_left].
  - cbn. repeat split; auto; tauto.
  - destruct (IH (close_one s g)) as (A & B & C & D). cbn zeta in *. rewrite A, D.
    repeat split; auto.
    + apply B in H. destruct H as [H _]. cbn in H. apply filter_In in H. tauto.
    + apply B in H. destruct H as [H N]. cbn in H. apply filter_In in H. destruct H as [_ H].
      intros [->|J]; [|tauto]. rewrite String.eqb_refl in H. discriminate.
    + intros [H N]. apply B. cbn. split; [|intros J; apply N; right; exact J]. apply filter_In. split; auto.
      destruct (String.eqb_spec g n); auto. subst. exfalso. apply N. left. reflexivity.
    + intros H. apply C in H. cbn in H. cbn. tauto.
    + intros H. apply C. cbn in *. tauto.
Qed.
Lemma close_all_spec s :
  ss_all (close_all s) = [] /\ ss_mem (close_all s) = ss_mem s /\
  (forall n, In n (ss_linked (close_all s)) <-> In n (ss_linked s) /\ ~ In n (ss_all s)) /\
  (forall n, In n (ss_closed (close_all s)) <-> In n (ss_closed s) \/ In n (ss_all s)).
Proof. unfold close_all. destruct (close_loop (ss_all s) s) as (A & B & C & D). cbn. auto. Qed.

(** ** Facts used by the statements *)
Lemma receiver_destroys :
  forall s name shape item arr s1 a s2 b, copy s name shape item arr true = Ok (s1, a) ->
  reload (other_process s1) (reduce a) = Ok (s2, b) ->
  sh_close b = false /\ linked s1 name /\ linked s2 name /\ ~ linked (close_all s2) name.
Proof.
  intros s name shape item arr s1 a s2 b. unfold copy, create. destruct (prod shape * Z.of_nat item <=? 0); cbn [bind]; [discriminate|].
  destruct shape as [|n sh]; [discriminate|]. unfold wrap, set_mem. intros [= <- <-]. unfold reduce, reload.
  cbn [sh_view v_seg v_shape v_item v_strides other_process ss_linked ss_mem]. cbn [existsb].
  rewrite String.eqb_refl. cbn [orb]. intros [= <- <-].
  split; [reflexivity|]. split; [left; reflexivity|]. split; [left; reflexivity|].
  unfold linked. intros H. apply (proj1 (proj2 (proj2 (close_all_spec _)))) in H. destruct H as [_ H]. apply H. cbn. left. reflexivity.
Qed.

Lemma made_here_start_at_0 :
  forall s name shape item arr close s' a,
  copy s name shape item arr close = Ok (s', a) \/ zeros s name shape item close = Ok (s', a) ->
  v_off (sh_view a) = 0 /\ linked s' name.
Proof.
  intros s name shape item arr close s' a [H|H]; revert H.
  - unfold copy, create. destruct (prod shape * Z.of_nat item <=? 0); cbn [bind]; [discriminate|].
    destruct shape; [discriminate|]. unfold wrap. intros [= <- <-]. split; [reflexivity|left; reflexivity].
  - unfold zeros, create. destruct shape; [discriminate|]. destruct (prod (z :: shape) * Z.of_nat item <=? 0); cbn [bind]; [discriminate|].
    unfold wrap. intros [= <- <-]. split; [reflexivity|left; reflexivity].
Qed.

Lemma copy_contents :
  forall s name shape item arr close s' a, copy s name shape item arr close = Ok (s', a) ->
  (forall ix, in_shape ix shape -> List.length (arr ix) = item) ->
  v_shape (sh_view a) = shape /\
  (forall ix, in_shape ix shape -> read (ss_mem s') (sh_view a) ix = arr ix) /\
  (forall seg x, seg <> name -> ss_mem s' seg x = ss_mem s seg x).
Proof.
  intros s name shape item arr close s' a. unfold copy, create. destruct (prod shape * Z.of_nat item <=? 0); cbn [bind]; [discriminate|].
  destruct shape as [|n sh]; [discriminate|]. unfold wrap. intros [= <- <-] L. split; [reflexivity|]. split.
  - intros ix I. cbn [set_mem ss_mem sh_view]. apply fill_read; auto.
  - intros seg x N. cbn [set_mem ss_mem]. apply fill_other. exact N.
Qed.

Lemma zeros_contents :
  forall s name shape item close s' a, zeros s name shape item close = Ok (s', a) ->
  v_shape (sh_view a) = shape /\
  (forall ix, in_shape ix shape -> read (ss_mem s') (sh_view a) ix = repeat 0 item) /\
  (forall seg x, seg <> name -> ss_mem s' seg x = ss_mem s seg x).
Proof.
  intros s name shape item close s' a. unfold zeros, create. destruct shape as [|n sh]; [discriminate|].
  destruct (prod (n :: sh) * Z.of_nat item <=? 0); cbn [bind]; [discriminate|].
  unfold wrap. intros [= <- <-]. split; [reflexivity|]. split.
  - intros ix I. cbn [set_mem ss_mem sh_view]. apply (fill_read _ (fun _ => repeat 0 item)); auto. intros; apply repeat_length.
  - intros seg x N. cbn [set_mem ss_mem]. apply fill_other. exact N.
Qed.

Lemma elements_fit :
  forall s name shape item arr close s' a,
  copy s name shape item arr close = Ok (s', a) \/ zeros s name shape item close = Ok (s', a) -> v_item (sh_view a) = item /\ fits s' (sh_view a).
Proof.
  assert (A : forall name shape item, let v := mkV name 0 shape (c_strides (Z.of_nat item) shape) item in
    forall ix, in_shape ix shape -> 0 <= addr v ix /\ addr v ix + Z.of_nat item <= prod shape * Z.of_nat item).
  { intros name shape item v ix I. unfold addr, v. cbn [v_off v_strides]. rewrite dot_pos by exact I. pose proof (pos_bound _ _ I). nia. }
  intros s name shape item arr close s' a [H|H]; revert H.
  - unfold copy, create. destruct (prod shape * Z.of_nat item <=? 0); cbn [bind]; [discriminate|].
    destruct shape as [|n sh]; [discriminate|]. unfold wrap, set_mem. intros [= <- <-]. split; [reflexivity|].
    exists (prod (n :: sh) * Z.of_nat item). cbn [ss_size sh_view v_seg v_shape v_item]. rewrite dget_dset_same. split; [reflexivity|]. exact (A name (n :: sh) item).
  - unfold zeros, create. destruct shape as [|n sh]; [discriminate|]. destruct (prod (n :: sh) * Z.of_nat item <=? 0); cbn [bind]; [discriminate|].
    unfold wrap, set_mem. intros [= <- <-]. split; [reflexivity|].
    exists (prod (n :: sh) * Z.of_nat item). cbn [ss_size sh_view v_seg v_shape v_item]. rewrite dget_dset_same. split; [reflexivity|]. exact (A name (n :: sh) item).
Qed.

Lemma shapes_that_work :
  forall s name shape item arr close, shape <> [] -> Forall (fun n => 0 < n) shape -> (0 < item)%nat ->
  (exists r, copy s name shape item arr close = Ok r) /\ (exists r, zeros s name shape item close = Ok r).
Proof.
  intros s name shape item arr close N F I. pose proof (prod_pos _ F).
  assert (H0 : (prod shape * Z.of_nat item <=? 0) = false) by (apply Z.leb_gt; nia).
  destruct shape; [congruence|]. unfold copy, zeros, create. rewrite H0. cbn [bind]. split; eexists; reflexivity.
Qed.

Lemma in_0_prod sh : In 0 sh -> prod sh = 0.
Proof. induction sh as [|n sh IH]; [intros []|]. intros [->|H]; cbn [prod]; [reflexivity|]. rewrite (IH H). lia. Qed.
