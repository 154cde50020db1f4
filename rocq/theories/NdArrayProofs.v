From Verif Require Import Py NdArrayModel NdArraySpec.

Fixpoint pos (w : nat) (shape idx : list nat) : nat :=
  match shape, idx with
  | _ :: shape', i :: idx' => (i * (prod shape' * w) + pos w shape' idx')%nat
  | _, _ => O
  end.

Lemma elem_addr_shift off idx strides : elem_addr off idx strides = off + elem_addr 0 idx strides.
Proof.
  revert off strides. induction idx as [|i idx IH]; intros off [|s strides]; simpl; try lia.
  rewrite IH, (IH (Z.of_nat i * s)). lia.
Qed.

Lemma elem_addr_c w shape : forall idx off, in_bounds idx shape ->
  elem_addr off idx (c_strides w shape) = off + Z.of_nat (pos w shape idx).
Proof.
  induction shape as [|n shape IH]; intros idx off H; inversion H; subst; simpl; [lia|].
  rewrite IH by assumption. lia.
Qed.

Lemma pos_bound w shape : forall idx, in_bounds idx shape -> (pos w shape idx + w <= prod shape * w)%nat.
Proof.
  induction shape as [|n shape IH]; intros idx H; inversion H; subst; simpl; [lia|].
  specialize (IH _ ltac:(eassumption)).
  assert ((S x) * (prod shape * w) <= n * (prod shape * w))%nat by (apply Nat.mul_le_mono_r; lia).
  simpl in *. nia.
Qed.

Lemma mem_slice_length m p w : List.length (mem_slice m p w) = w.
Proof. unfold mem_slice. rewrite map_length, seq_length. reflexivity. Qed.

Lemma mem_slice_nth m p w j d : (j < w)%nat -> nth j (mem_slice m p w) d = m (p + Z.of_nat j).
Proof.
  intro H. unfold mem_slice.
  rewrite (nth_indep _ d (m (p + Z.of_nat 0))) by (rewrite map_length, seq_length; exact H).
  rewrite (map_nth (fun j => m (p + Z.of_nat j))). rewrite seq_nth by exact H. reflexivity.
Qed.

Lemma list_ext (l1 l2 : list ascii) : List.length l1 = List.length l2 ->
  (forall j, (j < List.length l1)%nat -> nth j l1 zero = nth j l2 zero) -> l1 = l2.
Proof. intros. eapply nth_ext; eauto. Qed.

Lemma mem_slice_ext m1 p1 m2 p2 w :
  (forall j, (j < w)%nat -> m1 (p1 + Z.of_nat j) = m2 (p2 + Z.of_nat j)) ->
  mem_slice m1 p1 w = mem_slice m2 p2 w.
Proof.
  intro H. unfold mem_slice. apply map_ext_in. intros j Hj. apply in_seq in Hj. apply H. lia.
Qed.

Lemma flat_map_length {A} (f : A -> list ascii) l L :
  (forall x, In x l -> List.length (f x) = L) -> List.length (flat_map f l) = (List.length l * L)%nat.
Proof.
  induction l as [|x l IH]; intro H; simpl; [reflexivity|].
  rewrite app_length, H by (left; reflexivity). rewrite IH by (intros; apply H; right; assumption). lia.
Qed.

Lemma traverse_length m w shape : forall strides off, List.length strides = List.length shape ->
  List.length (traverse m w shape strides off) = (prod shape * w)%nat.
Proof.
  induction shape as [|n shape IH]; intros [|s strides] off H; try discriminate; simpl.
  - rewrite mem_slice_length. lia.
  - rewrite (flat_map_length _ _ (prod shape * w)).
    + rewrite seq_length. lia.
    + intros i _. apply IH. injection H as H. exact H.
Qed.

Lemma nth_flat_map (f : nat -> list ascii) L n : forall a i j d,
  (forall k, List.length (f k) = L) -> (i < n)%nat -> (j < L)%nat ->
  nth (i * L + j) (flat_map f (seq a n)) d = nth j (f (a + i)%nat) d.
Proof.
  induction n as [|n IH]; intros a i j d HL Hi Hj; [lia|]. simpl.
  destruct i as [|i].
  - simpl. rewrite app_nth1 by (rewrite HL; exact Hj). rewrite Nat.add_0_r. reflexivity.
  - rewrite app_nth2 by (rewrite HL; simpl; lia). rewrite HL.
    replace (S i * L + j - L)%nat with (i * L + j)%nat by (simpl; lia).
    rewrite IH by (auto; lia). f_equal. f_equal. lia.
Qed.

Lemma traverse_nth m w shape : forall strides idx off j,
  List.length strides = List.length shape -> in_bounds idx shape -> (j < w)%nat ->
  nth (pos w shape idx + j) (traverse m w shape strides off) zero =
  m (elem_addr off idx strides + Z.of_nat j).
Proof.
  induction shape as [|n shape IH]; intros [|s strides] idx off j Hl Hb Hj; try discriminate;
    inversion Hb; subst; simpl.
  - apply mem_slice_nth. exact Hj.
  - rewrite <- Nat.add_assoc.
    rewrite (nth_flat_map _ (prod shape * w)); [simpl; apply IH; auto| |assumption|].
    + intro k. apply traverse_length. auto.
    + pose proof (pos_bound w shape l ltac:(assumption)). lia.
Qed.

Lemma mem_of_nat b p : mem_of b (Z.of_nat p) = nth p b zero.
Proof. unfold mem_of. rewrite Nat2Z.id. reflexivity. Qed.

(** A C-ordered array over the traversal of [a] has the elements of [a]. *)
Lemma c_array_same a b : wf_array a -> b = tobytes a ->
  same_array a (mkA (mem_of b) 0 (a_shape a) (c_strides (a_item a) (a_shape a)) (a_item a)).
Proof.
  intros W ->. split; [reflexivity|]. split; [reflexivity|]. intros idx Hb.
  unfold elem. simpl. apply mem_slice_ext. intros j Hj.
  rewrite elem_addr_c by exact Hb.
  replace (0 + Z.of_nat (pos (a_item a) (a_shape a) idx) + Z.of_nat j)
    with (Z.of_nat (pos (a_item a) (a_shape a) idx + j)) by lia.
  rewrite mem_of_nat. unfold tobytes. rewrite traverse_nth by assumption. reflexivity.
Qed.

Lemma tobytes_length a : wf_array a -> List.length (tobytes a) = (prod (a_shape a) * a_item a)%nat.
Proof. intro W. apply traverse_length. exact W. Qed.

Lemma c_strides_length w shape : List.length (c_strides w shape) = List.length shape.
Proof. induction shape; simpl; congruence. Qed.

Lemma wf_ascontig a : wf_array (ascontiguousarray a).
Proof. unfold wf_array. simpl. apply c_strides_length. Qed.

Lemma same_array_refl a : same_array a a.
Proof. repeat split. Qed.
Lemma same_array_trans a b c : same_array a b -> same_array b c -> same_array a c.
Proof.
  intros (A1 & A2 & A3) (B1 & B2 & B3). split; [congruence|]. split; [congruence|].
  intros idx H. rewrite A3 by exact H. apply B3. rewrite <- A2. exact H.
Qed.

(** the bytes of a traversal depend only on the elements *)
Lemma traverse_ext m1 m2 w shape : forall st1 st2 o1 o2,
  List.length st1 = List.length shape -> List.length st2 = List.length shape ->
  (forall idx, in_bounds idx shape ->
     mem_slice m1 (elem_addr o1 idx st1) w = mem_slice m2 (elem_addr o2 idx st2) w) ->
  traverse m1 w shape st1 o1 = traverse m2 w shape st2 o2.
Proof.
  induction shape as [|n shape IH]; intros [|s1 st1] [|s2 st2] o1 o2 H1 H2 H; try discriminate; simpl.
  - specialize (H [] (Forall2_nil _)). simpl in H. exact H.
  - assert (E : forall l, (forall i, In i l -> (i < n)%nat) ->
      flat_map (fun i => traverse m1 w shape st1 (o1 + Z.of_nat i * s1)) l =
      flat_map (fun i => traverse m2 w shape st2 (o2 + Z.of_nat i * s2)) l).
    { induction l as [|i l IHl]; intro Hl; simpl; [reflexivity|].
      rewrite IHl by (intros; apply Hl; right; assumption). f_equal.
      apply IH; auto. intros idx Hi. specialize (H (i :: idx)). simpl in H. apply H.
      constructor; [apply Hl; left; reflexivity | exact Hi]. }
    apply E. intros i Hi. apply in_seq in Hi. lia.
Qed.

Lemma tobytes_same a b : wf_array a -> wf_array b -> same_array a b -> tobytes a = tobytes b.
Proof.
  intros Wa Wb (E1 & E2 & E3). unfold tobytes. rewrite <- E1, <- E2.
  apply traverse_ext; [exact Wa | rewrite E2; exact Wb |].
  intros idx Hi. specialize (E3 idx Hi). unfold elem in E3. rewrite <- E1 in E3. exact E3.
Qed.

Lemma encode_bytes_eq a : wf_array a -> encode_bytes a = tobytes a.
Proof.
  intro W. unfold encode_bytes. destruct (c_contiguous a); [reflexivity|].
  symmetry. apply tobytes_same; [exact W | apply wf_ascontig |]. apply c_array_same; auto.
Qed.

Lemma decode_encode a : wf_array a -> (0 < a_item a)%nat ->
  exists a', frombuffer_reshape (encode_bytes a) (a_item a) (a_shape a) = Ok a' /\ same_array a a' /\ wf_array a'.
Proof.
  intros W Hw. rewrite encode_bytes_eq by exact W. unfold frombuffer_reshape.
  destruct (Nat.eqb_spec (a_item a) 0); [lia|].
  rewrite tobytes_length by exact W. rewrite Nat.mod_mul by lia. simpl.
  rewrite Nat.div_mul by lia. rewrite Nat.eqb_refl. simpl.
  eexists. split; [reflexivity|]. split; [apply c_array_same; auto|].
  unfold wf_array. simpl. apply c_strides_length.
Qed.

(** ** contiguous memory *)
Lemma mem_slice_app m p w1 w2 :
  mem_slice m p (w1 + w2) = mem_slice m p w1 ++ mem_slice m (p + Z.of_nat w1) w2.
Proof.
  unfold mem_slice. rewrite seq_app, map_app. f_equal. simpl.
  replace (seq w1 w2) with (map (fun k => (w1 + k)%nat) (seq 0 w2)).
  - rewrite map_map. apply map_ext. intro k. f_equal. lia.
  - clear. assert (H : forall a b, map (fun k => (w1 + k)%nat) (seq a b) = seq (w1 + a) b).
    { intros a b. revert a. induction b as [|b IH]; intro a; simpl; [reflexivity|].
      rewrite IH. f_equal. f_equal. lia. }
    rewrite H. f_equal. lia.
Qed.

Lemma blocks_contig m off L : forall n a,
  flat_map (fun i => mem_slice m (off + Z.of_nat i * Z.of_nat L) L) (seq a n) =
  mem_slice m (off + Z.of_nat a * Z.of_nat L) (n * L).
Proof.
  induction n as [|n IH]; intro a; simpl; [reflexivity|].
  rewrite mem_slice_app, IH. f_equal. f_equal. lia.
Qed.

Lemma contig_traverse m w shape : forall strides off ok sd,
  List.length strides = List.length shape ->
  existsb (fun n => (n =? 0)%nat) shape = false ->
  c_contig_aux (Z.of_nat w) shape strides = (ok, sd) ->
  sd = Z.of_nat (prod shape * w) /\
  (ok = true -> traverse m w shape strides off = mem_slice m off (prod shape * w)).
Proof.
  induction shape as [|n shape IH]; intros [|s strides] off ok sd Hl Hz; try discriminate; simpl.
  - intros [= <- <-]. split; [lia|]. intros _. f_equal. lia.
  - simpl in Hz. apply orb_false_iff in Hz. destruct Hz as [Hn Hz]. injection Hl as Hl.
    destruct (c_contig_aux (Z.of_nat w) shape strides) as [ok' sd'] eqn:E.
    destruct (IH strides off ok' sd' Hl Hz E) as [Hsd _].
    destruct (Nat.eqb_spec n 1) as [->|N1]; intros [= <- <-].
    + split; [lia|]. intro Hok.
      destruct (IH strides (off + 0) ok' sd' Hl Hz E) as [_ Ht].
      simpl. rewrite app_nil_r. rewrite Ht by exact Hok. f_equal; lia.
    + split; [lia|]. intro Hok. apply andb_true_iff in Hok. destruct Hok as [Hok Hs].
      apply Z.eqb_eq in Hs. subst s sd'.
      transitivity (mem_slice m (off + Z.of_nat 0 * Z.of_nat (prod shape * w)) (n * (prod shape * w)));
        [|f_equal; lia].
      rewrite <- blocks_contig.
      apply flat_map_ext. intro i.
      destruct (IH strides (off + Z.of_nat i * Z.of_nat (prod shape * w)) ok' _ Hl Hz E) as [_ Ht].
      apply Ht. exact Hok.
Qed.

Lemma prod_zero shape : existsb (fun n => (n =? 0)%nat) shape = true -> prod shape = O.
Proof.
  induction shape as [|n shape IH]; simpl; [discriminate|]. intro H. apply orb_true_iff in H.
  destruct H as [H|H]; [apply Nat.eqb_eq in H; subst; reflexivity | rewrite IH by exact H; lia].
Qed.

Lemma contig_raw a : wf_array a -> c_contiguous a = true ->
  mem_slice (a_mem a) (a_off a) (prod (a_shape a) * a_item a) = tobytes a.
Proof.
  intros W H. unfold c_contiguous in H.
  destruct (existsb (fun n => (n =? 0)%nat) (a_shape a)) eqn:Ez.
  - pose proof (tobytes_length a W) as L. rewrite (prod_zero _ Ez) in *. simpl in *.
    apply List.length_zero_iff_nil in L. rewrite L. reflexivity.
  - simpl in H.
    destruct (c_contig_aux (Z.of_nat (a_item a)) (a_shape a) (a_strides a)) as [ok sd] eqn:E.
    simpl in H. subst ok.
    destruct (contig_traverse (a_mem a) (a_item a) (a_shape a) (a_strides a) (a_off a) _ _ W Ez E) as [_ Ht].
    symmetry. apply Ht. reflexivity.
Qed.

Lemma c_strides_contig w shape : existsb (fun n => (n =? 0)%nat) shape = false ->
  c_contig_aux (Z.of_nat w) shape (c_strides w shape) = (true, Z.of_nat (prod shape * w)).
Proof.
  induction shape as [|n shape IH]; intro H; simpl; [f_equal; lia|].
  simpl in H. apply orb_false_iff in H. destruct H as [Hn Hz]. rewrite IH by exact Hz.
  destruct (Nat.eqb_spec n 1) as [->|N].
  - f_equal. lia.
  - rewrite Z.eqb_refl. simpl. f_equal. lia.
Qed.

Lemma ascontig_contiguous a : c_contiguous (ascontiguousarray a) = true.
Proof.
  unfold c_contiguous. simpl. destruct (existsb (fun n => (n =? 0)%nat) (a_shape a)) eqn:E; [reflexivity|].
  simpl. rewrite c_strides_contig by exact E. reflexivity.
Qed.

Lemma encode_raw_eq a : wf_array a -> encode_raw a = tobytes a.
Proof.
  intro W. unfold encode_raw. destruct (c_contiguous a) eqn:E.
  - apply contig_raw; assumption.
  - rewrite contig_raw; [|apply wf_ascontig | apply ascontig_contiguous].
    symmetry. apply tobytes_same; [exact W | apply wf_ascontig |]. apply c_array_same; auto.
Qed.

Lemma decode_encode_raw a : wf_array a -> (0 < a_item a)%nat ->
  exists a', frombuffer_reshape (encode_raw a) (a_item a) (a_shape a) = Ok a' /\ same_array a a' /\ wf_array a'.
Proof.
  intros W Hw. rewrite encode_raw_eq by exact W. rewrite <- encode_bytes_eq by exact W.
  apply decode_encode; assumption.
Qed.

(** ** shared arrays *)
Lemma reload_same x m : a_off (sh_data x) = 0 ->
  fits (sh_size x) (a_shape (sh_data x)) (a_strides (sh_data x)) (a_item (sh_data x)) = true ->
  exists y, sh_reload m (sh_reduce x) = Ok y /\ sh_data y = with_mem (sh_data x) m.
Proof.
  intros Ho Hf. unfold sh_reload, sh_reduce. rewrite Hf. eexists. split; [reflexivity|].
  simpl. unfold with_mem. rewrite Ho. reflexivity.
Qed.

Lemma reload_is_offset_zero x m y : sh_reload m (sh_reduce x) = Ok y ->
  sh_data y = mkA m 0 (a_shape (sh_data x)) (a_strides (sh_data x)) (a_item (sh_data x)).
Proof. unfold sh_reload, sh_reduce. destruct (fits _ _ _ _); [intros [= <-]; reflexivity | discriminate]. Qed.

Lemma new_fits block shape w x : sh_new block shape w = Ok x ->
  a_off (sh_data x) = 0 /\ a_shape (sh_data x) = shape /\ a_strides (sh_data x) = c_strides w shape /\
  a_item (sh_data x) = w /\ a_mem (sh_data x) = block /\
  fits (sh_size x) (a_shape (sh_data x)) (a_strides (sh_data x)) (a_item (sh_data x)) = true.
Proof.
  unfold sh_new. destruct (Nat.eqb_spec (prod shape * w) 0) as [|N]; [discriminate|]. intros [= <-].
  simpl. repeat (split; [reflexivity|]). unfold fits.
  assert (Hz : existsb (fun n => (n =? 0)%nat) shape = false).
  { destruct (existsb _ shape) eqn:E; [|reflexivity]. rewrite (prod_zero _ E) in N. lia. }
  rewrite Hz. simpl.
  assert (H : forall sh lo hi, existsb (fun n => (n =? 0)%nat) sh = false ->
     extent sh (c_strides w sh) lo hi = (lo, hi + Z.of_nat (prod sh * w) - Z.of_nat w)).
  { induction sh as [|n sh IH]; intros lo hi Hs; simpl; [f_equal; lia|].
    simpl in Hs. apply orb_false_iff in Hs. destruct Hs as [Hn Hs]. apply Nat.eqb_neq in Hn.
    assert (0 <= Z.of_nat (prod sh * w) * (Z.of_nat n - 1)) by nia.
    destruct (Z.ltb_spec (Z.of_nat (prod sh * w) * (Z.of_nat n - 1)) 0); [lia|].
    rewrite IH by exact Hs. f_equal. nia. }
  rewrite H by exact Hz. rewrite andb_true_iff, !Z.leb_le. lia.
Qed.

Lemma write_read a idx v : List.length v = a_item a ->
  elem (with_mem a (write_elem a idx v)) idx = v.
Proof.
  intro Hv. unfold elem, with_mem, write_elem. simpl. apply list_ext.
  - rewrite mem_slice_length. auto.
  - rewrite mem_slice_length. intros j Hj. rewrite mem_slice_nth by exact Hj.
    destruct (Z.leb_spec (elem_addr (a_off a) idx (a_strides a))
                (elem_addr (a_off a) idx (a_strides a) + Z.of_nat j)); [|lia].
    destruct (Z.ltb_spec (elem_addr (a_off a) idx (a_strides a) + Z.of_nat j)
                (elem_addr (a_off a) idx (a_strides a) + Z.of_nat (a_item a))); [|lia].
    simpl. f_equal. lia.
Qed.

Lemma pos_apart w shape : forall i1 i2, in_bounds i1 shape -> in_bounds i2 shape -> i1 <> i2 ->
  (pos w shape i1 + w <= pos w shape i2 \/ pos w shape i2 + w <= pos w shape i1)%nat.
Proof.
  induction shape as [|n shape IH]; intros i1 i2 H1 H2 Hne; inversion H1; inversion H2; subst; [congruence|].
  simpl. destruct (Nat.eq_dec x x0) as [->|N].
  - destruct (IH l l0) as [H|H]; auto; [congruence | lia | lia].
  - pose proof (pos_bound w shape l ltac:(assumption)).
    pose proof (pos_bound w shape l0 ltac:(assumption)).
    destruct (Nat.lt_ge_cases x x0) as [L|L].
    + left. assert (S x * (prod shape * w) <= x0 * (prod shape * w))%nat by (apply Nat.mul_le_mono_r; lia).
      simpl in *. lia.
    + right. assert (S x0 * (prod shape * w) <= x * (prod shape * w))%nat by (apply Nat.mul_le_mono_r; lia).
      simpl in *. lia.
Qed.

Lemma write_other block shape w x idx idx' v : sh_new block shape w = Ok x ->
  in_bounds idx shape -> in_bounds idx' shape -> idx <> idx' ->
  elem (with_mem (sh_data x) (write_elem (sh_data x) idx v)) idx' = elem (sh_data x) idx'.
Proof.
  intros Hx H1 H2 Hne. destruct (new_fits _ _ _ _ Hx) as (Ho & Hs & Hst & Hi & Hm & _).
  unfold elem, with_mem, write_elem. simpl. rewrite Ho, Hst, Hi, Hm.
  rewrite !elem_addr_c by assumption. apply mem_slice_ext. intros j Hj.
  destruct (pos_apart w shape idx idx' H1 H2 Hne).
  - destruct (Z.leb_spec (0 + Z.of_nat (pos w shape idx)) (0 + Z.of_nat (pos w shape idx') + Z.of_nat j)); [|lia].
    destruct (Z.ltb_spec (0 + Z.of_nat (pos w shape idx') + Z.of_nat j)
               (0 + Z.of_nat (pos w shape idx) + Z.of_nat w)); [lia|]. reflexivity.
  - destruct (Z.leb_spec (0 + Z.of_nat (pos w shape idx)) (0 + Z.of_nat (pos w shape idx') + Z.of_nat j)); [lia|].
    reflexivity.
Qed.

(** numpy's bounds check passes when every element lies within the buffer *)
Lemma zeros_in_bounds shape : existsb (fun n => (n =? 0)%nat) shape = false -> in_bounds (map (fun _ => O) shape) shape.
Proof.
  induction shape as [|n r IH]; cbn; intro H; [constructor|]. apply orb_false_iff in H. destruct H as [H1 H2].
  apply Nat.eqb_neq in H1. constructor; [lia|exact (IH H2)].
Qed.
Lemma extent_reached shape : existsb (fun n => (n =? 0)%nat) shape = false ->
  forall strides lo hi, exists i j, in_bounds i shape /\ in_bounds j shape /\
    extent shape strides lo hi = (elem_addr lo i strides, elem_addr hi j strides).
Proof.
  induction shape as [|n r IH]; intros H strides lo hi.
  - exists [], []. split; [constructor|]. split; [constructor|]. destruct strides; reflexivity.
  - destruct strides as [|s strides'].
    + exists (map (fun _ => O) (n :: r)), (map (fun _ => O) (n :: r)).
      split; [exact (zeros_in_bounds _ H)|]. split; [exact (zeros_in_bounds _ H)|reflexivity].
    + cbn in H. apply orb_false_iff in H. destruct H as [H1 H2]. apply Nat.eqb_neq in H1.
      assert (Q : Z.of_nat (n - 1) * s = s * (Z.of_nat n - 1)) by (rewrite Nat2Z.inj_sub by lia; ring).
      cbn [extent elem_addr]. destruct (s * (Z.of_nat n - 1) <? 0).
      * destruct (IH H2 strides' (lo + s * (Z.of_nat n - 1)) hi) as (i & j & Bi & Bj & X).
        exists ((n - 1)%nat :: i), (0%nat :: j). split; [constructor; [lia|exact Bi]|]. split; [constructor; [lia|exact Bj]|].
        rewrite X. cbn [elem_addr]. rewrite Q, Z.mul_0_l, Z.add_0_r. reflexivity.
      * destruct (IH H2 strides' lo (hi + s * (Z.of_nat n - 1))) as (i & j & Bi & Bj & X).
        exists (0%nat :: i), ((n - 1)%nat :: j). split; [constructor; [lia|exact Bi]|]. split; [constructor; [lia|exact Bj]|].
        rewrite X. cbn [elem_addr]. rewrite Q, Z.mul_0_l, Z.add_0_r. reflexivity.
Qed.
Lemma within_fits size a : a_off a = 0 -> within size a ->
  fits size (a_shape a) (a_strides a) (a_item a) = true.
Proof.
  intros Ho H. unfold fits. destruct (existsb _ (a_shape a)) eqn:Ez; [reflexivity|]. cbn [orb].
  destruct (extent_reached _ Ez (a_strides a) 0 0) as (i & j & Bi & Bj & X). rewrite X.
  destruct (H i Bi) as [A _]. destruct (H j Bj) as [_ B]. rewrite Ho in A, B.
  apply andb_true_iff. split; apply Z.leb_le; lia.
Qed.
