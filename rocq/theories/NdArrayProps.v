(** Properties C11 (arrays in transit) and C48 and C60 (shared arrays). *)
From Verif Require Import Py NdArrayModel NdArraySpec NdArrayProofs Base64Model Base64Proofs.

(** C11, msgpack: any memory, start address, shape and strides (transposed,
    sliced, reversed, broadcast views, zero-length axes, 0-d arrays). *)
Theorem C11_msgpack_array_roundtrip :
  forall a, wf_array a -> (0 < a_item a)%nat ->
  exists a', frombuffer_reshape (encode_bytes a) (a_item a) (a_shape a) = Ok a' /\
             same_array a a' /\ wf_array a'.
Proof. exact decode_encode. Qed.
Print Assumptions C11_msgpack_array_roundtrip.

(** C11, JSON: the raw memory of the array goes through base64. *)
Theorem C11_json_array_roundtrip :
  forall a, wf_array a -> (0 < a_item a)%nat ->
  exists b a', b64decode (b64encode (encode_raw a)) = Ok b /\
               frombuffer_reshape b (a_item a) (a_shape a) = Ok a' /\ same_array a a' /\ wf_array a'.
Proof.
  intros a W H. destruct (decode_encode_raw a W H) as [a' Ha'].
  exists (encode_raw a), a'. split; [apply b64_roundtrip | exact Ha'].
Qed.
Print Assumptions C11_json_array_roundtrip.

Theorem C11_base64_roundtrip : forall b, b64decode (b64encode b) = Ok b.
Proof. exact b64_roundtrip. Qed.
Print Assumptions C11_base64_roundtrip.

(** a 2x3 array of 2-byte items, transposed and with a reversed axis, in the middle of a buffer *)
Definition ex_mem : memory := fun p => ascii_of_nat (Z.to_nat (p mod 251)).
Definition ex_arr : ndarray := mkA ex_mem 40 [3; 2]%nat [-2; 6] 2%nat.
Example C11_case :
  wf_array ex_arr /\ c_contiguous ex_arr = false /\
  encode_bytes ex_arr = map (fun n => ascii_of_nat n) [40;41;46;47;38;39;44;45;36;37;42;43]%nat /\
  match frombuffer_reshape (encode_bytes ex_arr) 2 [3; 2]%nat with
  | Ok a' => elem a' [2; 1]%nat = elem ex_arr [2; 1]%nat | Err _ => False end.
Proof. vm_compute. auto. Qed.
Example C11_case_base64 :
  b64encode (list_ascii_of_string "light w") = list_ascii_of_string "bGlnaHQgdw==".
Proof. vm_compute. reflexivity. Qed.

(** C48.  Writing through one side and reading through the other: [x] lives in
    this process, [y] is what another process makes of the message about [x]; [m]
    is the common memory.  For data that starts at the beginning of its block
    (everything made by SharedNDArray.zeros or .copy). *)
Theorem C48_shared_elements :
  forall x m, a_off (sh_data x) = 0 -> within (sh_size x) (sh_data x) ->
  exists y, sh_reload m (sh_reduce x) = Ok y /\
  a_shape (sh_data y) = a_shape (sh_data x) /\ a_item (sh_data y) = a_item (sh_data x) /\
  forall idx v, List.length v = a_item (sh_data x) ->
    (* written here, read there *)
    elem (with_mem (sh_data y) (write_elem (with_mem (sh_data x) m) idx v)) idx = v /\
    (* written there, read here *)
    elem (with_mem (sh_data x) (write_elem (sh_data y) idx v)) idx = v /\
    (* and at all times both read the same *)
    forall m' idx', elem (with_mem (sh_data x) m') idx' = elem (with_mem (sh_data y) m') idx'.
Proof.
  intros x m Ho Hf. destruct (reload_same x m Ho (within_fits _ _ Ho Hf)) as [y [Hy Hd]].
  exists y. split; [exact Hy|]. rewrite Hd.
  split; [reflexivity|]. split; [reflexivity|]. intros idx v Hv.
  split; [|split; [|reflexivity]].
  - exact (write_read (with_mem (sh_data x) m) idx v Hv).
  - exact (write_read (with_mem (sh_data x) m) idx v Hv).
Qed.
Print Assumptions C48_shared_elements.

Theorem C48_new_arrays_are_shared :
  forall block shape w, Forall (fun n => 0 < n)%nat shape -> (0 < w)%nat ->
  exists x, sh_new block shape w = Ok x /\
  a_shape (sh_data x) = shape /\ a_item (sh_data x) = w /\
  (* what another process makes of it shows the same elements at all times *)
  (forall m, exists y, sh_reload m (sh_reduce x) = Ok y /\ forall m', same_array (with_mem (sh_data x) m') (with_mem (sh_data y) m')) /\
  (* writing one element changes it and no other *)
  (forall idx v, in_bounds idx shape -> List.length v = w ->
     elem (with_mem (sh_data x) (write_elem (sh_data x) idx v)) idx = v) /\
  (forall idx idx' v, in_bounds idx shape -> in_bounds idx' shape -> idx <> idx' ->
     elem (with_mem (sh_data x) (write_elem (sh_data x) idx v)) idx' = elem (sh_data x) idx').
Proof.
  intros block shape w F W.
  assert (H : exists x, sh_new block shape w = Ok x).
  { unfold sh_new. assert (0 < prod shape)%nat by (clear W; induction F; cbn; [lia|unfold prod in IHF; nia]).
    destruct (Nat.eqb_spec (prod shape * w) 0); [nia|]. eexists. reflexivity. }
  destruct H as [x H]. exists x. split; [exact H|]. destruct (new_fits _ _ _ _ H) as (Ho & Hs & _ & Hi & _ & Hf).
  split; [exact Hs|]. split; [exact Hi|]. split; [|split].
  - intro m. destruct (reload_same x m Ho Hf) as (y & Y & E). exists y. split; [exact Y|]. intro m'. rewrite E. repeat split.
  - intros idx v _ L. apply (write_read (sh_data x) idx v). congruence.
  - intros idx idx' v. exact (write_other block shape w x idx idx' v H).
Qed.
Print Assumptions C48_new_arrays_are_shared.

(** C60.  Data that starts elsewhere in its block is not shared: the start
    offset is not sent, so the other side addresses different bytes. *)
Theorem C60_offset_not_sent_refuted :
  exists x m y idx, a_mem (sh_data x) = m /\ in_bounds idx (a_shape (sh_data x)) /\
    0 <= a_off (sh_data x) /\
    elem_addr (a_off (sh_data x)) idx (a_strides (sh_data x)) + Z.of_nat (a_item (sh_data x)) <= sh_size x /\
    sh_reload m (sh_reduce x) = Ok y /\ elem (sh_data y) idx <> elem (sh_data x) idx.
Proof.
  exists (mkSh 64 (mkA ex_mem 8 [2]%nat [8] 8%nat)), ex_mem,
         (mkSh 64 (mkA ex_mem 0 [2]%nat [8] 8%nat)), [0%nat].
  split; [reflexivity|]. split; [repeat constructor|].
  split; [vm_compute; discriminate|]. split; [vm_compute; discriminate|].
  split; [reflexivity|]. vm_compute. discriminate.
Qed.
Print Assumptions C60_offset_not_sent_refuted.

Theorem C60_reloaded_array_starts_at_block_start_partial :
  forall x m (from_start := mkA m 0 (a_shape (sh_data x)) (a_strides (sh_data x)) (a_item (sh_data x))),
  within (sh_size x) from_start ->
  exists y, sh_reload m (sh_reduce x) = Ok y /\ same_array (sh_data y) from_start.
Proof.
  intros x m fs H. destruct (reload_same (mkSh (sh_size x) fs) m eq_refl (within_fits _ fs eq_refl H)) as (y & Y & E).
  exists y. split; [exact Y|]. rewrite E. repeat split.
Qed.
Print Assumptions C60_reloaded_array_starts_at_block_start_partial.

Example C48_case : exists x, sh_new ex_mem [3; 2]%nat 2%nat = Ok x /\ in_bounds [2;1]%nat [3;2]%nat /\
  a_off (sh_data x) = 0 /\ within (sh_size x) (sh_data x).
Proof.
  eexists. split; [reflexivity|]. split; [repeat constructor|]. split; [reflexivity|].
  intros idx B. cbn in B. inversion B as [|i ? r ? Bi B1]; subst. inversion B1 as [|j ? r' ? Bj B2]; subst. inversion B2; subst.
  cbn. lia.
Qed.
