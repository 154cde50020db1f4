(** Properties C49, C86, C87, C88, C89: shared arrays. *)
From Verif Require Import Py ShmemModel ShmemSpec ShmemProofs.
Local Open Scope Z_scope.

(** C49.  close_all closes and unlinks what was wrapped with close=True, does not touch
    segments never wrapped in this process ... *)
Theorem C49_close_all_partial :
  forall s v close s' a, wrap s v close = (s', a) ->
  let t := close_all s' in
  In (v_seg v) (ss_closed t) /\ ~ linked t (v_seg v) /\
  (forall n, ~ In n (ss_all s') -> (linked t n <-> linked s n) /\ (In n (ss_closed t) <-> In n (ss_closed s))) /\
  ss_all t = [].
Proof.
  intros s v c s' a [= <- <-]. destruct (close_all_spec (mkSS (ss_mem s) (ss_linked s) (ss_all s ++ [v_seg v]) (ss_closed s) (ss_size s))) as (A & B & C & D).
  cbn zeta. unfold linked. cbn [ss_all ss_linked ss_closed] in C, D.
  assert (I : In (v_seg v) (ss_all s ++ [v_seg v])) by (apply in_or_app; right; left; reflexivity).
  split; [apply D; right; exact I|]. split; [intros H; apply C in H; tauto|]. split; [|exact A].
  intros n N. cbn [ss_all] in N. split; [rewrite C|rewrite D]; tauto.
Qed.
Print Assumptions C49_close_all_partial.
(** ... but it does the same to memory wrapped with close=False *)
Theorem C49_close_flag_ignored_refuted :
  forall s v s' a, wrap s v false = (s', a) -> sh_close a = false /\
  In (v_seg v) (ss_closed (close_all s')) /\ ~ linked (close_all s') (v_seg v).
Proof.
  intros s v s' a W. pose proof (C49_close_all_partial s v false s' a W) as (A & B & _). injection W as <- <-. auto.
Qed.
Print Assumptions C49_close_flag_ignored_refuted.
Definition ss0 : shst := mkSS (fun _ _ => 255) [] [] [] [].
Definition v0 : view := mkV "psm_1" 0 [4] [1] 1.
Example C49_case : let '(s', a) := wrap (mkSS (fun _ _ => 0) ["psm_1"; "psm_2"] [] [] []) v0 false in
  ss_linked (close_all s') = ["psm_2"].
Proof. reflexivity. Qed.

(** C86.  A process that received an array by pickle destroys it for its owner when it exits. *)
Theorem C86_receiver_destroys_refuted :
  forall s name shape item arr, shape <> [] -> Forall (fun n => 0 < n) shape -> (0 < item)%nat ->
  exists s1 a s2 b, copy s name shape item arr true = Ok (s1, a) /\
  reload (other_process s1) (reduce a) = Ok (s2, b) /\
  sh_close b = false /\ linked s1 name /\ linked s2 name /\ ~ linked (close_all s2) name.
Proof.
  intros s name shape item arr N F I. destruct (proj1 (shapes_that_work s name shape item arr true N F I)) as [[s1 a] C].
  pose proof (made_here_start_at_0 s name shape item arr true s1 a (or_introl C)) as [_ L].
  assert (R : exists r, reload (other_process s1) (reduce a) = Ok r).
  { revert C. unfold copy. destruct (create _ _ _) as [s0|] eqn:E; [|discriminate]. cbn [bind]. destruct shape; [discriminate|].
    unfold wrap. intros [= <- <-]. unfold create in E. destruct (_ <=? 0); [discriminate|]. injection E as <-.
    unfold reload, reduce. cbn. rewrite String.eqb_refl. eexists. reflexivity. }
  destruct R as [[s2 b] R]. exists s1, a, s2, b. split; [exact C|]. split; [exact R|]. exact (receiver_destroys _ _ _ _ _ _ _ _ _ C R).
Qed.
Print Assumptions C86_receiver_destroys_refuted.
Example C86_case : exists s1 a s2 b, copy ss0 "psm_1" [2] 1 (fun ix => ix) true = Ok (s1, a) /\
  reload (other_process s1) (reduce a) = Ok (s2, b) /\ ss_linked s2 = ["psm_1"] /\ ss_linked (close_all s2) = [].
Proof. do 4 eexists. split; [reflexivity|]. split; [reflexivity|]. split; reflexivity. Qed.

(** C87.  An array unpickled here or in another process is the same array, if its data begin
    where the memory begins ... *)
Theorem C87_pickle_same_array_partial :
  forall s a r, v_off (sh_view a) = 0 -> linked s (v_seg (sh_view a)) -> r = s \/ r = other_process s ->
  exists s' b, reload r (reduce a) = Ok (s', b) /\
  same_array (sh_view a) (sh_view b) /\ (forall seg x, ss_mem s' seg x = ss_mem s seg x) /\
  (forall n, linked s' n <-> linked s n).
Proof.
  intros s [[seg off shape st item] c] r. cbn [sh_view v_off v_seg]. intros -> L Hr. unfold reduce, reload. cbn [sh_view v_seg v_shape v_item v_strides].
  assert (E : existsb (String.eqb seg) (ss_linked s) = true) by (apply existsb_exists; exists seg; split; [exact L|apply String.eqb_refl]).
  destruct Hr as [->| ->]; cbn [other_process ss_linked]; rewrite E; do 2 eexists; (split; [reflexivity|]);
    (split; [repeat split; reflexivity|]); (split; [reflexivity|]); intro n; reflexivity.
Qed.
Print Assumptions C87_pickle_same_array_partial.
(** ... which holds for the arrays made by zeros and copy *)
Theorem C87_made_here_start_at_0 :
  forall s name shape item arr close, shape <> [] -> Forall (fun n => 0 < n) shape -> (0 < item)%nat ->
  (exists s' a, copy s name shape item arr close = Ok (s', a) /\ v_seg (sh_view a) = name /\ v_off (sh_view a) = 0 /\ linked s' name) /\
  (exists s' a, zeros s name shape item close = Ok (s', a) /\ v_seg (sh_view a) = name /\ v_off (sh_view a) = 0 /\ linked s' name).
Proof.
  intros s name shape item arr close N F I. destruct (shapes_that_work s name shape item arr close N F I) as [[[s1 a1] A] [[s2 a2] B]].
  split; [exists s1, a1; split; [exact A|]; split; [|exact (made_here_start_at_0 _ _ _ _ _ _ _ _ (or_introl A))]
         |exists s2, a2; split; [exact B|]; split; [|exact (made_here_start_at_0 _ _ _ _ arr _ _ _ (or_intror B))]].
  - revert A. unfold copy. destruct (create _ _ _) as [s0|]; [|discriminate]. cbn [bind]. destruct shape; [discriminate|]. intros [= <- <-]. reflexivity.
  - revert B. unfold zeros. destruct shape; [discriminate|]. destruct (create _ _ _) as [s0|]; [|discriminate]. intros [= <- <-]. reflexivity.
Qed.
Print Assumptions C87_made_here_start_at_0.
(** Missing: an array that begins elsewhere; unpickled it shows other elements. *)
Theorem C87_offset_lost_refuted :
  exists s a s' b ix, reload s (reduce a) = Ok (s', b) /\ in_shape ix (v_shape (sh_view a)) /\
  read (ss_mem s) (sh_view a) ix <> read (ss_mem s') (sh_view b) ix.
Proof.
  exists (mkSS (fun _ x => x) ["m"] [] [] []), (mkSh (mkV "m" 2 [2] [1] 1) false).
  do 2 eexists. exists [1]. split; [reflexivity|]. split; [cbn; lia|]. cbn. discriminate.
Qed.
Print Assumptions C87_offset_lost_refuted.

(** C88.  copy() holds the elements of the array, zeros() holds zeros, and neither
    changes other memory; every element lies in the memory reserved. *)
Theorem C88_copy_contents :
  forall s name shape item arr close, shape <> [] -> Forall (fun n => 0 < n) shape -> (0 < item)%nat ->
  (forall ix, in_shape ix shape -> List.length (arr ix) = item) ->
  exists s' a, copy s name shape item arr close = Ok (s', a) /\
  v_shape (sh_view a) = shape /\ v_item (sh_view a) = item /\ fits s' (sh_view a) /\
  (forall ix, in_shape ix shape -> read (ss_mem s') (sh_view a) ix = arr ix) /\
  (forall seg x, seg <> name -> ss_mem s' seg x = ss_mem s seg x).
Proof.
  intros s name shape item arr close N F I L. destruct (proj1 (shapes_that_work s name shape item arr close N F I)) as [[s' a] C].
  exists s', a. destruct (copy_contents _ _ _ _ _ _ _ _ C L) as [A B]. destruct (elements_fit _ _ _ _ _ _ _ _ (or_introl C)) as [D E]. auto.
Qed.
Print Assumptions C88_copy_contents.
Theorem C88_zeros_contents :
  forall s name shape item close, shape <> [] -> Forall (fun n => 0 < n) shape -> (0 < item)%nat ->
  exists s' a, zeros s name shape item close = Ok (s', a) /\
  v_shape (sh_view a) = shape /\ v_item (sh_view a) = item /\ fits s' (sh_view a) /\
  (forall ix, in_shape ix shape -> read (ss_mem s') (sh_view a) ix = repeat 0 item) /\
  (forall seg x, seg <> name -> ss_mem s' seg x = ss_mem s seg x).
Proof.
  intros s name shape item close N F I. destruct (proj2 (shapes_that_work s name shape item (fun _ => []) close N F I)) as [[s' a] C].
  exists s', a. destruct (zeros_contents _ _ _ _ _ _ _ C) as [A B]. destruct (elements_fit _ _ _ _ (fun _ => []) _ _ _ (or_intror C)) as [D E]. auto.
Qed.
Print Assumptions C88_zeros_contents.
Example C88_case : exists s' a, copy ss0 "psm_1" [2; 3] 2 (fun ix => match ix with [i; j] => [i; j] | _ => [] end) true = Ok (s', a) /\
  in_shape [1; 2] [2; 3] /\ read (ss_mem s') (sh_view a) [1; 2] = [1; 2] /\ read (ss_mem s') (sh_view a) [0; 2] = [0; 2].
Proof. do 2 eexists. split; [reflexivity|]. split; [cbn; lia|]. split; reflexivity. Qed.

(** C89.  They work for every shape of at least one dimension with no empty dimension ... *)
Theorem C89_shapes_that_work_partial :
  forall s name shape item arr close, shape <> [] -> Forall (fun n => 0 < n) shape -> (0 < item)%nat ->
  (exists r, copy s name shape item arr close = Ok r) /\ (exists r, zeros s name shape item close = Ok r).
Proof. exact shapes_that_work. Qed.
Print Assumptions C89_shapes_that_work_partial.
(** ... and fail for all others *)
Theorem C89_scalar_and_empty_refuted :
  forall s name item arr close shape, shape = [] \/ In 0 shape ->
  (exists e, copy s name shape item arr close = Err e) /\ (exists e, zeros s name shape item close = Err e).
Proof.
  intros s name item arr close shape [->|H].
  - split; [unfold copy, create; destruct (prod [] * Z.of_nat item <=? 0); cbn [bind]|]; eexists; reflexivity.
  - unfold copy, zeros, create. rewrite (in_0_prod _ H). cbn [Z.mul Z.leb Z.compare bind]. split; [eexists; reflexivity|]. destruct shape; eexists; reflexivity.
Qed.
Print Assumptions C89_scalar_and_empty_refuted.
Example C89_case : Forall (fun n => 0 < n) [2; 3] /\ In 0 [2; 0].
Proof. split; [repeat constructor; lia|cbn; auto]. Qed.
