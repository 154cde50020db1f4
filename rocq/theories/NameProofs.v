(** Identities of clients: splitting the string back into its parts. *)
From Verif Require Import Py SerModel FrameModel FrameProofs NameModel NameSpec.
From Coq Require Import HexadecimalString HexadecimalN HexadecimalPos DecimalString Decimal DecimalZ.

Lemma free_app c a b : free_of c (a ++ b) <-> free_of c a /\ free_of c b.
Proof. induction a as [|d r IH]; cbn; [tauto|]. rewrite IH. tauto. Qed.

Lemma split_left c a : forall a' b b', free_of c a -> free_of c a' ->
  (a ++ String c b = a' ++ String c b')%string -> a = a' /\ b = b'.
Proof.
  induction a as [|x r IH]; intros [|x' r'] b b' F F' H; cbn in *.
  - injection H as H. auto.
  - injection H as H1 H2. destruct F' as [N _]. congruence.
  - injection H as H1 H2. destruct F as [N _]. congruence.
  - injection H as H1 H2. destruct F as [_ F], F' as [_ F']. destruct (IH _ _ _ F F' H2) as [-> ->]. subst. auto.
Qed.

Lemma free_no_sep c b x y : free_of c b -> b <> (x ++ String c y)%string.
Proof.
  intros F H. rewrite H in F. apply free_app in F. cbn in F. tauto.
Qed.

(** the last separator *)
Lemma split_right c a : forall a' b b', free_of c b -> free_of c b' ->
  (a ++ String c b = a' ++ String c b')%string -> a = a' /\ b = b'.
Proof.
  induction a as [|x r IH]; intros [|x' r'] b b' F F' H; cbn in *.
  - injection H as H. auto.
  - injection H as H1 H2. exfalso. eapply free_no_sep; [exact F|exact H2].
  - injection H as H1 H2. exfalso. eapply free_no_sep; [exact F'|symmetry; exact H2].
  - injection H as H1 H2. destruct (IH _ _ _ F F' H2) as [-> ->]. subst. auto.
Qed.

Lemma app_assoc_s (a b c : string) : ((a ++ b) ++ c = a ++ b ++ c)%string.
Proof. induction a; cbn; [reflexivity|]. now rewrite IHa. Qed.

Lemma client_name_inj h p t a h' p' t' a' :
  free_of ":" h -> free_of ":" p -> free_of ":" t -> free_of "." p -> free_of "." t ->
  free_of ":" h' -> free_of ":" p' -> free_of ":" t' -> free_of "." p' -> free_of "." t' ->
  client_name h p t a = client_name h' p' t' a' -> h = h' /\ p = p' /\ t = t' /\ a = a'.
Proof.
  intros. unfold client_name in *.
  assert (R : forall h p t a : string, (h ++ "." ++ p ++ "." ++ t ++ ":" ++ a = ((h ++ "." ++ p) ++ "." ++ t) ++ String ":" a)%string)
    by (intros; rewrite !app_assoc_s; reflexivity).
  rewrite !R in H9. apply split_left in H9; [|rewrite !free_app; cbn; repeat split; auto; discriminate..].
  destruct H9 as [H9 ->]. change (String "." "") with (String "." EmptyString) in H9.
  cbn [append] in H9. apply split_right in H9; [|assumption..]. destruct H9 as [H9 ->].
  apply split_right in H9; [|assumption..]. destruct H9 as [-> ->]. auto.
Qed.

Lemma uint_free c u : is_digit c = false -> free_of c (NilEmpty.string_of_uint u).
Proof. intro D. induction u; cbn; auto; (split; [intros <-; discriminate D|assumption]). Qed.
Lemma str_of_Z_free c z : is_digit c = false -> c <> "-"%char -> free_of c (str_of_Z z).
Proof.
  intros D N. unfold str_of_Z, NilZero.string_of_int. destruct (Z.to_int z) as [u|u].
  - destruct u; try (apply uint_free; exact D). cbn. split; [intros <-; discriminate D|exact I].
  - cbn [free_of]. split; [congruence|]. destruct u; try (apply uint_free; exact D). cbn. split; [intros <-; discriminate D|exact I].
Qed.
Lemma str_of_Z_inj a b : str_of_Z a = str_of_Z b -> a = b.
Proof.
  intro H. pose proof (int_back a) as A. rewrite H, int_back in A. injection A as A.
  apply (f_equal Z.of_int) in A. rewrite !DecimalZ.of_to in A. auto.
Qed.

Definition is_hex (c : ascii) : bool :=
  is_digit c || ((97 <=? nat_of_ascii c)%nat && (nat_of_ascii c <=? 102)%nat).
Lemma huint_free c u : is_hex c = false -> free_of c (HexadecimalString.NilEmpty.string_of_uint u).
Proof. intro D. induction u; cbn; auto; (split; [intros <-; discriminate D|assumption]). Qed.
Lemma hex_free c n : is_hex c = false -> free_of c (hex_str n).
Proof.
  intros D. unfold hex_str, HexadecimalString.NilZero.string_of_uint.
  destruct (N.to_hex_uint n); try (apply huint_free; exact D). cbn. split; [intros <-; discriminate D|exact I].
Qed.
Lemma hex_inj a b : hex_str a = hex_str b -> a = b.
Proof.
  unfold hex_str. intro H. apply (f_equal HexadecimalString.NilZero.uint_of_string) in H.
  rewrite !HexadecimalString.NilZero.usu in H.
  - injection H as H. apply (f_equal N.of_hex_uint) in H. rewrite !HexadecimalN.Unsigned.of_to in H. exact H.
  - destruct b; cbn; [discriminate|]. apply HexadecimalPos.Unsigned.to_uint_nonnil.
  - destruct a; cbn; [discriminate|]. apply HexadecimalPos.Unsigned.to_uint_nonnil.
Qed.

Lemma append_inj (a b c : string) : (a ++ b = a ++ c)%string -> b = c.
Proof. induction a; cbn; [auto|]. intro H. injection H. auto. Qed.

(** processes that keep their default names *)
Lemma default_identity_inj h pid tid a h' pid' tid' a' :
  free_of ":" h -> free_of ":" h' ->
  identity (new_process h pid) tid a = identity (new_process h' pid') tid' a' ->
  h = h' /\ pid = pid' /\ tid = tid' /\ a = a'.
Proof.
  intros Fh Fh' H. unfold identity, new_process in H. cbn [pr_host pr_name get_thread_name pr_threads dget] in H.
  assert (P : forall p c, c = ":"%char \/ c = "."%char -> free_of c ("process-" ++ str_of_Z (Z.of_N p))).
  { intros p c D. apply free_app. split; [destruct D as [-> | ->]; cbn; repeat split; discriminate|].
    destruct D as [-> | ->]; apply str_of_Z_free; try reflexivity; discriminate. }
  assert (T : forall t c, c = ":"%char \/ c = "."%char -> free_of c ("thread-" ++ hex_str t)).
  { intros p c D. apply free_app. split; [destruct D as [-> | ->]; cbn; repeat split; discriminate|].
    destruct D as [-> | ->]; apply hex_free; reflexivity. }
  change (get_thread_name _ tid) with ("thread-" ++ hex_str tid)%string in H.
  change (get_thread_name _ tid') with ("thread-" ++ hex_str tid')%string in H.
  apply client_name_inj in H; auto. destruct H as (A & B & C & D).
  apply append_inj in B, C. apply str_of_Z_inj in B. apply hex_inj in C.
  apply (f_equal Z.to_N) in B. rewrite !N2Z.id in B. auto.
Qed.

(** names chosen by calls *)
Lemma name_host os : forall p n, chosen_last of_host os n -> pr_host (name_all p os) = n.
Proof.
  assert (K : forall r p, (forall o, In o r -> of_host o = None) -> pr_host (name_all p r) = pr_host p).
  { induction r as [|o r IH]; intros p H; [reflexivity|]. cbn [name_all fold_left]. fold (name_all (name_step p o) r).
    rewrite IH by (intros; apply H; right; assumption). specialize (H o (or_introl eq_refl)). destruct o; [discriminate| |]; reflexivity. }
  intros p n (l & o & r & -> & E & H). unfold name_all. rewrite fold_left_app. cbn [fold_left]. fold (name_all (name_step (fold_left name_step l p) o) r).
  rewrite K by exact H. destruct o; try discriminate. cbn in E. inversion E. reflexivity.
Qed.
Lemma name_process os : forall p n, chosen_last of_process os n -> pr_name (name_all p os) = n.
Proof.
  assert (K : forall r p, (forall o, In o r -> of_process o = None) -> pr_name (name_all p r) = pr_name p).
  { induction r as [|o r IH]; intros p H; [reflexivity|]. cbn [name_all fold_left]. fold (name_all (name_step p o) r).
    rewrite IH by (intros; apply H; right; assumption). specialize (H o (or_introl eq_refl)). destruct o; [|discriminate|]; reflexivity. }
  intros p n (l & o & r & -> & E & H). unfold name_all. rewrite fold_left_app. cbn [fold_left]. fold (name_all (name_step (fold_left name_step l p) o) r).
  rewrite K by exact H. destruct o; try discriminate. cbn in E. inversion E. reflexivity.
Qed.
Lemma name_thread os tid : forall p n, chosen_last (of_thread tid) os n -> get_thread_name (name_all p os) tid = n.
Proof.
  assert (K : forall r p, (forall o, In o r -> of_thread tid o = None) -> get_thread_name (name_all p r) tid = get_thread_name p tid).
  { induction r as [|o r IH]; intros p H; [reflexivity|]. cbn [name_all fold_left]. fold (name_all (name_step p o) r).
    rewrite IH by (intros; apply H; right; assumption). specialize (H o (or_introl eq_refl)). destruct o as [| |k m]; [reflexivity|reflexivity|].
    cbn in H. destruct (N.eqb_spec k tid); [discriminate|]. unfold get_thread_name, name_step, set_thread_name. cbn [pr_threads].
    rewrite dget_dset_other by lia. reflexivity. }
  intros p n (l & o & r & -> & E & H). unfold name_all. rewrite fold_left_app. cbn [fold_left]. fold (name_all (name_step (fold_left name_step l p) o) r).
  rewrite K by exact H. destruct o as [| |k m]; try discriminate. cbn in E. destruct (N.eqb_spec k tid); [|discriminate].
  inversion E; subst. unfold get_thread_name, name_step, set_thread_name. cbn [pr_threads]. rewrite dget_dset_same. reflexivity.
Qed.
Lemma called_identity_inj q os tid h p t a q' os' tid' h' p' t' a' : called os tid h p t -> called os' tid' h' p' t' ->
  free_of ":" h -> free_of ":" p -> free_of ":" t -> free_of "." p -> free_of "." t ->
  free_of ":" h' -> free_of ":" p' -> free_of ":" t' -> free_of "." p' -> free_of "." t' ->
  identity (name_all q os) tid a = identity (name_all q' os') tid' a' -> h = h' /\ p = p' /\ t = t' /\ a = a'.
Proof.
  intros (A & B & C) (A' & B' & C') ? ? ? ? ? ? ? ? ? ? E. unfold identity in E.
  rewrite (name_host _ _ _ A), (name_process _ _ _ B), (name_thread _ _ _ _ C), (name_host _ _ _ A'), (name_process _ _ _ B'), (name_thread _ _ _ _ C') in E.
  eapply client_name_inj; eauto.
Qed.
