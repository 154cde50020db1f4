(** Lemmas about the length of names. *)
From Verif Require Import Py FrameModel NameModel ProcessModel IdLenModel IdLenSpec.
Local Open Scope Z_scope.

Lemma len_app a b : String.length (a ++ b) = (String.length a + String.length b)%nat.
Proof. induction a; cbn; auto. Qed.
Lemma given_dget l k : given l k = dget l k.
Proof. induction l as [|[i n] l IH]; cbn; [reflexivity|]. rewrite Z.eqb_sym, IH. reflexivity. Qed.
Lemma identity_full p tid addr : identity p tid addr = full p tid addr.
Proof. unfold identity, client_name, full, thread, get_thread_name. rewrite given_dget. reflexivity. Qed.
Lemma identity_len p tid addr : Z.of_nat (String.length (identity p tid addr)) = total p tid addr + 3.
Proof. rewrite identity_full. unfold full, total. rewrite !len_app. cbn. lia. Qed.
Lemma short_iff p tid addr : (exists s, new_client p tid addr = Ok s) <-> total p tid addr <= 252.
Proof.
  unfold new_client, set_identity. rewrite identity_len. assert (0 <= total p tid addr) by (unfold total; lia). split.
  - intros (s & E). destruct (Z.leb_spec 1 (total p tid addr + 3)), (Z.leb_spec (total p tid addr + 3) 255); cbn in E; try discriminate. lia.
  - intro L. exists (identity p tid addr). destruct (Z.leb_spec 1 (total p tid addr + 3)), (Z.leb_spec (total p tid addr + 3) 255); cbn; try lia. reflexivity.
Qed.
Lemma short_ok p tid addr : total p tid addr <= 252 -> new_client p tid addr = Ok (full p tid addr).
Proof.
  intro L. rewrite <- identity_full. unfold new_client, set_identity. rewrite identity_len. assert (0 <= total p tid addr) by (unfold total; lia).
  destruct (Z.leb_spec 1 (total p tid addr + 3)), (Z.leb_spec (total p tid addr + 3) 255); cbn; try lia. reflexivity.
Qed.
Lemma long_fails p tid addr : 252 < total p tid addr -> new_client p tid addr = Err ZMQError.
Proof.
  intro L. destruct (new_client p tid addr) as [s|e] eqn:E.
  - exfalso. assert (X : exists s, new_client p tid addr = Ok s) by eauto. apply short_iff in X. lia.
  - unfold new_client, set_identity in E. destruct (_ && _)%bool in E; congruence.
Qed.
Lemma grows prefix host ids : forall p,
  Z.of_nat (String.length (pr_name p)) + 6 * Z.of_nat (List.length ids) <= Z.of_nat (String.length (pr_name (generation prefix host p ids))).
Proof.
  induction ids as [|[pid tid] ids IH]; intro p; cbn [generation List.length]; [lia|].
  specialize (IH (spawn prefix host p pid tid)).
  assert (Z.of_nat (String.length (pr_name p)) + 6 <= Z.of_nat (String.length (pr_name (spawn prefix host p pid tid)))).
  { cbn. unfold name_of. cbn. rewrite !len_app. cbn. lia. }
  lia.
Qed.
Lemma too_deep prefix host p ids tid addr : 42 < Z.of_nat (List.length ids) -> new_client (generation prefix host p ids) tid addr = Err ZMQError.
Proof. intro D. apply long_fails. pose proof (grows prefix host ids p). unfold total. lia. Qed.
