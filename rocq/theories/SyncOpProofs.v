(** Proofs about special methods and options (C133). *)
From Verif Require Import Py ObjTableModel SerModel ServerModel ClientModel ApiModel ProxyModel ProxySpec ProxyProofs SyncOpModel SyncOpSpec.
Local Open Scope nat_scope.

Lemma cmp_sends p m args : made p -> In m comparisons ->
  operate p m args = Some (Ok (mkSending (rq_proxy_call (deferred_attr (x_rec p) m) args []) (opt p "sync") (opt p "return_type") (opt p "timeout"))).
Proof.
  intros M H. apply operate_sends; [exact M| |].
  - cbn in H. repeat (destruct H as [<-|H]; [discriminate|]). contradiction.
  - cbn in H. repeat (destruct H as [<-|H]; [discriminate|]). contradiction.
Qed.
Lemma test_plain p m args f q r : made p -> In m comparisons -> plain p -> test p m args f q r = bind (at_client r) condition.
Proof.
  intros M H [S R]. unfold test. rewrite (cmp_sends _ _ _ M H). unfold returned. cbn [sn_sync sn_rt]. rewrite S.
  destruct r as [v|e]; [|reflexivity]. destruct R as [R|R]; rewrite R; reflexivity.
Qed.
Lemma len_plain p f q r : made p -> plain p -> len p f q r = bind (at_client r) length_of.
Proof.
  intros M [S R]. unfold len. rewrite (operate_sends p "__len__" [] M) by discriminate. unfold returned. cbn [sn_sync sn_rt]. rewrite S.
  destruct r as [v|e]; [|reflexivity]. destruct R as [R|R]; rewrite R; reflexivity.
Qed.
Lemma test_async p m args f q r : made p -> In m comparisons -> opt p "sync" = VStr "async" -> test p m args f q r = Ok true.
Proof. intros M H S. unfold test. rewrite (cmp_sends _ _ _ M H). unfold returned. cbn [sn_sync]. now rewrite S. Qed.
Lemma test_off p m args f q r : made p -> In m comparisons -> opt p "sync" = VStr "off" -> test p m args f q r = Ok false.
Proof. intros M H S. unfold test. rewrite (cmp_sends _ _ _ M H). unfold returned. cbn [sn_sync]. now rewrite S. Qed.
Lemma test_proxy p m args f q v : made p -> In m comparisons -> opt p "sync" = VStr "sync" -> opt p "return_type" = VStr "proxy" ->
  test p m args f q (Ok v) = Err (RemoteCallException "AttributeError").
Proof. intros M H S R. unfold test. rewrite (cmp_sends _ _ _ M H). unfold returned. cbn [sn_sync sn_rt]. now rewrite S, R. Qed.
Lemma len_other p f q n : made p -> opt p "sync" = VStr "async" \/ opt p "sync" = VStr "off" \/ (opt p "sync" = VStr "sync" /\ opt p "return_type" = VStr "proxy") ->
  len p f q (Ok n) = Err TypeError.
Proof.
  intros M H. unfold len. rewrite (operate_sends p "__len__" [] M) by discriminate. unfold returned. cbn [sn_sync sn_rt].
  destruct H as [->|[->|[-> ->]]]; reflexivity.
Qed.
Lemma item_other p f q item i : made p -> opt p "sync" = VStr "async" \/ opt p "sync" = VStr "off" ->
  exists v, item_of p f q item i = Ok v.
Proof.
  intros M H. unfold item_of. rewrite (operate_sends p "__getitem__" _ M) by discriminate. unfold returned. cbn [sn_sync].
  destruct H as [-> | ->]; eauto.
Qed.
Lemma iter_goes_on (item : nat -> res pyval) : (forall i, exists v, item i = Ok v) -> forall n i, List.length (fst (py_iter item n i)) = n /\ snd (py_iter item n i) = None.
Proof.
  intros H. induction n as [|n IH]; intros i; [auto|]. cbn [py_iter]. destruct (H i) as [v E]. rewrite E.
  destruct (IH (S i)) as [A B]. destruct (py_iter item n (S i)) as [l o]. cbn [fst snd] in *. cbn [List.length]. split; [now rewrite A|exact B].
Qed.
Lemma iter_other p f q item n : made p -> opt p "sync" = VStr "async" \/ opt p "sync" = VStr "off" ->
  List.length (fst (py_iter (item_of p f q item) n 0)) = n /\ snd (py_iter (item_of p f q item) n 0) = None.
Proof. intros M H. apply iter_goes_on. intros i. exact (item_other p f q item i M H). Qed.
