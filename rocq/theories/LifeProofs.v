(** What serializing and replying do to the reference table. *)
From Verif Require Import Py ObjTableModel ObjTableSpec ObjTableProofs SerModel SerSpec SerProofs SerProofs2 SerProofsJ
  FrameModel FrameProofs ServerModel ClientModel WireSpec WireProofs ServerProofs ServerProofs2 ClientProofs
  ApiModel ApiSpec ApiProofs RpcModel RpcSpec LifeSpec.

Notation fresh st := (fresh_obj (hp (ss_o st))).

(** only new proxies *)
Definition makes (tr : otrace) : Prop := forall e, In e tr -> (exists o, fst e = GetProxy o true) \/ (exists a, fst e = Alloc a).
Record evolves (st st' : sst) (tr : otrace) : Prop := {
  ev_run : orun (ss_o st) (map fst tr) = (ss_o st', tr);
  ev_boxes : forall o, (o < fresh st)%nat -> dget (ss_boxes st') o = dget (ss_boxes st) o;
  ev_fresh : (fresh st <= fresh st')%nat;
  ev_bound : (forall o v, dget (ss_boxes st) o = Some v -> (o < fresh st)%nat) ->
             (forall o v, dget (ss_boxes st') o = Some v -> (o < fresh st')%nat)
}.
Lemma evolves_refl st : evolves st st [].
Proof. constructor; auto. Qed.
Lemma evolves_trans a b c t u : evolves a b t -> evolves b c u -> evolves a c (t ++ u).
Proof.
  intros [R B F G] [R' B' F' G']. constructor.
  - rewrite map_app, orun_app, R. cbn [fst snd]. rewrite R'. reflexivity.
  - intros o L. rewrite B' by lia. auto.
  - lia.
  - intro Q. exact (G' (G Q)).
Qed.
Lemma makes_app a b : makes a -> makes b -> makes (a ++ b).
Proof. intros A B e I. apply in_app_or in I. destruct I; auto. Qed.
Lemma makes_nil : makes [].
Proof. intros e []. Qed.

(** packing changes neither heap nor boxes *)
Record extends (st st' : sst) (tr : otrace) : Prop := {
  ex_run : orun (ss_o st) (map fst tr) = (ss_o st', tr);
  ex_boxes : ss_boxes st' = ss_boxes st;
  ex_hp : hp (ss_o st') = hp (ss_o st);
  ex_makes : makes tr
}.
Lemma extends_refl st : extends st st [].
Proof. constructor; auto. exact makes_nil. Qed.
Lemma extends_trans a b c t u : extends a b t -> extends b c u -> extends a c (t ++ u).
Proof.
  intros [R B H M] [R' B' H' M']. constructor; try congruence; [|apply makes_app; assumption].
  rewrite map_app, orun_app, R. cbn [fst snd]. rewrite R'. reflexivity.
Qed.
Lemma extends_evolves a b t : extends a b t -> evolves a b t.
Proof. intros [R B H _]. constructor; rewrite ?H, ?B; auto. Qed.
Lemma extends_existing a b t v : extends a b t -> existing a v -> existing b v.
Proof. intros [_ B H _] X. unfold existing. rewrite B, H. exact X. Qed.

Lemma base_mentions v : mentions (base_of v) = mentions v.
Proof. induction v; cbn; auto. Qed.

Section Life.
  Variable E : senv.
  Hypothesis GE : good_env E.

  Lemma encode_value_mentions v v' o : encode_value E v = Ok v' -> In o (mentions v') -> In o (mentions v).
  Proof.
    unfold encode_value. rewrite <- (base_mentions v).
    assert (PD : forall x w, bind (pickle_dumps E x) (fun s => Ok (fields [(encode_key, VStr "pickle"); ("pickle_str", VBytes s)])) = Ok w -> ~ In o (mentions w)).
    { intros x w. destruct (pickle_dumps E x); cbn; [|discriminate]. intros [= <-]. cbn. tauto. }
    destruct (base_of v) as [|b|z|f|s|s|l|l|d|t|d|d sh da|d n|d|p|cl b|ob];
      try (intros H I; exfalso; eapply PD; eauto; fail); try (intros [= <-]; cbn; tauto).
    - intros [= <-]. cbn. rewrite app_nil_r. auto.
    - intros [= <-]. cbn. intro I. exfalso. induction sh; cbn in I; auto.
    - destruct n; cbn; [intros [= <-]|intros [= <-]|intros [= <-]|discriminate]; cbn; tauto.
    - intros [= <-]. cbn. intro I. exfalso. induction (p_attrs p); cbn in I; auto.
  Qed.

  Lemma encode_extends srv st v st' r : existing st v -> encode E srv st v = (st', r) ->
    (exists tr, extends st st' tr) /\ forall v', r = Ok v' -> existing st v -> existing st' v'.
  Proof.
    intros X. unfold encode. destruct (ser_ok E v) eqn:S.
    - intros [= <- <-]. split; [exists []; apply extends_refl|]. intros v' H Y o I. apply Y. eapply encode_value_mentions; eauto.
    - destruct srv as [addr|]; [|intros [= <- <-]; split; [exists []; apply extends_refl|discriminate]].
      destruct v; try (rewrite (ge_types _ GE) in S by discriminate; discriminate S).
      destruct (X o (or_introl eq_refl)) as [L B].
      destruct (proxy_value_obj E addr st o L) as (st1 & oid & rid & P & Bx & H & R). rewrite P. intros [= <- <-]. split.
      + exists [(GetProxy o true, OProxy oid rid)]. constructor; auto.
        * cbn [map fst orun]. rewrite R. reflexivity.
        * intros e [<-|[]]. left. exists o. reflexivity.
      + intros v' [= <-] _. intros o' I. cbn in I. tauto.
  Qed.

  Definition ok_rec {W} (rec : sst -> pyval -> sst * res W) : Prop :=
    forall st v st' r, existing st v -> rec st v = (st', r) -> exists tr, extends st st' tr.

  Lemma existing_cons st v l : existing st (VList (v :: l)) -> existing st v /\ existing st (VList l).
  Proof. intro X. split; intros o I; apply X; cbn [mentions flat_map] in *; apply in_or_app; auto. Qed.
  Lemma existing_pair st k v d : existing st (VDict ((k, v) :: d)) -> existing st k /\ existing st v /\ existing st (VDict d).
  Proof.
    intro X. split; [|split]; intros o I; apply X; cbn [mentions flat_map fst snd] in *; rewrite !in_app_iff; auto.
  Qed.

  Lemma pack_list_ext rec : ok_rec rec -> forall l st st' r, existing st (VList l) -> pack_list rec st l = (st', r) -> exists tr, extends st st' tr.
  Proof.
    intros R. induction l as [|v l IH]; intros st st' r X; cbn [pack_list]; [intros [= <- _]; exists []; apply extends_refl|].
    apply existing_cons in X. destruct X as [X1 X2]. destruct (rec st v) as [st1 w] eqn:Rv. destruct (R _ _ _ _ X1 Rv) as (t1 & T1).
    destruct w as [w|e]; [|intros [= <- _]; eauto].
    destruct (pack_list rec st1 l) as [st2 ws] eqn:P. intros [= <- _].
    destruct (IH _ _ _ (extends_existing _ _ _ _ T1 X2) P) as (t2 & T2). exists (t1 ++ t2). eapply extends_trans; eauto.
  Qed.
  Lemma pack_pairs_ext rec : ok_rec rec -> forall l st st' r, existing st (VDict l) -> pack_pairs rec st l = (st', r) -> exists tr, extends st st' tr.
  Proof.
    intros R. induction l as [|[k v] l IH]; intros st st' r X; cbn [pack_pairs]; [intros [= <- _]; exists []; apply extends_refl|].
    apply existing_pair in X. destruct X as (X0 & X1 & X2). destruct (rec st k) as [st1 w] eqn:Rk. destruct (R _ _ _ _ X0 Rk) as (t1 & T1).
    destruct w as [w|e]; [|intros [= <- _]; eauto].
    destruct (rec st1 v) as [st2 w2] eqn:Rv. destruct (R _ _ _ _ (extends_existing _ _ _ _ T1 X1) Rv) as (t2 & T2).
    pose proof (extends_trans _ _ _ _ _ T1 T2) as T3. destruct w2 as [w2|e]; [|intros [= <- _]; eauto].
    destruct (pack_pairs rec st2 l) as [st3 ws] eqn:P. intros [= <- _].
    destruct (IH _ _ _ (extends_existing _ _ _ _ T3 X2) P) as (t4 & T4). eexists. eapply extends_trans; eauto.
  Qed.
  Lemma pack_native_ext rec : ok_rec rec -> forall st v st' r, existing st v -> pack_native rec st v = Some (st', r) -> exists tr, extends st st' tr.
  Proof.
    intros R st v st' r X. destruct v; cbn [pack_native]; try discriminate; try (intros [= <- _]; exists []; apply extends_refl).
    - destruct (int_fits z); [|discriminate]. intros [= <- _]. exists []. apply extends_refl.
    - destruct (pack_list rec st l) as [st1 ws] eqn:P. intros [= <- _]. eapply pack_list_ext; eauto.
    - destruct (pack_pairs rec st d) as [st1 ws] eqn:P. intros [= <- _]. eapply pack_pairs_ext; eauto.
  Qed.
  Lemma pack_ext n srv : ok_rec (pack E n srv).
  Proof.
    induction n as [|n IH]; intros st v st' r X; [cbn; intros [= <- _]; exists []; apply extends_refl|].
    rewrite pack_S. destruct (pack_native (pack E n srv) st v) as [[s1 r1]|] eqn:P.
    - intros [= <- <-]. eapply pack_native_ext; eauto.
    - destruct (encode E srv st v) as [st1 e] eqn:En. destruct (encode_extends _ _ _ _ _ X En) as ((t1 & T1) & Ex).
      destruct e as [v'|x]; [|intros [= <- _]; eauto].
      destruct (pack_native (pack E n srv) st1 v') as [[s1 r1]|] eqn:P2; [|intros [= <- _]; eauto].
      intros [= <- <-]. destruct (pack_native_ext _ IH _ _ _ _ (Ex v' eq_refl X) P2) as (t2 & T2).
      eexists. eapply extends_trans; eauto.
  Qed.

  Lemma j_list_ext rec : ok_rec rec -> forall l st st' r, existing st (VList l) -> j_list rec st l = (st', r) -> exists tr, extends st st' tr.
  Proof.
    intros R. induction l as [|v l IH]; intros st st' r X; cbn [j_list]; [intros [= <- _]; exists []; apply extends_refl|].
    apply existing_cons in X. destruct X as [X1 X2]. destruct (rec st v) as [st1 w] eqn:Rv. destruct (R _ _ _ _ X1 Rv) as (t1 & T1).
    destruct w as [w|e]; [|intros [= <- _]; eauto].
    destruct (j_list rec st1 l) as [st2 ws] eqn:P. intros [= <- _].
    destruct (IH _ _ _ (extends_existing _ _ _ _ T1 X2) P) as (t2 & T2). exists (t1 ++ t2). eapply extends_trans; eauto.
  Qed.
  Lemma j_pairs_ext rec : ok_rec rec -> forall l st st' r, existing st (VDict l) -> j_pairs E rec st l = (st', r) -> exists tr, extends st st' tr.
  Proof.
    intros R. induction l as [|[k v] l IH]; intros st st' r X; cbn [j_pairs]; [intros [= <- _]; exists []; apply extends_refl|].
    apply existing_pair in X. destruct X as (_ & X1 & X2). destruct (json_key E k) as [ks|e]; [|intros [= <- _]; exists []; apply extends_refl].
    destruct (rec st v) as [st2 w2] eqn:Rv. destruct (R _ _ _ _ X1 Rv) as (t2 & T2).
    destruct w2 as [w2|e]; [|intros [= <- _]; eauto].
    destruct (j_pairs E rec st2 l) as [st3 ws] eqn:P. intros [= <- _].
    destruct (IH _ _ _ (extends_existing _ _ _ _ T2 X2) P) as (t4 & T4). eexists. eapply extends_trans; eauto.
  Qed.
  Lemma j_native_ext rec : ok_rec rec -> forall st v st' r, existing st v -> j_native E rec st v = Some (st', r) -> exists tr, extends st st' tr.
  Proof.
    intros R st v st' r X. unfold j_native. assert (X' : existing st (base_of v)) by (unfold existing; rewrite base_mentions; exact X).
    destruct (base_of v); try discriminate; try (intros [= <- _]; exists []; apply extends_refl).
    - destruct (j_list rec st l) as [st1 ws] eqn:P. intros [= <- _]. eapply j_list_ext; eauto.
    - destruct (j_list rec st l) as [st1 ws] eqn:P. intros [= <- _]. eapply j_list_ext; eauto.
    - destruct (j_pairs E rec st d) as [st1 ws] eqn:P. intros [= <- _]. eapply j_pairs_ext; eauto.
    - destruct v0; try discriminate. destruct (String.eqb _ _); [|discriminate]. intros [= <- _]; exists []; apply extends_refl.
  Qed.
  Lemma jencode_extends srv st v st' r : existing st v -> jencode E srv st v = (st', r) ->
    (exists tr, extends st st' tr) /\ forall v', r = Ok v' -> existing st v -> existing st' v'.
  Proof.
    intro X. unfold jencode. destruct (base_of v); try (apply encode_extends; exact X); intros [= <- <-];
      (split; [exists []; apply extends_refl|]); try (destruct (dt_buffer d); [|discriminate]); intros v' [= <-] _ o I; exfalso; cbn in I; try tauto.
    rewrite app_nil_r in I. clear X. induction shape as [|n sh IH]; cbn in I; auto.
  Qed.
  Lemma jdumps_ext n srv : ok_rec (jdumps E n srv).
  Proof.
    induction n as [|n IH]; intros st v st' r X; [cbn; intros [= <- _]; exists []; apply extends_refl|].
    rewrite jdumps_S. destruct (j_native E (jdumps E n srv) st v) as [[s1 r1]|] eqn:P.
    - intros [= <- <-]. eapply j_native_ext; eauto.
    - destruct (jencode E srv st v) as [st1 e] eqn:En. destruct (jencode_extends _ _ _ _ _ X En) as ((t1 & T1) & Ex).
      destruct e as [v'|x]; [|intros [= <- _]; eauto].
      intro P2. destruct (IH _ _ _ _ (Ex v' eq_refl X) P2) as (t2 & T2). eexists. eapply extends_trans; eauto.
  Qed.
End Life.
