(** Proofs about the JSON serializer. *)
From Verif Require Import Py ObjTableModel ObjTableSpec ObjTableProofs DateTimeModel DateTimeSpec DateTimeProofs
  NdArrayModel Base64Model Base64Proofs SerModel SerSpec SerProofs.

Fixpoint jl_list E srv st (l : list json) : res (list pyval) :=
  match l with
  | [] => Ok []
  | x :: r => bind (jloads E srv st x) (fun v => bind (jl_list E srv st r) (fun vs => Ok (v :: vs)))
  end.
Fixpoint jl_obj E srv st (l : list (string * json)) (d : list (pyval * pyval)) : res (list (pyval * pyval)) :=
  match l with
  | [] => Ok d
  | (k, x) :: r => bind (jloads E srv st x) (fun v => jl_obj E srv st r (kset d (VStr k) v))
  end.
Lemma jloads_arr E srv st l : jloads E srv st (JArr l) = bind (jl_list E srv st l) (fun vs => Ok (VList vs)).
Proof.
  cbn [jloads]. f_equal. induction l as [|x r IH]; [reflexivity|]. cbn [jl_list]. rewrite <- IH. reflexivity.
Qed.
Lemma jloads_obj E srv st l : jloads E srv st (JObj l) = bind (jl_obj E srv st l []) (fun d => jdecode E srv st d).
Proof.
  cbn [jloads]. f_equal. generalize (@nil (pyval * pyval)).
  induction l as [|[k x] r IH]; intro d; [reflexivity|]. cbn [jl_obj].
  destruct (jloads E srv st x); [|reflexivity]. cbn [bind]. apply IH.
Qed.

Lemma jdumps_S E n srv st v : jdumps E (S n) srv st v =
  match j_native E (jdumps E n srv) st v with
  | Some r => r
  | None =>
      let '(st1, e) := jencode E srv st v in
      match e with
      | Err x => (st1, Err x)
      | Ok v' => jdumps E n srv st1 v'
      end
  end.
Proof. reflexivity. Qed.

Lemma json_key_str E k s : json_str (float_repr E) k = Some s -> json_key E k = Ok s.
Proof.
  unfold json_str, json_key. rewrite content_is. destruct (base_of k); try discriminate; try (intros [= <-]; reflexivity).
  - destruct b; intros [= <-]; reflexivity.
  - destruct v; try discriminate. destruct (String.eqb _ _); [intros [= <-]; reflexivity|discriminate].
Qed.

Lemma kset_put d s v : kset d (VStr s) v = put d s v.
Proof.
  induction d as [|[k0 v0] r IH]; [reflexivity|]. cbn [kset put]. destruct k0; cbn [key_eqb]; rewrite ?IH; reflexivity.
Qed.

Lemma put_keys d s v k : In k (map fst (put d s v)) -> k = VStr s \/ In k (map fst d).
Proof.
  induction d as [|[k0 v0] r IH]; cbn; [intuition|].
  destruct k0; cbn; try (intuition fail).
  all: try (intros [H|H]; [auto|destruct (IH H); auto]).
  destruct (String.eqb_spec s0 s); cbn; [auto|]. intros [H|H]; [auto|destruct (IH H); auto].
Qed.

Definition puts E (l : list (pyval * pyval)) (acc : list (pyval * pyval)) : list (pyval * pyval) :=
  fold_left (fun acc kv => put acc (key_or_empty (float_repr E) (fst kv)) (snd kv)) l acc.

Lemma puts_keys E l : forall acc k, In k (map fst (puts E l acc)) ->
  In k (map fst acc) \/ exists k0, In k0 (map fst l) /\ k = VStr (key_or_empty (float_repr E) k0).
Proof.
  induction l as [|[k1 v1] r IH]; intros acc k; cbn; [auto|]. intro H. apply IH in H. destruct H as [H|(k0 & H1 & H2)].
  - apply put_keys in H. destruct H as [->|H]; [right; eauto|auto].
  - right; eauto.
Qed.

Definition msub (h : proxyrec -> pyval) (kv : pyval * pyval) : pyval * pyval := (fst kv, subst h (snd kv)).
Lemma put_msub h d s v : map (msub h) (put d s v) = put (map (msub h) d) s (subst h v).
Proof.
  induction d as [|[k0 v0] r IH]; [reflexivity|]. cbn [put map].
  destruct k0; cbn [put map msub fst snd]; rewrite ?IH; try reflexivity.
  destruct (String.eqb s0 s); cbn [put map msub fst snd]; rewrite ?IH; reflexivity.
Qed.
Lemma puts_msub E h l : forall acc, map (msub h) (puts E l acc) = puts E (map (msub h) l) (map (msub h) acc).
Proof.
  induction l as [|[k v] r IH]; intro acc; [reflexivity|]. cbn [puts fold_left map msub fst snd].
  fold (puts E r (put acc (key_or_empty (float_repr E) k) v)). rewrite IH, put_msub. reflexivity.
Qed.

Lemma jstr E n srv st s : jdumps E (S n) srv st (VStr s) = (st, Ok (JStr s)).
Proof. reflexivity. Qed.
Lemma jint E n srv st z : jdumps E (S n) srv st (VInt z) = (st, Ok (JInt z)).
Proof. reflexivity. Qed.
Ltac jk := repeat (cbn [bind]; cbv beta iota; first [rewrite jstr]); cbn [bind]; cbv beta iota.
Ltac jfields := rewrite jdumps_S; unfold fields; cbn [map j_native base_of j_pairs json_key]; jk.

Section JSending.
  Variable E : senv.
  Hypothesis GE : good_env E.
  Variable addr : string.

  Definition jpacks_as (srv : option string) (n : nat) (st : sst) (v : pyval) : Prop :=
    exists st' j tr v',
      jdumps E n srv st v = (st', Ok j) /\
      ss_boxes st' = ss_boxes st /\ hp (ss_o st') = hp (ss_o st) /\
      orun (ss_o st) (map fst tr) = (ss_o st', tr) /\
      arrives E addr v tr v' /\
      (objs E v = [] -> st' = st) /\
      (forall srv2 st2 h, (forall p, In p (proxies v') -> home E srv2 st2 p = Ok (h p)) ->
         jloads E srv2 st2 j = Ok (subst h (jnf E v'))).

  Lemma jpacks_leaf srv n st v j :
    objs E v = [] -> (forall h, subst h (jnf E v) = jnf E v) ->
    jdumps E n srv st v = (st, Ok j) -> (forall srv2 st2, jloads E srv2 st2 j = Ok (jnf E v)) ->
    jpacks_as srv n st v.
  Proof.
    intros Ho Hs Hpk Hu. exists st, j, [], v. repeat split; auto.
    - constructor. exact Ho.
    - intros. rewrite Hs. apply Hu.
  Qed.

  Lemma jbytes srv n st s : (3 <= n)%nat ->
    exists j, jdumps E n srv st (VBytes s) = (st, Ok j) /\ forall srv2 st2, jloads E srv2 st2 j = Ok (VBytes s).
  Proof.
    intro Hn. destruct n as [|[|[|n]]]; try lia. eexists. split; [reflexivity|].
    intros. rewrite jloads_obj. cbn [jl_obj jloads bind kset key_eqb]. cbn.
    rewrite bytes_of_of, b64_roundtrip. cbn. rewrite of_bytes_of. reflexivity.
  Qed.

  Lemma jpickled srv n st v : (5 <= n)%nat -> picklable E v -> ser_ok E v = true ->
    (forall rec, j_native E rec st v = None) ->
    (jencode E srv st v = encode E srv st v) ->
    encode_value E v = bind (pickle_dumps E v)
             (fun s => Ok (fields [(encode_key, VStr "pickle"); ("pickle_str", VBytes s)])) ->
    exists j, jdumps E n srv st v = (st, Ok j) /\ forall srv2 st2, jloads E srv2 st2 j = Ok v.
  Proof.
    intros Hn (s & Hd & Hl) Hok Hnat Hj Henc. destruct n as [|[|n]]; try lia.
    destruct (jbytes srv n st s) as (j & P & U); [lia|].
    rewrite jdumps_S, Hnat, Hj. unfold encode. rewrite Hok, Henc, Hd. cbn [bind].
    destruct n as [|n]; [lia|]. jfields.
    rewrite P. eexists. split; [reflexivity|].
    intros. rewrite jloads_obj. cbn [jl_obj]. rewrite U. cbn. exact Hl.
  Qed.

  Lemma jints srv n st l : 
    j_list (jdumps E (S n) srv) st (vlist_ints l) = (st, Ok (map (fun k => JInt (Z.of_nat k)) l)).
  Proof. induction l as [|k r IH]; [reflexivity|]. cbn [vlist_ints map j_list]. fold (vlist_ints r). rewrite jint, IH. reflexivity. Qed.
  Lemma jints_load srv2 st2 l : jl_list E srv2 st2 (map (fun k => JInt (Z.of_nat k)) l) = Ok (vlist_ints l).
  Proof. induction l as [|k r IH]; [reflexivity|]. cbn [map jl_list]. rewrite IH. reflexivity. Qed.
  Lemma jstrs srv n st l : j_list (jdumps E (S n) srv) st (vstrs l) = (st, Ok (map JStr l)).
  Proof. induction l as [|k r IH]; [reflexivity|]. cbn [vstrs map j_list]. fold (vstrs r). rewrite jstr, IH. reflexivity. Qed.
  Lemma jstrs_load srv2 st2 l : jl_list E srv2 st2 (map JStr l) = Ok (vstrs l).
  Proof. induction l as [|k r IH]; [reflexivity|]. cbn [map jl_list]. rewrite IH. reflexivity. Qed.

  Lemma jproxy srv n st p : (3 <= n)%nat ->
    exists j, jdumps E n srv st (proxy_state p) = (st, Ok j) /\
      forall srv2 st2, jloads E srv2 st2 j = home E srv2 st2 p.
  Proof.
    intro Hn. destruct n as [|[|[|n]]]; try lia. destruct p as [a oid rid ty attrs]. unfold proxy_state. jfields.
    cbn [p_addr p_oid p_rid p_type p_attrs].
    assert (H1 : forall z, jdumps E (S (S n)) srv st (VInt z) = (st, Ok (JInt z))) by reflexivity.
    rewrite H1. jk. rewrite H1. jk. rewrite jdumps_S. cbn [j_native base_of]. rewrite jstrs. jk.
    eexists. split; [reflexivity|]. intros. rewrite jloads_obj. cbn [jl_obj]. rewrite jloads_arr, jstrs_load. cbn.
    rewrite strs_of_strs. unfold home. cbn.
    destruct srv2 as [a2|]; [|reflexivity]. destruct (String.eqb a a2); reflexivity.
  Qed.

  Lemma jdecode_dict srv2 st2 d : ~ In (VStr "___type_name___") (map fst d) ->
    jdecode E srv2 st2 d = Ok (VDict d).
  Proof.
    intro H. unfold jdecode. change encode_key with "___type_name___". rewrite kget_notin by exact H.
    apply decode_dict. exact H.
  Qed.

  Lemma jpacks_list srv n l :
    (objs E (VList l) = [] \/ srv = Some addr) ->
    Forall (fun v => forall n st, (jdepth E v <= n)%nat -> jsendable E v -> alive E (ss_o st) v ->
                     (objs E v = [] \/ srv = Some addr) -> jpacks_as srv n st v) l ->
    forall st, (lmax (map (jdepth E) l) <= n)%nat -> All (jsendable E) l -> alive E (ss_o st) (VList l) ->
    exists st' ws tr l',
      j_list (jdumps E n srv) st l = (st', Ok ws) /\
      ss_boxes st' = ss_boxes st /\ hp (ss_o st') = hp (ss_o st) /\
      orun (ss_o st) (map fst tr) = (ss_o st', tr) /\
      arrive_all E addr l tr l' /\
      (objs E (VList l) = [] -> st' = st) /\
      (forall srv2 st2 h, (forall p, In p (flat_map proxies l') -> home E srv2 st2 p = Ok (h p)) ->
         jl_list E srv2 st2 ws = Ok (map (fun v => subst h (jnf E v)) l')).
  Proof.
    intros Hsrv F. induction F as [|v l Hv F IH]; intros st Hn Hs Ha.
    - exists st, [], [], []. repeat split; auto. constructor.
    - cbn [map lmax fold_right] in Hn. fold (lmax (map (jdepth E) l)) in Hn. destruct Hs as [Hs1 Hs2].
      assert (Hv' : jpacks_as srv n st v).
      { apply Hv; [lia|exact Hs1| |].
        - intros o I. apply Ha. cbn. apply in_or_app. auto.
        - destruct Hsrv as [O|O]; [|auto]. cbn in O. apply app_eq_nil in O. tauto. }
      destruct Hv' as (st1 & w & t1 & v1 & P1 & B1 & H1 & R1 & A1 & S1 & U1).
      destruct (IH) with (st := st1) as (st2 & ws & t2 & l2 & P2 & B2 & H2 & R2 & A2 & S2 & U2); [| lia | exact Hs2 | |].
      + destruct Hsrv as [O|O]; [|auto]. cbn in O. apply app_eq_nil in O. left. apply O.
      + intros o I. rewrite H1. apply Ha. cbn. apply in_or_app. auto.
      + exists st2, (w :: ws), (t1 ++ t2), (v1 :: l2). cbn [j_list]. rewrite P1, P2. cbn [bind].
        repeat split; auto; try congruence.
        * rewrite map_app, orun_app, R1. cbn [fst snd]. rewrite R2. reflexivity.
        * constructor; assumption.
        * intro O. cbn in O. apply app_eq_nil in O. destruct O as [O1 O2]. rewrite (S2 O2), (S1 O1). reflexivity.
        * intros srv2 st3 h Hh. cbn [jl_list]. rewrite (U1 srv2 st3 h), (U2 srv2 st3 h); [reflexivity| |];
            intros p I; apply Hh; cbn; apply in_or_app; auto.
  Qed.

  Lemma jpacks_dict srv n d :
    (objs E (VDict d) = [] \/ srv = Some addr) ->
    Forall (fun kv => forall n st, (jdepth E (snd kv) <= n)%nat -> jsendable E (snd kv) -> alive E (ss_o st) (snd kv) ->
                     (objs E (snd kv) = [] \/ srv = Some addr) -> jpacks_as srv n st (snd kv)) d ->
    forall st, (lmax (map (fun kv => jdepth E (snd kv)) d) <= n)%nat ->
    All (fun kv => (exists s, json_str (float_repr E) (fst kv) = Some s /\ s <> "___type_name___") /\ jsendable E (snd kv)) d ->
    alive E (ss_o st) (VDict d) ->
    exists st' ws tr d',
      j_pairs E (jdumps E n srv) st d = (st', Ok ws) /\
      ss_boxes st' = ss_boxes st /\ hp (ss_o st') = hp (ss_o st) /\
      orun (ss_o st) (map fst tr) = (ss_o st', tr) /\
      map fst d' = map fst d /\ arrive_all E addr (map snd d) tr (map snd d') /\
      (objs E (VDict d) = [] -> st' = st) /\
      (forall srv2 st2 h d0, (forall p, In p (proxies (VDict d')) -> home E srv2 st2 p = Ok (h p)) ->
         jl_obj E srv2 st2 ws d0 = Ok (puts E (map (fun kv => (fst kv, subst h (jnf E (snd kv)))) d') d0)).
  Proof.
    intros Hsrv F. induction F as [|[k v] d Hv F IH]; intros st Hn Hs Ha.
    - exists st, [], [], []. repeat split; auto. constructor.
    - cbn [map lmax fold_right snd fst] in *. fold (lmax (map (fun kv => jdepth E (snd kv)) d)) in Hn.
      destruct Hs as [[(s & Hk & Hks) Hs1] Hs2]. cbn [fst snd] in *.
      assert (Hv' : jpacks_as srv n st v).
      { apply Hv; [lia|exact Hs1| |].
        - intros o I. apply Ha. cbn. apply in_or_app. auto.
        - destruct Hsrv as [O|O]; [|auto]. cbn in O. apply app_eq_nil in O. tauto. }
      destruct Hv' as (st1 & w & t1 & v1 & P1 & B1 & H1 & R1 & A1 & S1 & U1).
      destruct (IH) with (st := st1) as (st2 & ws & t2 & d2 & P2 & B2 & H2 & R2 & K2 & A2 & S2 & U2); [| lia | exact Hs2 | |].
      + destruct Hsrv as [O|O]; [|auto]. cbn in O. apply app_eq_nil in O. left. apply O.
      + intros o I. rewrite H1. apply Ha. cbn. apply in_or_app. auto.
      + exists st2, ((s, w) :: ws), (t1 ++ t2), ((k, v1) :: d2). cbn [j_pairs].
        rewrite (json_key_str E k s Hk), P1, P2. cbn [bind].
        repeat split; auto; try congruence.
        * rewrite map_app, orun_app, R1. cbn [fst snd]. rewrite R2. reflexivity.
        * cbn [map fst]. congruence.
        * cbn [map snd]. constructor; assumption.
        * intro O. cbn in O. apply app_eq_nil in O. destruct O as [O1 O2]. rewrite (S2 O2), (S1 O1). reflexivity.
        * intros srv2 st3 h d0 Hh. cbn [jl_obj].
          rewrite (U1 srv2 st3 h) by (intros p I; apply Hh; cbn; apply in_or_app; auto). cbn [bind].
          rewrite (U2 srv2 st3 h) by (intros p I; apply Hh; cbn; apply in_or_app; auto).
          rewrite kset_put. cbn [map fst snd puts fold_left]. unfold key_or_empty at 2. rewrite Hk. reflexivity.
  Qed.

  Theorem jpacks v : forall srv n st,
    (jdepth E v <= n)%nat -> jsendable E v -> alive E (ss_o st) v ->
    (objs E v = [] \/ srv = Some addr) -> jpacks_as srv n st v.
  Proof.
    induction v as [|b|z|f|s|s|l IH|l IH|d IH|t|d|d sh data|d n0|d|p|c v IH|o] using pyval_ind';
      intros srv n st Hn Hs Ha Hsrv; cbn [jdepth] in Hn.
    - destruct n; [lia|]. eapply jpacks_leaf; reflexivity.
    - destruct n; [lia|]. eapply jpacks_leaf; reflexivity.
    - destruct n; [lia|]. eapply jpacks_leaf; reflexivity.
    - destruct n; [lia|]. eapply jpacks_leaf; reflexivity.
    - destruct n; [lia|]. eapply jpacks_leaf; reflexivity.
    - destruct (jbytes srv n st s Hn) as (j & P & U). eapply jpacks_leaf; try reflexivity; eauto.
    - destruct n; [lia|].
      destruct (jpacks_list srv n l Hsrv) with (st := st) as (st' & ws & tr & l' & P & B & H & R & A & S & U);
        [| lia | exact Hs | exact Ha |].
      { eapply Forall_impl; [|exact IH]. intros v Hv m st0. apply Hv. }
      exists st', (JArr ws), tr, (VList l'). rewrite jdumps_S. cbn [j_native base_of]. rewrite P. cbn [bind].
      repeat split; auto. { constructor; exact A. }
      intros srv2 st2 h Hh. rewrite jloads_arr, (U srv2 st2 h Hh). cbn [bind jnf subst]. rewrite map_map. reflexivity.
    - destruct n; [lia|].
      destruct (jpacks_list srv n l Hsrv) with (st := st) as (st' & ws & tr & l' & P & B & H & R & A & S & U);
        [| lia | exact Hs | exact Ha |].
      { eapply Forall_impl; [|exact IH]. intros v Hv m st0. apply Hv. }
      exists st', (JArr ws), tr, (VTuple l'). rewrite jdumps_S. cbn [j_native base_of]. rewrite P. cbn [bind].
      repeat split; auto. { constructor; exact A. }
      intros srv2 st2 h Hh. rewrite jloads_arr, (U srv2 st2 h Hh). cbn [bind jnf subst]. rewrite map_map. reflexivity.
    - destruct n; [lia|].
      destruct (jpacks_dict srv n d Hsrv) with (st := st) as (st' & ws & tr & d' & P & B & H & R & K & A & S & U);
        [| lia | exact Hs | exact Ha |].
      { eapply Forall_impl; [|exact IH]. intros [k v] [_ Hv] m st0. apply Hv. }
      exists st', (JObj ws), tr, (VDict d'). rewrite jdumps_S. cbn [j_native base_of]. rewrite P. cbn [bind].
      repeat split; auto. { constructor; assumption. }
      intros srv2 st2 h Hh. rewrite jloads_obj, (U srv2 st2 h [] Hh). cbn [bind].
      rewrite jdecode_dict.
      + cbn [jnf subst]. do 2 f_equal.
        change (fold_left (fun acc kv => put acc (key_or_empty (float_repr E) (fst kv)) (snd kv)) ?l ?a) with (puts E l a).
        fold (puts E (map (fun kv => (fst kv, jnf E (snd kv))) d') []).
        change (map (fun kv => (fst kv, subst h (snd kv)))) with (map (msub h)).
        rewrite puts_msub, map_map. reflexivity.
      + intro I. apply puts_keys in I. destruct I as [[]|(k0 & I & C)].
        rewrite map_map in I. cbn [fst] in I. change (map (fun x => fst x) d') with (map (@fst pyval pyval) d') in I. rewrite K in I.
        apply in_map_iff in I. destruct I as ([k1 v1] & E1 & I). cbn in E1. subst k1.
        pose proof (All_in _ _ _ Hs I) as [(s & G1 & G2) _]. cbn in G1. unfold key_or_empty in C. rewrite G1 in C. congruence.
    - destruct n as [|[|[|n]]]; try lia. destruct Hs as (Hok & Hy & Htz). apply real_datetime_is in Hok.
      eapply jpacks_leaf; try reflexivity.
      + rewrite jdumps_S. cbn [j_native base_of jencode]. unfold jencode, encode. cbn [base_of]. rewrite (ge_types _ GE) by discriminate.
        unfold encode_value. cbn [base_of]. jfields. reflexivity.
      + intros. rewrite jloads_obj. cbn. rewrite datetime_roundtrip by assumption. cbn. unfold strip_tz. destruct t; cbn in *. subst. reflexivity.
    - destruct n as [|[|[|n]]]; try lia. destruct Hs as (Hok & Hy). apply real_date_is in Hok.
      eapply jpacks_leaf; try reflexivity.
      + rewrite jdumps_S. cbn [j_native base_of jencode]. unfold jencode, encode. cbn [base_of]. rewrite (ge_types _ GE) by discriminate.
        unfold encode_value. cbn [base_of]. jfields. reflexivity.
      + intros. rewrite jloads_obj. cbn. rewrite date_roundtrip by assumption. reflexivity.
    - destruct n as [|[|[|[|n]]]]; try lia. destruct Hs as (Hdt & Hb & Har).
      eapply jpacks_leaf; try reflexivity.
      + rewrite jdumps_S. cbn [j_native base_of]. unfold jencode. cbn [base_of]. rewrite Hb. jfields.
        rewrite jdumps_S. cbn [j_native base_of]. rewrite jints. jk. reflexivity.
      + intros. rewrite jloads_obj. cbn [jl_obj]. rewrite jloads_arr, jints_load. cbn.
        rewrite bytes_of_of, b64_roundtrip. cbn. rewrite Hdt. cbn. rewrite of_bytes_of. apply make_array_ok. exact Har.
    - destruct Hs as (Hp & Hk).
      destruct (jpickled srv (pred (pred n)) st (VDtype d)) as (w & P & U);
        [lia | exact Hp | apply (ge_types _ GE); discriminate | reflexivity | reflexivity | reflexivity |].
      destruct n as [|[|[|n]]]; try lia. cbn [pred] in P.
      assert (Hf : (exists f, n0 = NFloat f /\ String.eqb (dt_str d) "float64" = true) \/
                   (forall f, n0 = NFloat f -> String.eqb (dt_str d) "float64" = false)).
      { destruct n0; try (right; congruence). destruct (String.eqb (dt_str d) "float64") eqn:Ef; [left; eauto|right; auto]. }
      destruct Hf as [(f & -> & Ef)|Hf].
      { eapply jpacks_leaf; try reflexivity.
        - cbn [jnf]. rewrite Ef. reflexivity.
        - rewrite jdumps_S. cbn [j_native base_of]. rewrite Ef. reflexivity.
        - intros. cbn [jnf]. rewrite Ef. reflexivity. }
      assert (Hnf : jnf E (VNp d n0) = VNp d n0).
      { cbn [jnf]. destruct n0; try reflexivity. rewrite (Hf f eq_refl). reflexivity. }
      assert (Hnat : j_native E (jdumps E (S (S n)) srv) st (VNp d n0) = None).
      { cbn [j_native base_of]. destruct n0; try reflexivity. rewrite (Hf f eq_refl). reflexivity. }
      assert (Hval : exists vv wv, (match n0 with NBool b => Ok (VBool b) | NInt z => Ok (VInt z) | NFloat f => Ok (VFloat f) | NComplex => Err TypeError end) = Ok vv
                     /\ jdumps E (S n) srv st vv = (st, Ok wv) /\ (forall srv2 st2, jloads E srv2 st2 wv = Ok vv)
                     /\ np_make d vv = Ok (VNp d n0)).
      { unfold scalar_ok in Hk. destruct n0; cbn in Hk; try (exfalso; exact Hk);
        (eexists _, _; repeat split; try reflexivity; unfold np_make; rewrite Hk; reflexivity). }
      destruct Hval as (vv & wv & V1 & V2 & V3 & V4).
      eapply jpacks_leaf; try reflexivity; rewrite ?Hnf; try reflexivity.
      + rewrite jdumps_S, Hnat. unfold jencode, encode. cbn [base_of]. rewrite (ge_types _ GE) by discriminate.
        unfold encode_value. cbn [base_of]. rewrite V1. cbn [bind]. jfields. rewrite P. jk. rewrite V2. jk. reflexivity.
      + intros. rewrite jloads_obj. cbn [jl_obj]. rewrite U, V3. cbn. exact V4.
    - cbn [jsendable] in Hs.
      destruct (jpickled srv n st (VDtype d)) as (w & P & U);
        [lia | exact Hs | apply (ge_types _ GE); discriminate | reflexivity | reflexivity | reflexivity |].
      eapply jpacks_leaf; try reflexivity; eauto.
    - destruct n as [|n]; [lia|]. destruct (jproxy srv n st p) as (w & P & U); [lia|].
      exists st, w, [], (VProxy p). repeat split; auto.
      + rewrite jdumps_S. cbn [j_native base_of]. unfold jencode, encode. cbn [base_of]. rewrite (ge_types _ GE) by discriminate.
        unfold encode_value. cbn [base_of]. exact P.
      + constructor. reflexivity.
      + intros srv2 st2 h Hh. rewrite U. cbn [subst jnf]. apply Hh. left. reflexivity.
    - destruct n as [|n]; [lia|]. cbn [jsendable] in Hs.
      destruct v; try destruct Hs; eapply jpacks_leaf; reflexivity.
    - cbn [jsendable] in Hs. destruct (ser_ok E (VObj o)) eqn:Hok.
      + destruct (jpickled srv n st (VObj o)) as (w & P & U);
          [lia | auto | exact Hok | reflexivity | reflexivity | reflexivity |].
        eapply jpacks_leaf; try reflexivity; eauto. cbn. rewrite Hok. reflexivity.
      + assert (Ho : objs E (VObj o) = [o]) by (cbn; rewrite Hok; reflexivity).
        destruct Hsrv as [C| -> ]; [rewrite Ho in C; discriminate|].
        assert (Hl : dmem (addrs (hp (ss_o st))) o = true) by (apply Ha; rewrite Ho; left; reflexivity).
        destruct (proxy_value_obj E addr st o Hl) as (st' & oid & rid & P & B & H & R).
        destruct n as [|n]; [lia|].
        destruct (jproxy (Some addr) n st' (mkP addr oid rid (type_str E (VObj o)) [])) as (w & Pw & U); [lia|].
        eexists st', w, [(GetProxy o true, OProxy oid rid)], _. repeat split; auto.
        * rewrite jdumps_S. cbn [j_native base_of]. unfold jencode, encode. cbn [base_of]. rewrite Hok, P. cbn [bind].
          unfold encode_value. cbn [base_of]. exact Pw.
        * cbn [map fst orun]. rewrite R. reflexivity.
        * apply arr_obj. exact Hok.
        * rewrite Ho. discriminate.
        * intros srv2 st2 h Hh. rewrite U. cbn [subst jnf]. apply Hh. left. reflexivity.
  Qed.
End JSending.

Lemma json_roundtrip E : good_env E -> forall srv n st v,
  jsendable E v -> objs E v = [] -> (jdepth E v <= n)%nat ->
  exists j, jdumps E n srv st v = (st, Ok j) /\
    forall srv2 st2, (forall p, In p (proxies v) -> srv2 <> Some (p_addr p)) ->
      jloads E srv2 st2 j = Ok (jnf E v).
Proof.
  intros GE srv n st v Hs Ho Hd.
  destruct (jpacks E GE "" v srv n st Hd Hs (alive_none _ _ _ Ho) (or_introl Ho))
    as (st' & w & tr & v' & P & _ & _ & _ & A & S & U).
  rewrite (S Ho) in P. destruct (proj1 (arrives_same E "") _ _ _ A Ho) as [-> _].
  exists w. split; [exact P|]. intros srv2 st2 Hf.
  rewrite (U srv2 st2 VProxy); [rewrite subst_id; reflexivity|].
  intros p I. apply home_foreign. apply Hf. exact I.
Qed.

Lemma json_send E : good_env E -> forall addr n st v,
  jsendable E v -> alive E (ss_o st) v -> (jdepth E v <= n)%nat ->
  exists st' j tr v',
    jdumps E n (Some addr) st v = (st', Ok j) /\
    orun (ss_o st) (map fst tr) = (ss_o st', tr) /\ ss_boxes st' = ss_boxes st /\
    arrives E addr v tr v' /\
    forall srv2 st2, (forall p, In p (proxies v') -> srv2 <> Some (p_addr p)) ->
      jloads E srv2 st2 j = Ok (jnf E v').
Proof.
  intros GE addr n st v Hs Ha Hd.
  destruct (jpacks E GE addr v (Some addr) n st Hd Hs Ha (or_intror eq_refl))
    as (st' & w & tr & v' & P & B & _ & R & A & _ & U).
  exists st', w, tr, v'. repeat split; auto. intros srv2 st2 Hf.
  rewrite (U srv2 st2 VProxy); [rewrite subst_id; reflexivity|].
  intros p I. apply home_foreign. apply Hf. exact I.
Qed.

(** ** Values in normal form *)
Lemma put_new d s v : ~ In (VStr s) (map fst d) -> put d s v = d ++ [(VStr s, v)].
Proof. intro H. rewrite <- kset_put. apply kset_new. exact H. Qed.
Lemma jnf_normal E v : in_jnf v -> jnf E v = v.
Proof.
  induction v as [|b|z|f|s|s|l IH|l IH|d IH|t|d|d sh data|d n0|d|p|c v IH|o] using pyval_ind'; cbn [in_jnf jnf]; auto; try tauto.
  - intro H. f_equal. induction IH; cbn; [reflexivity|]. destruct H as [H1 H2]. f_equal; auto.
  - intros [H Hnd]. f_equal.
    assert (G : forall acc, (forall k, In k (map fst d) -> ~ In k (map fst acc)) ->
      puts E (map (fun kv => (fst kv, jnf E (snd kv))) d) acc = acc ++ d).
    { induction IH as [|[k v] r [_ Hv] F IHF]; intros acc Ha; [cbn; rewrite app_nil_r; reflexivity|].
      destruct H as [[[s Hk] H1] H2]. cbn [fst snd] in *. subst k. inversion Hnd; subst.
      cbn [map puts fold_left fst snd]. rewrite (Hv H1).
      change (key_or_empty (float_repr E) (VStr s)) with s. rewrite put_new by (apply Ha; left; reflexivity).
      fold (puts E (map (fun kv => (fst kv, jnf E (snd kv))) r) (acc ++ [(VStr s, v)])).
      rewrite IHF; auto; [rewrite <- app_assoc; reflexivity|].
      intros k I C. rewrite map_app, in_app_iff in C. cbn in C. destruct C as [C|[C|[]]].
      - apply (Ha k); [right; exact I|exact C].
      - subst. contradiction. }
    apply (G []). intros k _ [].
  - destruct n0; auto. intros ->. reflexivity.
Qed.

(** ** Coming home through JSON *)
Lemma subst_jnf_same E h v : jsendable E v ->
  (forall p, In p (proxies v) -> h p = VProxy p) -> subst h (jnf E v) = jnf E v.
Proof.
  induction v as [|b|z|f|s|s|l IH|l IH|d IH|t|d|d sh data|d n0|d|p|c v IH|o] using pyval_ind'; intros Hs Hp; try reflexivity.
  - cbn [jnf subst]. f_equal. induction IH; [reflexivity|]. cbn [map]. cbn [proxies flat_map] in *. destruct Hs as [Hs1 Hs2].
    rewrite H, IHIH; auto; intros; apply Hp; apply in_or_app; auto.
  - cbn [jnf subst]. f_equal. induction IH; [reflexivity|]. cbn [map]. cbn [proxies flat_map] in *. destruct Hs as [Hs1 Hs2].
    rewrite H, IHIH; auto; intros; apply Hp; apply in_or_app; auto.
  - cbn [jnf subst]. f_equal. fold (puts E (map (fun kv => (fst kv, jnf E (snd kv))) d) []).
    change (map (fun kv => (fst kv, subst h (snd kv)))) with (map (msub h)). rewrite puts_msub. f_equal.
    induction IH as [|[k v] r [_ Hv] F IHF]; [reflexivity|]. destruct Hs as [[_ Hs1] Hs2].
    cbn [map fst snd] in *. cbn [proxies flat_map snd] in Hp.
    unfold msub at 1. cbn [fst snd]. rewrite Hv, IHF; auto; intros; apply Hp; apply in_or_app; auto.
  - cbn [jnf]. destruct n0; try reflexivity. destruct (String.eqb _ _); reflexivity.
  - apply Hp. left. reflexivity.
  - cbn [jnf]. cbn [jsendable] in Hs. destruct v; try destruct Hs; reflexivity.
Qed.

Lemma All_snd_only {A B} (P : A -> Prop) (Q : B -> Prop) (d : list (A * B)) :
  All (fun kv => P (fst kv) /\ Q (snd kv)) d -> All Q (map snd d).
Proof. intro H. apply All_snd in H. apply H. Qed.

Lemma arrives_home_json E addr h :
  (forall v tr v', arrives E addr v tr v' -> jsendable E v ->
     (forall o oid rid, In (GetProxy o true, OProxy oid rid) tr -> h (mkP addr oid rid (type_str E (VObj o)) []) = VObj o) ->
     (forall p, In p (proxies v) -> h p = VProxy p) -> subst h (jnf E v') = jnf E v) /\
  (forall l tr l', arrive_all E addr l tr l' -> All (jsendable E) l ->
     (forall o oid rid, In (GetProxy o true, OProxy oid rid) tr -> h (mkP addr oid rid (type_str E (VObj o)) []) = VObj o) ->
     (forall p, In p (flat_map proxies l) -> h p = VProxy p) -> map (fun v => subst h (jnf E v)) l' = map (jnf E) l).
Proof.
  apply arrives_mutind.
  - intros v _ Hs _ Hp. apply subst_jnf_same; assumption.
  - intros o oid rid _ _ Hh _. cbn [jnf subst]. apply Hh. left. reflexivity.
  - intros l tr l' _ IH Hs Hh Hp. cbn [jnf subst]. rewrite map_map. f_equal. apply IH; assumption.
  - intros l tr l' _ IH Hs Hh Hp. cbn [jnf subst]. rewrite map_map. f_equal. apply IH; assumption.
  - intros d tr d' Hk _ IH Hs Hh Hp. cbn [jnf subst]. f_equal.
    fold (puts E (map (fun kv => (fst kv, jnf E (snd kv))) d') []).
    fold (puts E (map (fun kv => (fst kv, jnf E (snd kv))) d) []).
    change (map (fun kv => (fst kv, subst h (snd kv)))) with (map (msub h)). rewrite puts_msub. f_equal.
    apply pairs_eq; rewrite !map_map; cbn [msub fst snd]; [exact Hk|].
    rewrite <- (map_map snd (fun v => subst h (jnf E v))), <- (map_map snd (jnf E)).
    apply IH; [exact (All_snd_only (fun k => exists s, json_str (float_repr E) k = Some s /\ s <> "___type_name___") (jsendable E) d Hs)|exact Hh|].
    intros p I. apply Hp. cbn. rewrite flat_map_snd. exact I.
  - reflexivity.
  - intros v t v' l tr l' _ IH1 _ IH2 [Hs1 Hs2] Hh Hp. cbn [map]. rewrite IH1, IH2; auto.
    + intros. apply Hh. apply in_or_app. auto.
    + intros. apply Hp. cbn. apply in_or_app. auto.
    + intros. apply Hh. apply in_or_app. auto.
    + intros. apply Hp. cbn. apply in_or_app. auto.
Qed.

Lemma arrives_jsendable E addr :
  (forall v tr v', arrives E addr v tr v' -> jsendable E v -> jsendable E v' /\ objs E v' = []) /\
  (forall l tr l', arrive_all E addr l tr l' -> All (jsendable E) l -> All (jsendable E) l' /\ flat_map (objs E) l' = []).
Proof.
  apply arrives_mutind; intros; auto; try (cbn; tauto).
  - cbn [jsendable objs] in *. rewrite flat_map_snd.
    pose proof (All_snd (fun k => exists s, json_str (float_repr E) k = Some s /\ s <> "___type_name___") (jsendable E)) as G.
    rewrite G in *. rewrite H. destruct H2 as [Hk Hv]. destruct (H1 Hv) as [H3 H4]. auto.
  - destruct H3 as [Ha Hb]. destruct (H0 Ha) as [S1 O1], (H2 Hb) as [S2 O2]. cbn. rewrite O1, O2. auto.
Qed.

Lemma arrives_jdepth E addr :
  (forall v tr v', arrives E addr v tr v' -> (jdepth E v' <= jdepth E v)%nat) /\
  (forall l tr l', arrive_all E addr l tr l' -> (lmax (map (jdepth E) l') <= lmax (map (jdepth E) l))%nat).
Proof.
  apply arrives_mutind; intros; cbn [jdepth]; auto; try lia.
  - assert (G : forall d : list (pyval * pyval), map (fun kv => jdepth E (snd kv)) d = map (jdepth E) (map snd d)) by (intro; rewrite map_map; reflexivity).
    rewrite !G. lia.
  - cbn [map]. unfold lmax in *. cbn [fold_right]. lia.
Qed.

Lemma json_home E : good_env E -> forall addr v tr v' n,
  jsendable E v -> (jdepth E v <= n)%nat -> arrives E addr v tr v' ->
  (forall p, In p (proxies v) -> p_addr p <> addr) ->
  forall srvc stc st2 tr2, history (ss_o st2) tr2 ->
  (forall o, dget (ss_boxes st2) o = None) ->
  (forall o oid rid, In (GetProxy o true, OProxy oid rid) tr -> outstanding tr2 oid rid o) ->
  exists j, jdumps E n srvc stc v' = (stc, Ok j) /\ jloads E (Some addr) st2 j = Ok (jnf E v).
Proof.
  intros GE addr v tr v' n Hs Hd A Hf srvc stc st2 tr2 Hh Hb Ho.
  destruct (proj1 (arrives_jsendable E addr) _ _ _ A Hs) as [Hs' Ho'].
  pose proof (proj1 (arrives_jdepth E addr) _ _ _ A) as Hd'.
  assert (Hd2 : (jdepth E v' <= n)%nat) by lia.
  destruct (jpacks E GE addr v' srvc n stc Hd2 Hs' (alive_none _ _ _ Ho') (or_introl Ho'))
    as (st' & w & tr' & v'' & P & _ & _ & _ & A' & S & U).
  rewrite (S Ho') in P. destruct (proj1 (arrives_same E addr) _ _ _ A' Ho') as [-> _].
  exists w. split; [exact P|].
  destruct (homes E addr v tr v' A Hf st2 tr2 Hh Hb Ho) as (h & H1 & H2 & H3).
  rewrite (U (Some addr) st2 h H1). f_equal. apply (proj1 (arrives_home_json E addr _) _ _ _ A); assumption.
Qed.

Lemma jno_server_list E n st l (GE : good_env E) :
  Forall (fun v => jsendable E v -> objs E v <> [] -> forall n st, (jdepth E v <= n)%nat ->
                   jdumps E n None st v = (st, Err TypeError)) l ->
  All (jsendable E) l -> flat_map (objs E) l <> [] -> (lmax (map (jdepth E) l) <= n)%nat ->
  j_list (jdumps E n None) st l = (st, Err TypeError).
Proof.
  induction 1 as [|v l Hv F IH]; intros Hs Ho Hd; [contradiction|].
  destruct Hs as [Hs1 Hs2]. cbn [flat_map] in Ho. cbn [map] in Hd. unfold lmax in Hd. cbn [fold_right] in Hd.
  fold (lmax (map (jdepth E) l)) in Hd. cbn [j_list].
  destruct (objs E v) as [|o os] eqn:Eo.
  - destruct (json_roundtrip E GE None n st v Hs1 Eo) as (w & P & _); [lia|]. rewrite P, IH; auto. lia.
  - rewrite Hv; auto; [congruence|lia].
Qed.
Lemma jno_server_dict E n st d (GE : good_env E) :
  Forall (fun kv => jsendable E (snd kv) -> objs E (snd kv) <> [] -> forall n st, (jdepth E (snd kv) <= n)%nat ->
                   jdumps E n None st (snd kv) = (st, Err TypeError)) d ->
  All (fun kv => (exists s, json_str (float_repr E) (fst kv) = Some s /\ s <> "___type_name___") /\ jsendable E (snd kv)) d ->
  flat_map (fun kv => objs E (snd kv)) d <> [] -> (lmax (map (fun kv => jdepth E (snd kv)) d) <= n)%nat ->
  j_pairs E (jdumps E n None) st d = (st, Err TypeError).
Proof.
  induction 1 as [|[k v] d Hv F IH]; intros Hs Ho Hd; [contradiction|].
  destruct Hs as [[(s & Hk & _) Hs1] Hs2]. cbn [flat_map fst snd] in *. cbn [map] in Hd. unfold lmax in Hd. cbn [fold_right snd] in Hd.
  fold (lmax (map (fun kv => jdepth E (snd kv)) d)) in Hd. cbn [j_pairs].
  rewrite (json_key_str E k s Hk).
  destruct (objs E v) as [|o os] eqn:Eo.
  - destruct (json_roundtrip E GE None n st v Hs1 Eo) as (w & P & _); [lia|]. rewrite P, IH; auto. lia.
  - rewrite Hv; auto; [congruence|lia].
Qed.
Lemma jno_server E (GE : good_env E) v : jsendable E v -> objs E v <> [] -> forall n st, (jdepth E v <= n)%nat ->
  jdumps E n None st v = (st, Err TypeError).
Proof.
  induction v as [|b|z|f|s|s|l IH|l IH|d IH|t|d|d sh data|d n0|d|p|c v IH|o] using pyval_ind';
    intros Hs Ho n st Hd; try (exfalso; apply Ho; reflexivity); cbn [jdepth] in Hd.
  - destruct n; [lia|]. rewrite jdumps_S. cbn [j_native base_of].
    rewrite (jno_server_list E n st l GE IH Hs Ho) by lia. reflexivity.
  - destruct n; [lia|]. rewrite jdumps_S. cbn [j_native base_of].
    rewrite (jno_server_list E n st l GE IH Hs Ho) by lia. reflexivity.
  - destruct n; [lia|]. rewrite jdumps_S. cbn [j_native base_of].
    rewrite (jno_server_dict E n st d GE); [reflexivity| | exact Hs | exact Ho | lia].
    eapply Forall_impl; [|exact IH]. intros [k v] [_ Hv]. exact Hv.
  - cbn [objs] in Ho. destruct (ser_ok E (VObj o)) eqn:Hok; [contradiction|].
    destruct n; [lia|]. rewrite jdumps_S. cbn [j_native base_of]. unfold jencode, encode. cbn [base_of]. rewrite Hok. reflexivity.
Qed.
