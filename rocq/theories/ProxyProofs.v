From Verif Require Import Py ObjTableModel SerModel SerSpec FrameModel ServerModel ClientModel WireSpec ApiModel ApiSpec ApiProofs ApiProofs2 ProxyModel ProxySpec.

Lemma dset_present (d : dict string pyval) k v : In k (dkeys d) -> dkeys (dset d k v) = dkeys d.
Proof.
  induction d as [|[a b] d IH]; cbn; [easy|]. destruct (String.eqb_spec k a) as [->|N]; cbn.
  - easy.
  - intros [E|H]; [congruence|]. f_equal. auto.
Qed.
Lemma update_keys kw : forall d, (forall k, In k (map fst kw) -> In k (dkeys d)) -> dkeys (update d kw) = dkeys d.
Proof.
  induction kw as [|[k v] kw IH]; cbn [update map fst]; intros d H; [easy|].
  rewrite IH.
  - apply dset_present, H. now left.
  - intros x Hx. rewrite dset_present; [|apply H; now left]. apply H. now right.
Qed.
Lemma given_none kw k : ~ In k (map fst kw) -> given kw k = None.
Proof.
  induction kw as [|[a b] kw IH]; cbn; [easy|]. intros H. destruct (String.eqb_spec a k); [exfalso; auto|]. auto.
Qed.
Lemma update_get kw : forall d k, NoDup (map fst kw) ->
  dget (update d kw) k = match given kw k with Some v => Some v | None => dget d k end.
Proof.
  induction kw as [|[a v] kw IH]; cbn [update map fst given]; intros d k ND; [easy|]. inversion ND; subst.
  rewrite IH by auto. destruct (String.eqb_spec a k) as [->|N].
  - rewrite given_none by auto. apply dget_dset_same.
  - destruct (given kw k); auto. now apply dget_dset_other.
Qed.
Lemma existsb_all (d : dict string pyval) (kw : list (string * pyval)) : existsb (fun e => negb (dmem d (fst e))) kw = false <->
  forall k : string, In k (map fst kw) -> In k (dkeys d).
Proof.
  split.
  - intros E k Hk. apply in_map_iff in Hk. destruct Hk as ([a b] & <- & Hi).
    destruct (dget d a) as [v|] eqn:G; [eapply dget_Some_key; eauto|].
    enough (existsb (fun e => negb (dmem d (fst e))) kw = true) by congruence.
    apply existsb_exists. exists (a, b). split; auto. unfold dmem. cbn. now rewrite G.
  - intros H. destruct (existsb _ kw) eqn:E; auto. apply existsb_exists in E. destruct E as ([a b] & Hi & Ha).
    assert (In a (dkeys d)) as Hk by (apply H; apply in_map_iff; now exists (a, b)).
    apply dkey_dget in Hk. destruct Hk as [v G]. unfold dmem in Ha. cbn in Ha. now rewrite G in Ha.
Qed.

Definition well (p : px) : Prop := dkeys (x_opts p) = option_names.

Lemma set_unknown p kw : well p -> (exists k, In k (map fst kw) /\ ~ In k option_names) ->
  set_options p kw = (p, Err KeyError).
Proof.
  intros W (k & Hk & Hn). unfold set_options. destruct (existsb _ kw) eqn:E; auto.
  rewrite existsb_all in E. specialize (E _ Hk). rewrite W in E. easy.
Qed.
Lemma set_known p kw : well p -> NoDup (map fst kw) -> (forall k, In k (map fst kw) -> In k option_names) ->
  exists p', set_options p kw = (p', Ok tt) /\ well p' /\ x_rec p' = x_rec p /\ x_parent p' = x_parent p /\
    forall k, opt p' k = or_else (given kw k) (opt p k).
Proof.
  intros W ND H. unfold set_options.
  assert (E : existsb (fun e => negb (dmem (x_opts p) (fst e))) kw = false) by (apply existsb_all; now rewrite W).
  rewrite E. eexists. split; [reflexivity|]. destruct p as [r o q]. cbn [x_opts x_rec x_parent] in *. repeat split; auto.
  - unfold well in *. cbn [x_opts] in *. rewrite update_keys; auto. intros k Hk. rewrite W. auto.
  - intros k. unfold opt. cbn. rewrite update_get by auto. now destruct (given kw k).
Qed.
Lemma set_ok p kw p' : well p -> set_options p kw = (p', Ok tt) -> forall k, In k (map fst kw) -> In k option_names.
Proof.
  intros W. unfold set_options. destruct (existsb _ kw) eqn:E; [easy|]. intros _. rewrite existsb_all, W in E. auto.
Qed.

Lemma default_well r q : well (Px r default_options q).
Proof. reflexivity. Qed.

Lemma given_dget (d : dict string pyval) k : given d k = dget d k.
Proof.
  induction d as [|[a b] d IH]; cbn; auto. destruct (String.eqb_spec k a) as [->|N].
  - now rewrite String.eqb_refl.
  - destruct (String.eqb_spec a k); [congruence|auto].
Qed.
Lemma names_nodup : NoDup option_names.
Proof. repeat (constructor; [cbn; intuition discriminate|]). constructor. Qed.

Lemma make_inherits r d : dkeys d = option_names ->
  exists p, make r d = Ok p /\ well p /\ x_rec p = r /\ x_parent p = None /\ forall k, opt p k = opt (Px r d None) k.
Proof.
  intros K. unfold make.
  destruct (set_known (Px r default_options None) d (default_well _ _)) as (p & E & W & R & P & O).
  - change (map fst d) with (dkeys d). rewrite K. exact names_nodup.
  - change (map fst d) with (dkeys d). now rewrite K.
  - rewrite E. cbn. exists p. repeat split; auto. intros k. rewrite O, given_dget. unfold opt. cbn [x_opts].
    destruct (dget d k) eqn:G; auto. cbn [or_else].
    assert (N : ~ In k option_names) by (rewrite <- K; now apply dget_None).
    change option_names with (dkeys default_options) in N. apply dget_None in N. now rewrite N.
Qed.

Lemma deferred_ok p a kw : well p -> NoDup (map fst kw) -> (forall k, In k (map fst kw) -> In k option_names) ->
  exists q, deferred p a kw = Ok q /\ well q /\ x_rec q = deferred_attr (x_rec p) a /\ x_parent q = Some p /\
    forall k, opt q k = or_else (given kw k) (opt p k).
Proof.
  intros W ND H. unfold deferred.
  destruct (make_inherits (deferred_attr (x_rec p) a) (update (x_opts p) kw)) as (q & E & Wq & R & P & O).
  - rewrite update_keys; auto. now rewrite W.
  - rewrite E. cbn. eexists. split; [reflexivity|]. destruct q as [r o par]. cbn in *. subst. repeat split; auto.
    intros k. specialize (O k). unfold opt in *. cbn in *. rewrite O, update_get by auto. now destruct (given kw k).
Qed.
Lemma deferred_unknown p a kw : well p -> (exists k, In k (map fst kw) /\ ~ In k option_names) -> NoDup (map fst kw) ->
  deferred p a kw = Err KeyError.
Proof.
  intros W (k & Hk & Hn) ND. unfold deferred, make. rewrite set_unknown; [reflexivity|apply default_well|].
  exists k. split; auto. change (map fst (update (x_opts p) kw)) with (dkeys (update (x_opts p) kw)).
  assert (G : exists v, dget (update (x_opts p) kw) k = Some v).
  { rewrite update_get by auto. destruct (given kw k) eqn:G; eauto. exfalso. clear -Hk G.
    induction kw as [|[a b] kw IH]; cbn in *; [easy|]. destruct (String.eqb_spec a k); [easy|]. destruct Hk; [congruence|auto]. }
  destruct G as [v G]. eapply dget_Some_key; eauto.
Qed.

Lemma made_well p : made p -> well p.
Proof.
  induction 1 as [r kw p A ND M|p kw p' Mp W ND S|p a kw q Mp W ND D].
  - unfold make in M.
    assert (K : forall k, In k (map fst kw) -> In k option_names).
    { destruct (set_options (Px r default_options None) kw) as [p1 o] eqn:S. cbn in M. destruct o as [[]|]; [|easy].
      eapply set_ok; eauto. apply default_well. }
    destruct (set_known (Px r default_options None) kw (default_well _ _) ND K) as (p1 & E & W & _).
    rewrite E in M. cbn in M. now injection M as <-.
  - destruct (set_known p kw W ND (set_ok _ _ _ W S)) as (p1 & E & W1 & _). rewrite E in S. now injection S as <-.
  - destruct (existsb (fun k => negb (existsb (String.eqb k) option_names)) (map fst kw)) eqn:X.
    + rewrite deferred_unknown in D; auto; [easy|]. apply existsb_exists in X. destruct X as (k & Hk & N). exists k. split; auto.
      intros C. apply negb_true_iff in N. enough (existsb (String.eqb k) option_names = true) by congruence.
      apply existsb_exists. exists k. split; auto. apply String.eqb_refl.
    + destruct (deferred_ok p a kw W ND) as (q1 & E & W1 & _).
      * intros k Hk. destruct (existsb (String.eqb k) option_names) eqn:Y.
        -- apply existsb_exists in Y. destruct Y as (k' & H & Ek). apply String.eqb_eq in Ek. now subst.
        -- exfalso. enough (existsb (fun k => negb (existsb (String.eqb k) option_names)) (map fst kw) = true) by congruence.
           apply existsb_exists. exists k. now rewrite Y.
      * rewrite E in D. now injection D as <-.
Qed.

(** *** calls *)
Lemma kwpop_value kw k d : fst (kwpop kw k d) = or_else (given kw k) d.
Proof.
  induction kw as [|[a b] kw IH]; cbn; auto. destruct (String.eqb_spec a k); auto.
  destruct (kwpop kw k d). auto.
Qed.
Lemma kwpop_rest kw k d : NoDup (map fst kw) -> snd (kwpop kw k d) = filter (fun e => negb (String.eqb (fst e) k)) kw.
Proof.
  induction kw as [|[a b] kw IH]; cbn; auto. intros ND. inversion ND; subst. destruct (String.eqb_spec a k) as [->|N]; cbn.
  - clear - H1. induction kw as [|[c e] kw IH]; cbn in *; auto. destruct (String.eqb_spec c k); [exfalso; auto|]. cbn. f_equal. auto.
  - destruct (kwpop kw k d) eqn:E. cbn in *. f_equal. auto.
Qed.
Lemma nodup_filter f (kw : list (string * pyval)) : NoDup (map fst kw) -> NoDup (map fst (filter f kw)).
Proof.
  induction kw as [|[a b] kw IH]; cbn; auto. intros ND. inversion ND; subst. destruct (f (a, b)); cbn; auto.
  constructor; auto. intros C. apply H1. apply in_map_iff in C. destruct C as (e & <- & He). apply filter_In in He.
  apply in_map_iff. exists e. tauto.
Qed.
Lemma given_filter (f : string -> bool) kw k : f k = true -> given (filter (fun e => f (fst e)) kw) k = given kw k.
Proof.
  induction kw as [|[a b] kw IH]; cbn; auto. intros H. destruct (f a) eqn:Fa; cbn.
  - destruct (String.eqb a k); auto.
  - destruct (String.eqb_spec a k); [congruence|auto].
Qed.

Theorem call_sends p args kw : NoDup (map fst kw) ->
  call p args kw = mkSending (rq_proxy_call (x_rec p) args (filter (fun e => negb (call_option (fst e))) kw))
    (or_else (given kw "_sync") (opt p "sync")) (or_else (given kw "_return_type") (opt p "return_type"))
    (or_else (given kw "_timeout") (opt p "timeout")).
Proof.
  intros ND. unfold call.
  pose proof (kwpop_value kw "_sync" (opt p "sync")) as V1. pose proof (kwpop_rest kw "_sync" (opt p "sync") ND) as R1.
  destruct (kwpop kw "_sync" (opt p "sync")) as [v1 kw1]. cbn in V1, R1.
  assert (N1 : NoDup (map fst kw1)) by (subst; now apply nodup_filter).
  pose proof (kwpop_value kw1 "_return_type" (opt p "return_type")) as V2. pose proof (kwpop_rest kw1 "_return_type" (opt p "return_type") N1) as R2.
  destruct (kwpop kw1 "_return_type" (opt p "return_type")) as [v2 kw2]. cbn in V2, R2.
  assert (N2 : NoDup (map fst kw2)) by (subst kw2; now apply nodup_filter).
  pose proof (kwpop_value kw2 "_timeout" (opt p "timeout")) as V3. pose proof (kwpop_rest kw2 "_timeout" (opt p "timeout") N2) as R3.
  destruct (kwpop kw2 "_timeout" (opt p "timeout")) as [v3 kw3]. cbn in V3, R3.
  rewrite V1, V2, V3, R3, R2, R1.
  rewrite !(given_filter (fun s => negb (String.eqb s "_sync"))), !(given_filter (fun s => negb (String.eqb s "_return_type"))) by reflexivity.
  rewrite !(given_filter (fun s => negb (String.eqb s "_sync"))) by reflexivity.
  do 2 f_equal. clear. induction kw as [|[a b] kw IH]; cbn; auto.
  unfold call_option. destruct (String.eqb_spec a "_sync") as [->|]; cbn; auto.
  destruct (String.eqb_spec a "_return_type") as [->|]; cbn; auto.
  destruct (String.eqb_spec a "_timeout") as [->|]; cbn; auto. f_equal. auto.
Qed.

(** *** operators *)
Lemma special_same m a : assoc special m = Some a -> m <> "__rxor__" -> a = m.
Proof.
  unfold special. cbn [assoc]. intros H N.
  repeat match type of H with
  | (if String.eqb ?x m then _ else _) = _ => destruct (String.eqb_spec x m) as [?|_]; [injection H as <-; congruence|]
  end. discriminate H.
Qed.

Lemma getattrs_app E l1 l2 : forall v, getattrs E v (l1 ++ l2) = bind (getattrs E v l1) (fun w => getattrs E w l2).
Proof. induction l1 as [|a l1 IH]; intros v; cbn; auto. destruct (getattr_of E v a); cbn; auto. Qed.
Lemma unwrap_deferred E st p a v : unwrap_proxy E st p = Ok v -> unwrap_proxy E st (deferred_attr p a) = getattr_of E v a.
Proof.
  unfold unwrap_proxy. cbn. destruct (lookup_oid _ (p_oid p) _) as [o|]; cbn; [|easy].
  rewrite getattrs_app. intros ->. cbn. now destruct (getattr_of E v a).
Qed.

Lemma operators_special m : In m operators -> assoc special m <> None.
Proof.
  intros H. repeat (destruct H as [<-|H]; [discriminate|]). destruct H.
Qed.
Lemma operate_sends p m args : made p -> assoc special m <> None -> m <> "__rxor__" ->
  operate p m args = Some (Ok (mkSending (rq_proxy_call (deferred_attr (x_rec p) m) args []) (opt p "sync") (opt p "return_type") (opt p "timeout"))).
Proof.
  intros M A N. unfold operate. destruct (assoc special m) as [a|] eqn:E; [|easy].
  assert (a = m) as -> by (eapply special_same; eauto).
  destruct (deferred_ok p m [] (made_well _ M)) as (q & D & W & R & P & O); [constructor|easy|].
  rewrite D. cbn [bind]. rewrite call_sends by constructor. rewrite R. cbn [given or_else filter].
  rewrite !O. reflexivity.
Qed.

Section Op.
  Variable V : venv.
  Hypothesis GV : good_venv V.

  Lemma send_shape k a o rt sy k' mm r : send V k a o rt sy = (k', Some mm, r) ->
    m_rt mm = rt /\ (sy = Off -> r = Ok None /\ m_req mm = -1) /\ (sy = Sync \/ sy = Async -> r = Ok (Some (m_req mm)) /\ m_req mm = c_next k).
  Proof.
    unfold send. destruct (c_disc k); [discriminate|]. intros H.
    destruct sy; cbn iota beta in H; (destruct o as [v|]; [destruct (dumps V _ _ _ v) as [st [q|e]]|]); cbn in H; try discriminate;
      (destruct (c_open k); [|discriminate]); inversion H; subst; cbn;
      (split; [reflexivity|]); split; intros E; try discriminate E; try (destruct E as [E|E]; discriminate E); auto.
  Qed.
  Lemma operator_runs k p m args s c h sm rt v f :
    made p -> In m operators -> m <> "__rxor__" ->
    c_disc k = false -> c_open k = true -> ve_utf8 V c = true -> smem (c_ser k) (sv_sers s) = true ->
    opt p "return_type" = VStr rt -> opt p "sync" = VStr sm -> In sm ["sync"; "async"; "off"] ->
    let opts := fields [("obj", VProxy (attribute (x_rec p) m)); ("args", VTuple args); ("kwargs", fields [])] in
    objs (ve_ser V) opts = [] -> supported V (c_ser k) opts ->
    p_addr (x_rec p) = sv_addr s -> resolves (ve_ser V) (sv_st s) (x_rec p) v -> getattr_of (ve_ser V) v m = Ok f ->
    stands_for V s (proxies opts) h ->
    exists x k' mm r, operate p m args = Some (Ok x) /\ send_as V k x = (k', Some mm, r) /\
      m_rt mm = rt /\ (sm = "off" -> r = Ok None /\ m_req mm = -1) /\ (sm <> "off" -> r = Ok (Some (m_req mm)) /\ m_req mm = c_next k) /\
      exists s', begin_request V s c mm = (s', [], InCall (mkAct c mm) f (map (fun x => subst h (seen V (c_ser k) x)) args) []) /\
        sv_names s' = sv_names s /\ sv_st s' = sv_st s.
  Proof.
    intros Mp A%operators_special N D O U S RT SM SMi opts Ob Su Ad Un%resolves_unwrap Ga SF.
    change (attribute (x_rec p) m) with (deferred_attr (x_rec p) m) in *.
    rewrite operate_sends by auto. eexists.
    set (d := deferred_attr (x_rec p) m) in *.
    assert (Ud : unwrap_proxy (ve_ser V) (sv_st s) d = Ok f) by (unfold d; now rewrite (unwrap_deferred _ _ _ _ v)).
    assert (Hd : h d = f).
    { specialize (SF d). cbn [opts fields map proxies flat_map app] in SF.
      specialize (SF (or_introl eq_refl)). change (p_addr d) with (p_addr (x_rec p)) in SF.
      rewrite Ad, String.eqb_refl in SF. apply resolves_unwrap in SF. congruence. }
    destruct (remote_call V GV k d args [] rt
                (if String.eqb sm "sync" then Sync else if String.eqb sm "async" then Async else Off)
                s c h D O U S (NoDup_nil _) Ob Su SF) as (k' & mm & r & Se & s' & B & Nn & St).
    exists k', mm, r. split; [reflexivity|]. split.
    - unfold send_as. cbn [sn_sync sn_rt sn_req]. rewrite RT, SM.
      destruct SMi as [<-|[<-|[<-|[]]]]; exact Se.
    - destruct (send_shape _ _ _ _ _ _ _ _ Se) as (S1 & S2 & S3). split; [exact S1|]. split; [|split].
      + intros ->. apply S2. reflexivity.
      + intros Ns. apply S3. destruct SMi as [<-|[<-|[<-|[]]]]; [left|right|contradiction]; reflexivity.
      + exists s'. rewrite B, Hd. auto.
  Qed.
End Op.

(** *** attribute access *)
Lemma access_deferred p a : made p -> opt p "defer_getattr" = VBool true ->
  exists q, getattribute p a = GProxy q /\ made q /\ x_rec q = attribute (x_rec p) a /\ forall k, opt q k = opt p k.
Proof.
  intros M D. destruct (deferred_ok p a [] (made_well _ M)) as (q & E & _ & R & _ & O); [constructor|easy|].
  exists q. unfold getattribute. rewrite E, D. split; [reflexivity|]. split; [eapply made_attr; eauto; constructor|]. split; [exact R|].
  intros k. rewrite O. reflexivity.
Qed.
Lemma access_immediate p a : made p -> opt p "defer_getattr" <> VBool true ->
  exists x, getattribute p a = GSend x /\ sn_req x = rq_get (VProxy (attribute (x_rec p) a)) /\
    sn_sync x = VStr "sync" /\ sn_rt x = VStr "auto" /\ sn_timeout x = VInt 10.
Proof.
  intros M D. destruct (deferred_ok p a [] (made_well _ M)) as (q & E & _ & R & _); [constructor|easy|].
  unfold getattribute. rewrite E. destruct (opt p "defer_getattr") as [|[|]| | | | | | | | | | | | | | |]; try congruence;
    eexists; (split; [reflexivity|]); cbn [sn_req sn_sync sn_rt sn_timeout]; rewrite R; auto.
Qed.
Section Access.
  Variable V : venv.
  Hypothesis GV : good_venv V.
  Lemma access_runs k p a s c v : made p -> opt p "defer_getattr" <> VBool true ->
    c_disc k = false -> c_open k = true -> ve_utf8 V c = true -> smem (c_ser k) (sv_sers s) = true -> sv_open s = true ->
    p_addr (x_rec p) = sv_addr s -> resolves (ve_ser V) (sv_st s) (x_rec p) v ->
    exists x k' m rid, getattribute p a = GSend x /\ send_as V k x = (k', Some m, Ok (Some rid)) /\
      exists s' os, begin_request V s c m = (s', os, Finished (getattr_of (ve_ser V) v a) None).
  Proof.
    intros M D Di Op U S So Ad Un%resolves_unwrap. destruct (access_immediate p a M D) as (x & G & Rq & Sy & Rt & _).
    destruct (get_obj_outcome V GV k (attribute (x_rec p) a) "auto" Sync s c Di Op U S So Ad) as (k' & m & r & Se & s' & os & B).
    assert (R : exists rid, r = Ok (Some rid)).
    { revert Se. unfold send. rewrite Di. destruct (rq_opts _); [destruct (dumps _ _ _ _ _) as [? [?|?]]|];
        cbn -[dumps]; repeat match goal with |- context [if ?b then _ else _] => destruct b end; intros [= <- <- <-]; eauto. }
    destruct R as [rid ->]. exists x, k', m, rid. split; [exact G|]. split.
    - unfold send_as. rewrite Sy, Rt, Rq. exact Se.
    - exists s', os. rewrite B. do 2 f_equal. change (attribute (x_rec p) a) with (deferred_attr (x_rec p) a).
      now rewrite (unwrap_deferred _ _ _ _ v).
  Qed.
End Access.

