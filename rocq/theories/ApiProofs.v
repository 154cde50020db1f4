(** What requests do at the server and what comes back to the caller. *)
From Verif Require Import Py ObjTableModel ObjTableSpec ObjTableProofs SerModel SerSpec SerProofs SerProofs2 SerProofsJ
  FrameModel FrameProofs ServerModel ClientModel WireSpec WireProofs ServerProofs ServerProofs2 ClientProofs
  ApiModel ApiSpec RpcModel RpcSpec.

(** ** Attribute chains *)
Lemma follows_getattrs E l : forall v, follows E v l (getattrs E v l).
Proof.
  induction l as [|a l IH]; intro v; [constructor|]. cbn [getattrs]. destruct (getattr_of E v a) as [v'|e] eqn:G; cbn [bind].
  - eapply fo_ok; eauto.
  - apply fo_fail. exact G.
Qed.
Lemma follows_det E v l r : follows E v l r -> r = getattrs E v l.
Proof.
  induction 1 as [v|v a v' l x G F IH|v a l e G]; [reflexivity| |]; cbn [getattrs]; rewrite G; [exact IH|reflexivity].
Qed.
Lemma attr_chain_attrs l : forall p, attr_chain p l = mkP (p_addr p) (p_oid p) (p_rid p) (p_type p) (p_attrs p ++ l).
Proof.
  induction l as [|a l IH]; intro p; [rewrite app_nil_r; destruct p; reflexivity|]. cbn [attr_chain]. rewrite IH.
  cbn [deferred_attr p_addr p_oid p_rid p_type p_attrs]. rewrite <- app_assoc. reflexivity.
Qed.
Lemma chain_meaning E st p l o : lookup_oid (tab (ss_o st)) (p_oid p) (p_rid p) = Ok o -> p_attrs p = [] ->
  follows E (unbox st o) l (unwrap_proxy E st (attr_chain p l)).
Proof.
  intros L A. rewrite attr_chain_attrs, A. unfold unwrap_proxy. cbn [p_oid p_rid p_attrs app]. rewrite L. cbn [bind].
  apply follows_getattrs.
Qed.

(** ** New proxies resolve to the value they were made for *)
Lemma fold_max_ge z0 l x : In x l -> (x <= fold_right Z.max z0 l)%Z.
Proof. induction l as [|y l IH]; cbn; [tauto|]. intros [->|H]; [lia|specialize (IH H); lia]. Qed.
Lemma fresh_unused h : existsb (fun e => Z.eqb (snd e) (fresh_addr h)) (addrs h) = false.
Proof.
  apply not_true_is_false. intro H. apply existsb_exists in H. destruct H as (e & J & E). apply Z.eqb_eq in E.
  assert (snd e <= fold_right Z.max 0 (map snd (addrs h)))%Z by (apply fold_max_ge; apply in_map; exact J).
  unfold fresh_addr in E. lia.
Qed.

Lemma value_at_unbox st o v : value_at st o v <-> unbox st o = v.
Proof.
  unfold value_at, unbox. destruct (dget (ss_boxes st) o) as [w|]; split.
  - intros [[= <-]|[E _]]; [reflexivity|discriminate E].
  - intros <-. left. reflexivity.
  - intros [E|[_ ->]]; [discriminate E|reflexivity].
  - intros <-. right. auto.
Qed.
Lemma resolves_unwrap E st q v : resolves E st q v -> unwrap_proxy E st q = Ok v.
Proof.
  intros (tr & o & w & H & O & W & F). apply value_at_unbox in W. subst w.
  pose proof (outstanding_resolves _ _ _ _ _ H O) as R. unfold ObjTableSpec.outcome, ostep in R. cbn in R.
  unfold unwrap_proxy. destruct (lookup_oid (tab (ss_o st)) (p_oid q) (p_rid q)); [|discriminate]. injection R as ->. cbn [bind].
  symmetry. exact (follows_det _ _ _ _ F).
Qed.

Lemma new_proxy E addr st v tr : history (ss_o st) tr -> proxyable st v ->
  exists st' p tr', proxy_value E addr st v = (st', Ok (VProxy p)) /\
    history (ss_o st') (tr ++ tr') /\ (exists o, outstanding (tr ++ tr') (p_oid p) (p_rid p) o /\ value_at st' o v) /\
    unwrap_proxy E st' p = Ok v /\ p_attrs p = [] /\ p_addr p = addr.
Proof.
  intros H P.
  assert (Res : forall st' o oid rid tr', history (ss_o st') tr' -> outstanding tr' oid rid o ->
            lookup_oid (tab (ss_o st')) oid rid = Ok o).
  { intros st' o oid rid tr' H' Ou. pose proof (outstanding_resolves _ _ _ _ _ H' Ou) as R. unfold outcome, ostep in R. cbn in R.
    destruct (lookup_oid (tab (ss_o st')) oid rid); [congruence|discriminate]. }
  assert (Ob : forall o, v = VObj o -> exists st' p tr', proxy_value E addr st v = (st', Ok (VProxy p)) /\
    history (ss_o st') (tr ++ tr') /\ (exists o, outstanding (tr ++ tr') (p_oid p) (p_rid p) o /\ value_at st' o v) /\
    unwrap_proxy E st' p = Ok v /\ p_attrs p = [] /\ p_addr p = addr).
  { intros o ->. destruct P as [P B]. destruct (proxy_value_obj E addr st o P) as (st' & oid & rid & Pv & Bx & _ & St).
    destruct (made_are_outstanding (ss_o st) tr [(GetProxy o true, OProxy oid rid)] (ss_o st') H) as [H' Ou].
    { cbn [map fst orun]. rewrite St. reflexivity. }
    { intros e [<-|[]]. exists o. reflexivity. }
    assert (Ou' : outstanding (tr ++ [(GetProxy o true, OProxy oid rid)]) oid rid o) by (apply Ou; cbn; auto).
    exists st', (mkP addr oid rid (type_str E (VObj o)) []), [(GetProxy o true, OProxy oid rid)].
    split; [exact Pv|]. split; [exact H'|]. split; [exists o; split; [exact Ou'|]; right; rewrite Bx; auto|]. split; [|auto].
    unfold unwrap_proxy. cbn [p_oid p_rid p_attrs]. rewrite (Res _ _ _ _ _ H' Ou'). cbn [bind getattrs]. unfold unbox. rewrite Bx, B. reflexivity. }
  assert (Pl : (forall o, v <> VObj o) -> exists st' p tr', proxy_value E addr st v = (st', Ok (VProxy p)) /\
    history (ss_o st') (tr ++ tr') /\ (exists o, outstanding (tr ++ tr') (p_oid p) (p_rid p) o /\ value_at st' o v) /\
    unwrap_proxy E st' p = Ok v /\ p_attrs p = [] /\ p_addr p = addr).
  { intro N. set (h := hp (ss_o st)). set (o := fresh_obj h). set (h' := mkH (dset (addrs h) o (fresh_addr h)) (S o)).
    set (s1 := mkS (tab (ss_o st)) h').
    assert (S1 : ostep (ss_o st) (Alloc (fresh_addr h)) = (s1, OAlloc o)).
    { cbn [ostep]. fold h. rewrite fresh_unused. reflexivity. }
    assert (H1 : history s1 (tr ++ [(Alloc (fresh_addr h), OAlloc o)])).
    { eapply (history_extend (ss_o st) tr [Alloc (fresh_addr h)]); [exact H|]. cbn [orun]. rewrite S1. reflexivity. }
    assert (D : dmem (addrs h') o = true).
    { unfold dmem, h'. cbn [addrs]. rewrite dget_dset_same. reflexivity. }
    destruct (proxy_value_obj E addr (mkSst s1 (dset (ss_boxes st) o v)) o D) as (st' & oid & rid & Pv & Bx & Hh & St).
    destruct (made_are_outstanding s1 _ [(GetProxy o true, OProxy oid rid)] (ss_o st') H1) as [H2 Ou].
    { cbn [map fst orun ss_o] in *. rewrite St. reflexivity. }
    { intros e [<-|[]]. exists o. reflexivity. }
    rewrite <- app_assoc in H2, Ou.
    assert (Ou' : outstanding (tr ++ [(Alloc (fresh_addr h), OAlloc o)] ++ [(GetProxy o true, OProxy oid rid)]) oid rid o) by (apply Ou; cbn; auto).
    exists st', (mkP addr oid rid (type_str E v) []), ([(Alloc (fresh_addr h), OAlloc o)] ++ [(GetProxy o true, OProxy oid rid)]).
    split.
    { unfold proxy_value in Pv |- *. cbn [ss_o ss_boxes hp tab s1] in Pv.
      destruct v; try (exfalso; eapply N; reflexivity); fold h; fold o; fold h';
        destruct (get_proxy (id_in h') true (tab (ss_o st)) o) as [t' [[oid' rid']|e]]; try discriminate Pv;
        injection Pv as <- <- <-; reflexivity. }
    split; [exact H2|]. split; [exists o; split; [exact Ou'|]; left; rewrite Bx; cbn [ss_boxes]; apply dget_dset_same|]. split; [|auto].
    unfold unwrap_proxy. cbn [p_oid p_rid p_attrs]. rewrite (Res _ _ _ _ _ H2 Ou'). cbn [bind getattrs]. unfold unbox. rewrite Bx.
    cbn [ss_boxes]. rewrite dget_dset_same. reflexivity. }
  destruct v; try (apply Pl; discriminate). eapply Ob. reflexivity.
Qed.

Section Api.
  Variable V : venv.
  Hypothesis GV : good_venv V.
  Let E := ve_ser V.
  Let GE : good_env E := gv_ser V GV.

  (** ** What the caller receives *)

  Lemma received k p rid v : loads V (c_ser k) (c_local k) (c_st k) p = Ok (reply rid v VNone) -> waiting k rid ->
    finished (fst (client_recv V k p)) rid (Ok v).
  Proof.
    intros L W. unfold client_recv. rewrite L. rewrite process_reply_ok, W. cbn [fst complete].
    unfold finished. apply dget_dset_same.
  Qed.

  Lemma home_for k ps : foreign k ps -> forall q, In q ps -> home E (c_local k) (c_st k) q = Ok (VProxy q).
  Proof. intros F q I. apply home_foreign. apply F. exact I. Qed.
  Lemma home_at s ps h : stands_for V s ps h -> forall q, In q ps -> home E (Some (sv_addr s)) (sv_st s) q = Ok (h q).
  Proof.
    intros F q I. specialize (F q I). unfold home. destruct (String.eqb (p_addr q) (sv_addr s)); [exact (resolves_unwrap _ _ _ _ F)|congruence].
  Qed.

  Definition not_proxied (rt : string) (v : pyval) : Prop :=
    rt <> "proxy" /\ (rt = "auto" -> ser_ok E v = true).

  Lemma delivered s a t v : served V s (a_caller a) t -> 0 <= m_req (a_msg a) -> m_action (a_msg a) <> "close" ->
    not_proxied (m_rt (a_msg a)) v -> carried V t v -> alive E (ss_o (sv_st s)) v ->
    exists s' p tr v', finish_request V s a (Ok v) = (s', [Sent (a_caller a) p], None) /\
      arrives E (sv_addr s) v tr v' /\ orun (ss_o (sv_st s)) (map fst tr) = (ss_o (sv_st s'), tr) /\
      ss_boxes (sv_st s') = ss_boxes (sv_st s) /\
      forall k, c_ser k = t -> waiting k (m_req (a_msg a)) -> foreign k (proxies v') ->
        finished (fst (client_recv V k p)) (m_req (a_msg a)) (Ok (seen V t v')).
  Proof.
    intros S Z0 NC [NP Au] C Al.
    destruct (reply_send V GV t (sv_addr s) (Some (sv_addr s)) (sv_st s) (m_req (a_msg a)) v C Al (or_intror eq_refl))
      as (st' & p & tr & v' & D & Bx & _ & Run & Arr & _ & L).
    exists (set_st s st'), p, tr, v'. split.
    - rewrite finish_eq. apply Z.leb_le in Z0. rewrite Z0. cbn [respond].
      assert (Ch : chosen V s (m_rt (a_msg a)) v = (s, Ok v)).
      { unfold chosen. destruct (String.eqb_spec (m_rt (a_msg a)) "auto") as [e|_].
        - unfold auto_proxy. fold E. rewrite (Au e). reflexivity.
        - destruct (String.eqb_spec (m_rt (a_msg a)) "proxy"); [contradiction|reflexivity]. }
      rewrite Ch. destruct (send_result_served V s (a_caller a) t (m_req (a_msg a)) v S) as (st2 & [(p2 & SR & D2)|(e & SR & D2)]);
        rewrite D in D2; [|discriminate]. injection D2 as <- <-. rewrite SR.
      destruct (String.eqb_spec (m_action (a_msg a)) "close"); [contradiction|reflexivity].
    - split; [exact Arr|]. split; [exact Run|]. split; [exact Bx|]. intros k K W F. apply received; [|exact W].
      rewrite K. rewrite (L (c_local k) (c_st k) VProxy); [rewrite subst_id; reflexivity|]. apply home_for. exact F.
  Qed.

  Lemma proxy_carried t px : p_attrs px = [] -> carried V t (VProxy px).
  Proof.
    intro A. unfold carried. pose proof (gv_limit V GV). destruct (String.eqb t "msgpack"); cbn; rewrite ?A; split; auto.
    - repeat constructor.
    - lia.
  Qed.

  Lemma delivered_proxy s a t v tr0 : served V s (a_caller a) t -> 0 <= m_req (a_msg a) -> m_action (a_msg a) <> "close" ->
    (m_rt (a_msg a) = "proxy" \/ m_rt (a_msg a) = "auto" /\ ser_ok E v = false) ->
    history (ss_o (sv_st s)) tr0 -> proxyable (sv_st s) v ->
    exists s' p px tr, finish_request V s a (Ok v) = (s', [Sent (a_caller a) p], None) /\
      p_addr px = sv_addr s /\ sv_addr s' = sv_addr s /\ p_attrs px = [] /\
      history (ss_o (sv_st s')) (tr0 ++ tr) /\ (exists o, outstanding (tr0 ++ tr) (p_oid px) (p_rid px) o /\ value_at (sv_st s') o v) /\
      forall k, c_ser k = t -> waiting k (m_req (a_msg a)) -> c_local k <> Some (sv_addr s) ->
        finished (fst (client_recv V k p)) (m_req (a_msg a)) (Ok (VProxy px)).
  Proof.
    intros S Z0 NC Rt Hi Pr.
    destruct (new_proxy E (sv_addr s) (sv_st s) v tr0 Hi Pr) as (st1 & px & tr & Pv & H1 & Ou & Un & At & Ad).
    assert (Ob : objs E (VProxy px) = []) by reflexivity.
    destruct (reply_send V GV t (sv_addr s) (Some (sv_addr s)) st1 (m_req (a_msg a)) (VProxy px) (proxy_carried t px At) (alive_none _ _ _ Ob) (or_introl Ob))
      as (st' & p & tr2 & v' & D & Bx & _ & Run & Arr & St & L). specialize (St Ob). subst st'.
    destruct (arrives_plain V _ _ _ _ Arr Ob) as [-> ->].
    exists (set_st s st1), p, px, tr. split.
    - rewrite finish_eq. apply Z.leb_le in Z0. rewrite Z0. cbn [respond].
      assert (Ch : chosen V s (m_rt (a_msg a)) v = (set_st s st1, Ok (VProxy px))).
      { assert (MP : make_proxy V s v = (set_st s st1, Ok (VProxy px))) by (unfold make_proxy; fold E; rewrite Pv; reflexivity).
        unfold chosen. destruct Rt as [->|[-> So]]; cbn [String.eqb Ascii.eqb Bool.eqb]; [exact MP|].
        unfold auto_proxy. fold E. rewrite So. exact MP. }
      rewrite Ch. destruct (send_result_served V (set_st s st1) (a_caller a) t (m_req (a_msg a)) (VProxy px) (served_st V _ _ _ _ S))
        as (st2 & [(p2 & SR & D2)|(e & SR & D2)]); cbn [set_st sv_addr sv_st] in D2; rewrite D in D2; [|discriminate]. injection D2 as <- <-. rewrite SR.
      destruct (String.eqb_spec (m_action (a_msg a)) "close"); [contradiction|reflexivity].
    - repeat (apply conj; [solve [auto]|]). intros k K W F. apply received; [|exact W].
      rewrite K. rewrite (L (c_local k) (c_st k) VProxy); [rewrite subst_id; unfold seen; destruct (String.eqb t "msgpack"); reflexivity|].
      apply home_for. intros q [<-|[]]. rewrite Ad. exact F.
  Qed.

  (** ** What a request asks for arrives at the server *)

  Lemma request_arrives k action v rt sync : c_disc k = false -> c_open k = true ->
    supported V (c_ser k) v -> objs E v = [] ->
    exists k' m r, send V k action (Some v) rt sync = (k', Some m, r) /\
      m_action m = action /\ m_rt m = rt /\ m_ser m = c_ser k /\
      forall s h, stands_for V s (proxies v) h -> options V s m = Ok (subst h (seen V (c_ser k) v)).
  Proof.
    intros D O Su Ob.
    assert (G : forall st, exists p, dumps V (c_ser k) (c_local k) st v = (st, Ok p) /\
      (forall srv2 st2 h, (forall q, In q (proxies v) -> home E srv2 st2 q = Ok (h q)) ->
         loads V (c_ser k) srv2 st2 p = Ok (subst h (seen V (c_ser k) v)))).
    { intro st. destruct (wire_send V GV (c_ser k) "" (c_local k) st v Su (alive_none _ _ _ Ob) (or_introl Ob))
        as (st' & p & tr & v' & Du & _ & _ & _ & Arr & St & L). specialize (St Ob). subst st'.
      destruct (arrives_plain V _ _ _ _ Arr Ob) as [-> ->]. eauto. }
    destruct (G (c_st k)) as (p & Du & L).
    assert (NE : forall s req, options V s (mkMsg req action rt (c_ser k) p)
                 = loads V (c_ser k) (Some (sv_addr s)) (sv_st s) p).
    { intros s req. unfold options. cbn [m_opts m_ser]. destruct p; try reflexivity. exfalso. unfold dumps in Du. destruct (String.eqb (c_ser k) "msgpack").
      - destruct (msgpack_dumps _ _ _ _) as [? []]; discriminate Du.
      - destruct (jdumps _ _ _ _ _) as [? []]; discriminate Du. }
    unfold send. rewrite D.
    assert (GO : forall req, forall s h, stands_for V s (proxies v) h ->
              options V s (mkMsg req action rt (c_ser k) p) = Ok (subst h (seen V (c_ser k) v))).
    { intros req s h SF.
      transitivity (loads V (c_ser k) (Some (sv_addr s)) (sv_st s) p); [apply NE|]. apply L. apply home_at. exact SF. }
    destruct sync; cbn [set_next c_ser c_local c_st c_open set_cst]; rewrite Du; cbn [set_cst c_open c_ser set_next]; rewrite O;
      eexists _, _, _; (split; [reflexivity|]); cbn; repeat (split; [reflexivity|]); intros; apply GO; assumption.
  Qed.

  (** how the options of a request look on arrival: a dict with the same keys in
      the same order, for options whose keys are the distinct strings below *)
  Lemma seen_fields1 t a x : seen V t (fields [(a, x)]) = fields [(a, seen V t x)].
  Proof. unfold seen. destruct (String.eqb t "msgpack"); reflexivity. Qed.
  Lemma seen_name_obj t x y : seen V t (fields [("name", x); ("obj", y)]) = fields [("name", seen V t x); ("obj", seen V t y)].
  Proof. unfold seen. destruct (String.eqb t "msgpack"); reflexivity. Qed.
  Lemma seen_call t x y z : seen V t (fields [("obj", x); ("args", y); ("kwargs", z)])
    = fields [("obj", seen V t x); ("args", seen V t y); ("kwargs", seen V t z)].
  Proof. unfold seen. destruct (String.eqb t "msgpack"); reflexivity. Qed.
  Lemma seen_str t x : seen V t (VStr x) = VStr x.
  Proof. unfold seen. destruct (String.eqb t "msgpack"); reflexivity. Qed.
  Lemma seen_none t : seen V t VNone = VNone.
  Proof. unfold seen. destruct (String.eqb t "msgpack"); reflexivity. Qed.
  Lemma seen_proxy t x : seen V t (VProxy x) = VProxy x.
  Proof. unfold seen. destruct (String.eqb t "msgpack"); reflexivity. Qed.
  Lemma seen_args t l : seen V t (VTuple l) = VTuple (map (seen V t) l) \/ seen V t (VTuple l) = VList (map (seen V t) l).
  Proof.
    unfold seen. destruct (String.eqb t "msgpack"); [left|right; reflexivity].
    f_equal. rewrite map_id. reflexivity.
  Qed.

  (** keyword arguments: distinct string keys stay as they are *)
  Lemma put_fresh d k x : ~ In (VStr k) (map fst d) -> put d k x = d ++ [(VStr k, x)].
  Proof.
    induction d as [|[k0 v0] r IH]; intro N; [reflexivity|]. cbn [map fst In] in N.
    assert (R : put r k x = r ++ [(VStr k, x)]) by (apply IH; tauto).
    destruct k0; cbn [put app]; try (f_equal; exact R).
    destruct (String.eqb_spec s k) as [->|Ne]; [exfalso; apply N; auto|]. f_equal. exact R.
  Qed.
  Lemma seen_kw t (kw : list (string * pyval)) : NoDup (map fst kw) ->
    seen V t (fields kw) = fields (map (fun kx => (fst kx, seen V t (snd kx))) kw).
  Proof.
    unfold seen. destruct (String.eqb t "msgpack"); intro N.
    - f_equal. rewrite <- (map_id kw) at 1. apply map_ext. intros [a b]. reflexivity.
    - unfold fields. cbn [jnf]. f_equal.
      assert (G : forall l acc, NoDup (map fst l) -> (forall k, In k (map fst l) -> ~ In (VStr k) (map fst acc)) ->
        fold_left (fun acc kv => put acc (key_or_empty (float_repr (ve_ser V)) (fst kv)) (snd kv))
          (map (fun kv : pyval * pyval => (fst kv, jnf (ve_ser V) (snd kv))) (map (fun '(k, v) => (VStr k, v)) l)) acc
        = acc ++ map (fun '(k, v) => (VStr k, v)) (map (fun kx : string * pyval => (fst kx, jnf (ve_ser V) (snd kx))) l)).
      { induction l as [|[k x] l IH]; intros acc ND Hd; [cbn; rewrite app_nil_r; reflexivity|].
        cbn [map fst snd fold_left]. change (key_or_empty (float_repr (ve_ser V)) (VStr k)) with k.
        inversion ND; subst. rewrite put_fresh by (apply Hd; cbn; auto). rewrite IH; [rewrite <- app_assoc; reflexivity|assumption|].
        intros k' J. rewrite map_app. cbn [map fst]. intro C. apply in_app_or in C. destruct C as [C|[C|[]]].
        - apply (Hd k'); cbn; auto.
        - injection C as ->. apply H1. exact J. }
      rewrite G; [reflexivity|exact N|intros ? ? []].
  Qed.

  (** *** calls *)
  Lemma call_begins s c m f args kw : ve_utf8 V c = true -> smem (m_ser m) (sv_sers s) = true ->
    m_action m = "call_obj" ->
    forall av, options V s m = Ok (fields [("obj", f); ("args", av); ("kwargs", fields kw)]) ->
    av = VTuple args \/ av = VList args ->
    exists s', begin_request V s c m = (s', [], InCall (mkAct c m) f args (map (fun '(k, v) => (VStr k, v)) kw)) /\
      sv_names s' = sv_names s /\ sv_st s' = sv_st s.
  Proof.
    intros U S A av O Av. unfold begin_request. fold (with_client s c m).
    change (sv_sers (with_client s c m)) with (sv_sers s). rewrite S, U.
    change (match m_opts m with PEmpty => Ok VNone | p => loads V (m_ser m) (Some (sv_addr (with_client s c m))) (sv_st (with_client s c m)) p end)
      with (options V s m). rewrite O, A. unfold process_action. cbn [String.eqb Ascii.eqb Bool.eqb].
    destruct Av as [->| ->]; cbn; (eexists; split; [reflexivity|split; reflexivity]).
  Qed.

  Lemma call_none s c m f x y : ve_utf8 V c = true -> smem (m_ser m) (sv_sers s) = true ->
    m_action m = "call_obj" -> options V s m = Ok (fields [("obj", f); ("args", x); ("kwargs", y)]) ->
    y = VNone -> exists s' os esc, begin_request V s c m = (s', os, Finished (Err TypeError) esc).
  Proof.
    intros U S A O ->. unfold begin_request. fold (with_client s c m).
    change (sv_sers (with_client s c m)) with (sv_sers s). rewrite S, U.
    change (match m_opts m with PEmpty => Ok VNone | p => loads V (m_ser m) (Some (sv_addr (with_client s c m))) (sv_st (with_client s c m)) p end)
      with (options V s m). rewrite O, A. unfold process_action. cbn [String.eqb Ascii.eqb Bool.eqb].
    cbn. destruct (finish_request V (with_client s c m) (mkAct c m) (Err TypeError)) as [[s2 o2] x2]. eauto.
  Qed.

  (** *** imports *)
  Lemma no_dot_lstrip a r : no_dot a -> a <> "" -> lstrip_dots (a ++ r) = (a ++ r)%string.
  Proof.
    destruct a as [|ch a]; [congruence|]. intros [N _] _. cbn [append lstrip_dots].
    destruct ch as [[] [] [] [] [] [] [] []]; try reflexivity. exfalso. apply N. reflexivity.
  Qed.
  Lemma split_no_dot a : no_dot a -> split_dots a = [a].
  Proof.
    induction a as [|ch a IH]; [reflexivity|]. intros [N Hr]. cbn [split_dots]. rewrite (IH Hr).
    destruct (Ascii.eqb_spec ch "."); [contradiction|reflexivity].
  Qed.
  Lemma split_cons a r : no_dot a -> split_dots (a ++ String "." r) = a :: split_dots r.
  Proof.
    induction a as [|ch a IH]; [reflexivity|]. intros [N Hr]. cbn [append split_dots]. rewrite (IH Hr).
    destruct (Ascii.eqb_spec ch "."); [contradiction|reflexivity].
  Qed.
  Lemma split_dotted l : l <> [] -> Forall no_dot l -> split_dots (dotted l) = l.
  Proof.
    induction l as [|a l IH]; [congruence|]. intros _ F. inversion F; subst. destruct l as [|b l].
    - apply split_no_dot. assumption.
    - change (dotted (a :: b :: l)) with (a ++ "." ++ dotted (b :: l))%string. cbn [append].
      rewrite split_cons by assumption. f_equal. apply IH; [discriminate|assumption].
  Qed.
  Lemma lstrip_dotted a l : no_dot a -> a <> "" -> lstrip_dots (dotted (a :: l)) = dotted (a :: l).
  Proof.
    intros N A. destruct l as [|b l].
    - pose proof (no_dot_lstrip a "" N A) as H. cbn [dotted].
      assert (G : forall x, (x ++ "")%string = x) by (induction x; cbn; congruence). rewrite G in H. exact H.
    - change (dotted (a :: b :: l)) with (a ++ ("." ++ dotted (b :: l)))%string. apply no_dot_lstrip; assumption.
  Qed.
  Lemma import_dotted a l : a <> "" -> Forall no_dot (a :: l) ->
    do_import V (fields [("module", VStr (dotted (a :: l)))]) =
      bind (ve_import V (dotted (a :: l))) (fun top => getattrs E top l).
  Proof.
    intros A F. unfold do_import. cbn [opt fields map field kget key_eqb String.eqb Ascii.eqb Bool.eqb bind opt_get].
    inversion F; subst. rewrite (lstrip_dotted a l) by assumption. rewrite split_dotted by (discriminate || assumption). reflexivity.
  Qed.

  (** ** Failing requests *)
  Lemma failure_reported s a t e : served V s (a_caller a) t -> m_action (a_msg a) <> "close" ->
    (0 <= m_req (a_msg a) ->
     exists p, finish_request V s a (Err e) = (s, [Sent (a_caller a) p], None) /\
       forall k, c_ser k = t -> waiting k (m_req (a_msg a)) ->
         finished (fst (client_recv V k p)) (m_req (a_msg a)) (Err (RemoteCallException (exn_name e)))) /\
    (m_req (a_msg a) < 0 -> finish_request V s a (Err e) = (s, [Hook e], None)).
  Proof.
    intros S NC. split; intro Z0.
    - destruct (send_error_served V GV s (a_caller a) t (m_req (a_msg a)) e S) as (p & SE & L).
      exists p. split.
      + rewrite finish_eq. apply Z.leb_le in Z0. rewrite Z0. cbn [respond]. rewrite SE.
        destruct (String.eqb_spec (m_action (a_msg a)) "close"); [contradiction|reflexivity].
      + intros k K W. unfold client_recv. rewrite K, L. rewrite process_reply_err, W. cbn [fst complete].
        unfold finished. apply dget_dset_same.
    - rewrite finish_eq. apply Z.leb_gt in Z0. rewrite Z0.
      destruct (String.eqb_spec (m_action (a_msg a)) "close"); [contradiction|reflexivity].
  Qed.
End Api.
