(** What executing and answering requests does to the reference table. *)
From Verif Require Import Py ObjTableModel ObjTableSpec ObjTableProofs SerModel SerSpec SerProofs SerProofs2 SerProofsJ
  FrameModel FrameProofs ServerModel ClientModel WireSpec WireProofs ServerProofs ServerProofs2 ClientProofs
  ApiModel ApiSpec ApiProofs RpcModel RpcSpec LifeSpec LifeProofs.

Section Life2.
  Variable V : venv.
  Hypothesis GV : good_venv V.
  Let E := ve_ser V.
  Let GE : good_env E := gv_ser V GV.

  Definition heap_ok (st : sst) : Prop := forall o, dmem (addrs (hp (ss_o st))) o = true -> (o < fresh st)%nat.
  Lemma history_heap st tr : history (ss_o st) tr -> heap_ok st.
  Proof.
    intros H o D. apply OInv_history in H. unfold dmem in D. destruct (dget (addrs (hp (ss_o st))) o) eqn:G; [|discriminate].
    eapply (i_heap_fresh _ _ H). exact G.
  Qed.

  Lemma proxy_value_life addr st v : existing st v -> heap_ok st ->
    exists st' px tr o, proxy_value E addr st v = (st', Ok (VProxy px)) /\ evolves st st' tr /\ makes tr /\
      issued tr (p_oid px) (p_rid px) o /\ (o < fresh st')%nat /\ value_at st' o v /\ p_addr px = addr /\ p_attrs px = [].
  Proof.
    intros X HO.
    assert (Ob : forall o, v = VObj o -> exists st' px tr o, proxy_value E addr st v = (st', Ok (VProxy px)) /\ evolves st st' tr /\ makes tr /\
      issued tr (p_oid px) (p_rid px) o /\ (o < fresh st')%nat /\ value_at st' o v /\ p_addr px = addr /\ p_attrs px = []).
    { intros o ->. destruct (X o (or_introl eq_refl)) as [L B].
      destruct (proxy_value_obj E addr st o L) as (st' & oid & rid & Pv & Bx & Hh & St).
      exists st', (mkP addr oid rid (type_str E (VObj o)) []), [(GetProxy o true, OProxy oid rid)], o.
      split; [exact Pv|]. split.
      { constructor.
        - cbn [map fst orun]. rewrite St. reflexivity.
        - intros o' _. rewrite Bx. reflexivity.
        - rewrite Hh. auto.
        - intros Q o' w. rewrite Bx, Hh. apply Q. }
      split; [intros e [<-|[]]; left; exists o; reflexivity|]. split; [exists true; left; reflexivity|].
      split; [rewrite Hh; apply HO; exact L|]. split; [right; rewrite Bx; auto|auto]. }
    assert (Pl : (forall o, v <> VObj o) -> exists st' px tr o, proxy_value E addr st v = (st', Ok (VProxy px)) /\ evolves st st' tr /\ makes tr /\
      issued tr (p_oid px) (p_rid px) o /\ (o < fresh st')%nat /\ value_at st' o v /\ p_addr px = addr /\ p_attrs px = []).
    { intro N. set (h := hp (ss_o st)). set (o := fresh_obj h). set (h' := mkH (dset (addrs h) o (fresh_addr h)) (S o)).
      set (s1 := mkS (tab (ss_o st)) h').
      assert (S1 : ostep (ss_o st) (Alloc (fresh_addr h)) = (s1, OAlloc o)).
      { cbn [ostep]. fold h. rewrite fresh_unused. reflexivity. }
      assert (D : dmem (addrs h') o = true).
      { unfold dmem, h'. cbn [addrs]. rewrite dget_dset_same. reflexivity. }
      destruct (proxy_value_obj E addr (mkSst s1 (dset (ss_boxes st) o v)) o D) as (st' & oid & rid & Pv & Bx & Hh & St).
      exists st', (mkP addr oid rid (type_str E v) []), [(Alloc (fresh_addr h), OAlloc o); (GetProxy o true, OProxy oid rid)], o.
      split.
      { unfold proxy_value in Pv |- *. cbn [ss_o ss_boxes hp tab s1] in Pv.
        destruct v; try (exfalso; eapply N; reflexivity); fold h; fold o; fold h';
          destruct (get_proxy (id_in h') true (tab (ss_o st)) o) as [t' [[oid' rid']|e]]; try discriminate Pv;
          injection Pv as <- <- <-; reflexivity. }
      cbn [ss_o ss_boxes hp s1] in Hh, Bx, St.
      assert (Fr : fresh st' = S (fresh st)) by (rewrite Hh; reflexivity).
      split.
      { constructor.
        - cbn [map fst orun]. rewrite S1. rewrite St. reflexivity.
        - intros o' Lt. rewrite Bx. apply dget_dset_other. unfold o, h in *. intros <-. lia.
        - lia.
        - intros Q o' w. rewrite Bx, Fr. rewrite dget_dset. destruct (eqb_reflect o' o) as [->|Ne].
          + intros _. unfold o, h. lia.
          + intro G. specialize (Q _ _ G). lia. }
      split.
      { intros e [<-|[<-|[]]]; [right; eexists; reflexivity|left; eexists; reflexivity]. }
      split; [exists true; right; left; reflexivity|]. split; [rewrite Fr; unfold o, h; lia|].
      split; [left; rewrite Bx; apply dget_dset_same|auto]. }
    destruct v; try (apply Pl; discriminate). eapply Ob. reflexivity.
  Qed.

  Lemma dumps_ext t srv st v st' r : existing st v -> dumps V t srv st v = (st', r) -> exists tr, extends st st' tr.
  Proof.
    intro X. unfold dumps. fold E. destruct (String.eqb t "msgpack").
    - unfold msgpack_dumps. destruct (pack E 512 srv st v) as [st1 w] eqn:P. intros [= <- _]. eapply (pack_ext E GE); eauto.
    - destruct (jdumps E (ve_limit V) srv st v) as [st1 w] eqn:P. intros [= <- _]. eapply (jdumps_ext E GE); eauto.
  Qed.

  Lemma reply_existing st req rv er : existing st rv -> existing st er -> existing st (reply req rv er).
  Proof.
    intros A B o I. cbn [reply fields map mentions flat_map fst snd app] in I. rewrite !app_nil_r in I.
    apply in_app_or in I. destruct I; auto.
  Qed.
  Lemma none_existing st v : mentions v = [] -> existing st v.
  Proof. intros H o I. rewrite H in I. destruct I. Qed.

  Lemma send_result_ext s c req rv er s' o x : existing (sv_st s) rv -> existing (sv_st s) er ->
    send_result V s c req rv er = (s', o, x) -> exists tr, extends (sv_st s) (sv_st s') tr.
  Proof.
    intros A B. unfold send_result. destruct (ve_utf8 V c); [|intros [= <- _ _]; exists []; apply extends_refl].
    destruct (dget _ _); [|intros [= <- _ _]; exists []; apply extends_refl].
    destruct (smem _ _); [|intros [= <- _ _]; exists []; apply extends_refl].
    destruct (dumps _ _ _ _ _) as [st' r] eqn:D. pose proof (dumps_ext _ _ _ _ _ _ (reply_existing _ _ _ _ A B) D) as (tr & T).
    destruct r as [p|e].
    - destruct (sock_send _ _ _). intros [= <- _ _]; exists tr; exact T.
    - intros [= <- _ _]; exists tr; exact T.
  Qed.
  Lemma send_error_ext s c req e s' o x : send_error V s c req e = (s', o, x) -> exists tr, extends (sv_st s) (sv_st s') tr.
  Proof.
    unfold send_error. destruct (ve_utf8 V c); [|intros [= <- _ _]; exists []; apply extends_refl].
    apply send_result_ext; apply none_existing; reflexivity.
  Qed.

  Lemma chosen_life s rt v s' r : existing (sv_st s) v -> heap_ok (sv_st s) -> chosen V s rt v = (s', r) ->
    (exists tr, evolves (sv_st s) (sv_st s') tr /\ makes tr) /\ forall v', r = Ok v' -> existing (sv_st s') v'.
  Proof.
    intros X HO.
    destruct (proxy_value_life (sv_addr s) (sv_st s) v X HO) as (st1 & px & tr & o & P & Ev & Mk & _).
    assert (MP : make_proxy V s v = (set_st s st1, Ok (VProxy px))) by (unfold make_proxy; fold E; rewrite P; reflexivity).
    assert (Same : (s, Ok v) = (s', r) -> (exists tr, evolves (sv_st s) (sv_st s') tr /\ makes tr) /\ forall v', r = Ok v' -> existing (sv_st s') v').
    { intros [= <- <-]. split; [exists []; split; [apply evolves_refl|apply makes_nil]|]. intros v' [= <-]. exact X. }
    assert (Mp : make_proxy V s v = (s', r) -> (exists tr, evolves (sv_st s) (sv_st s') tr /\ makes tr) /\ forall v', r = Ok v' -> existing (sv_st s') v').
    { rewrite MP. intros [= <- <-]. split; [exists tr; auto|]. intros v' [= <-]. apply none_existing. reflexivity. }
    unfold chosen, auto_proxy. destruct (String.eqb rt "auto"); [destruct (ser_ok _ v); auto|]. destruct (String.eqb rt "proxy"); auto.
  Qed.

  Lemma respond_evolves s c m r s' o x : (forall v, r = Ok v -> existing (sv_st s) v) -> heap_ok (sv_st s) ->
    respond V s c m r = (s', o, x) -> exists tr, evolves (sv_st s) (sv_st s') tr /\ makes tr.
  Proof.
    intros X HO. destruct r as [v|e]; cbn [respond].
    - destruct (chosen V s (m_rt m) v) as [s0 pv] eqn:C.
      destruct (chosen_life _ _ _ _ _ (X v eq_refl) HO C) as ((t0 & E0 & M0) & X0).
      destruct pv as [v'|e]; [|intros [= <- _ _]; eauto].
      destruct (send_result V s0 c (m_req m) v' VNone) as [[s1 o1] x1] eqn:S.
      destruct (send_result_ext _ _ _ _ _ _ _ _ (X0 v' eq_refl) (none_existing _ VNone eq_refl) S) as (t1 & T1).
      pose proof (evolves_trans _ _ _ _ _ E0 (extends_evolves _ _ _ T1)) as E1.
      pose proof (makes_app _ _ M0 (ex_makes _ _ _ T1)) as M1.
      destruct x1 as [e1|]; [|intros [= <- _ _]; eauto].
      destruct (send_error V s1 c (m_req m) e1) as [[s2 o2] x2] eqn:S2. intros [= <- _ _].
      destruct (send_error_ext _ _ _ _ _ _ _ S2) as (t2 & T2). eexists. split.
      + eapply evolves_trans; [exact E1|apply extends_evolves; exact T2].
      + apply makes_app; [exact M1|apply (ex_makes _ _ _ T2)].
    - intro S. destruct (send_error_ext _ _ _ _ _ _ _ S) as (t2 & T2). exists t2. split; [apply extends_evolves; exact T2|apply (ex_makes _ _ _ T2)].
  Qed.

  (** the reply [p] to request number [req] carries a proxy for [v] *)
  Definition stand (st : sst) (tr : otrace) (addr t : string) (req : Z) (v : pyval) (p : payload) : Prop :=
    exists px o, issued tr (p_oid px) (p_rid px) o /\ (o < fresh st)%nat /\ value_at st o v /\
      p_addr px = addr /\ p_attrs px = [] /\
      forall srv2 st2, srv2 <> Some addr -> loads V t srv2 st2 p = Ok (reply req (VProxy px) VNone).

  Lemma respond_stand s c t m v : served V s c t -> by_proxy V m v -> existing (sv_st s) v -> heap_ok (sv_st s) ->
    exists st' p tr, respond V s c m (Ok v) = (set_st s st', [Sent c p], None) /\ evolves (sv_st s) st' tr /\ makes tr /\
      stand st' tr (sv_addr s) t (m_req m) v p.
  Proof.
    intros S BP X HO.
    assert (Mk : chosen V s (m_rt m) v = make_proxy V s v ->
      exists st' p tr, respond V s c m (Ok v) = (set_st s st', [Sent c p], None) /\ evolves (sv_st s) st' tr /\ makes tr /\
      stand st' tr (sv_addr s) t (m_req m) v p).
    { intro Ch. destruct (proxy_value_life (sv_addr s) (sv_st s) v X HO) as (st1 & px & tr & o & P & Ev & Mk & Is & Fr & Va & Ad & At).
      assert (MP : make_proxy V s v = (set_st s st1, Ok (VProxy px))) by (unfold make_proxy; fold E; rewrite P; reflexivity).
      assert (Ob : objs E (VProxy px) = []) by reflexivity.
      destruct (reply_send V GV t (sv_addr s) (Some (sv_addr s)) st1 (m_req m) (VProxy px) (proxy_carried V GV t px At) (alive_none _ _ _ Ob) (or_introl Ob))
        as (st' & p & tr2 & v' & D & Bx & _ & Run & Arr & St & L). specialize (St Ob). subst st'.
      destruct (arrives_plain V _ _ _ _ Arr Ob) as [-> ->].
      exists st1, p, tr. split.
      - cbn [respond]. rewrite Ch, MP.
        destruct (send_result_served V (set_st s st1) c t (m_req m) (VProxy px) (served_st V _ _ _ _ S))
          as (st2 & [(p2 & SR & D2)|(e & SR & D2)]); cbn [set_st sv_addr sv_st] in D2; rewrite D in D2; [|discriminate].
        injection D2 as <- <-. rewrite SR. reflexivity.
      - split; [exact Ev|]. split; [exact Mk|]. exists px, o. repeat (apply conj; [assumption|]). intros srv2 st2 Ne.
        rewrite (L srv2 st2 VProxy); [rewrite subst_id; unfold seen; destruct (String.eqb t "msgpack"); reflexivity|].
        intros q [<-|[]]. apply home_foreign. rewrite Ad. exact Ne. }
    destruct (String.eqb_spec (m_rt m) "proxy") as [R|NR].
    { apply Mk. unfold chosen. rewrite R. reflexivity. }
    destruct BP as [BP|(o & -> & So)]; [contradiction|].
    destruct (String.eqb_spec (m_rt m) "auto") as [R|NA].
    { apply Mk. unfold chosen, auto_proxy. rewrite R, So. reflexivity. }
    clear Mk. assert (Ch : chosen V s (m_rt m) (VObj o) = (s, Ok (VObj o))).
    { unfold chosen. destruct (String.eqb_spec (m_rt m) "auto"); [contradiction|]. destruct (String.eqb_spec (m_rt m) "proxy"); [contradiction|reflexivity]. }
    destruct (X o (or_introl eq_refl)) as [L B].
    destruct (reply_send V GV t (sv_addr s) (Some (sv_addr s)) (sv_st s) (m_req m) (VObj o)) as (st' & p & tr & v' & D & Bx & Hh & Run & Arr & _ & Ld).
    { unfold carried. pose proof (gv_limit V GV) as Li. destruct (String.eqb t "msgpack").
      - split; [cbn; rewrite So; discriminate|]. cbn. rewrite So. repeat constructor.
      - split; [cbn; rewrite So; discriminate|]. cbn. lia. }
    { intros x I. cbn in I. rewrite So in I. destruct I as [<-|[]]. exact L. }
    { auto. }
    exists st', p, tr. split.
    { cbn [respond]. rewrite Ch.
      destruct (send_result_served V s c t (m_req m) (VObj o) S) as (st2 & [(p2 & SR & D2)|(e & SR & D2)]); rewrite D in D2; [|discriminate].
      injection D2 as <- <-. rewrite SR. reflexivity. }
    assert (Fr : fresh st' = fresh (sv_st s)) by (rewrite Hh; reflexivity).
    split.
    { constructor; auto.
      - intros o' _. rewrite Bx. reflexivity.
      - lia.
      - intros Q o' w. rewrite Bx, Fr. apply Q. }
    inversion Arr; subst.
    - cbn in H. rewrite So in H. discriminate H.
    - split; [intros e [<-|[]]; left; eexists; reflexivity|].
      exists (mkP (sv_addr s) oid rid (type_str E (VObj o)) []), o. cbn [p_oid p_rid p_addr p_attrs].
      split; [exists true; left; reflexivity|]. split; [rewrite Fr; apply HO; exact L|]. split; [right; rewrite Bx; auto|].
      split; [reflexivity|]. split; [reflexivity|]. intros srv2 st2 Ne.
      rewrite (Ld srv2 st2 VProxy); [rewrite subst_id; unfold seen; destruct (String.eqb t "msgpack"); reflexivity|].
      intros q [<-|[]]. apply home_foreign. exact Ne.
  Qed.

  Lemma finish_evolves s a r s' os x : (forall v, r = Ok v -> existing (sv_st s) v) -> heap_ok (sv_st s) ->
    finish_request V s a r = (s', os, x) -> exists tr, evolves (sv_st s) (sv_st s') tr /\ makes tr.
  Proof.
    intros X HO. rewrite finish_eq. set (z := if 0 <=? m_req (a_msg a) then _ else _).
    assert (G : forall s1 o1 x1, z = (s1, o1, x1) -> exists tr, evolves (sv_st s) (sv_st s1) tr /\ makes tr).
    { intros s1 o1 x1. subst z. destruct (0 <=? m_req (a_msg a)); [apply respond_evolves; assumption|].
      intros [= <- _ _]. exists []. split; [apply evolves_refl|apply makes_nil]. }
    destruct z as [[s1 o1] x1]. specialize (G _ _ _ eq_refl).
    destruct x1; [intros [= <- _ _]; exact G|]. destruct (String.eqb (m_action (a_msg a)) "close"); intros [= <- _ _]; exact G.
  Qed.

  Lemma finish_life s a r s' os x t : (sv_open s = true -> served V s (a_caller a) t) ->
    (forall v, r = Ok v -> existing (sv_st s) v) -> heap_ok (sv_st s) ->
    finish_request V s a r = (s', os, x) ->
    exists tr, evolves (sv_st s) (sv_st s') tr /\ makes tr /\
      forall v p, r = Ok v -> by_proxy V (a_msg a) v -> In (Sent (a_caller a) p) os ->
        stand (sv_st s') tr (sv_addr s) t (m_req (a_msg a)) v p.
  Proof.
    intros S X HO F. destruct (sv_open s) eqn:O.
    2:{ destruct (finish_evolves _ _ _ _ _ _ X HO F) as (tr & Ev & Mk). exists tr. split; [exact Ev|]. split; [exact Mk|].
        intros v p _ _ I. pose proof (finish_closed V _ _ _ _ _ _ O F) as H. exfalso. clear - H I.
        unfold hooks in H. rewrite Forall_forall in H. specialize (H _ I). exact H. }
    specialize (S eq_refl).
    assert (Cases : (exists v, r = Ok v /\ by_proxy V (a_msg a) v /\ 0 <= m_req (a_msg a)) \/
                    forall v p, r = Ok v -> by_proxy V (a_msg a) v -> In (Sent (a_caller a) p) os -> False).
    { destruct (Z.leb_spec 0 (m_req (a_msg a))).
      - destruct r as [v|e]; [|right; discriminate].
        destruct (String.eqb_spec (m_rt (a_msg a)) "proxy") as [R|NR]; [left; exists v; split; [reflexivity|]; split; [left; exact R|exact H]|].
        destruct v as [|?|?|?|?|?|?|?|?|?|?|? ? ?|? ?|?|?|? ?|ob]; try (right; intros v1 p1 [= <-] [B1|(o1 & Q1 & _)] _; [contradiction|discriminate]).
        destruct (ser_ok (ve_ser V) (VObj ob)) eqn:So.
        + right. intros v p [= <-] [B|(o' & [= <-] & Q)] _; [contradiction|]. rewrite So in Q. discriminate.
        + left. exists (VObj ob). split; [reflexivity|]. split; [right; exists ob; auto|exact H].
      - right. intros v p -> _ I. rewrite finish_eq in F. destruct (Z.leb_spec 0 (m_req (a_msg a))); [lia|].
        destruct (String.eqb (m_action (a_msg a)) "close"); injection F as _ <- _; destruct I. }
    destruct Cases as [(v & -> & B & Z0)|N].
    - destruct (respond_stand s (a_caller a) t (a_msg a) v S B (X v eq_refl) HO) as (st' & p & tr & R & Ev & Mk & St).
      rewrite finish_eq in F. apply Z.leb_le in Z0. rewrite Z0, R in F. exists tr.
      assert (G : sv_st s' = st' /\ os = [Sent (a_caller a) p]).
      { destruct (String.eqb (m_action (a_msg a)) "close"); injection F as <- <- _; auto. }
      destruct G as [-> ->]. split; [exact Ev|]. split; [exact Mk|]. intros v0 p0 [= <-] _ [[= <-]|[]]. exact St.
    - destruct (finish_evolves _ _ _ _ _ _ X HO F) as (tr & Ev & Mk). exists tr. split; [exact Ev|]. split; [exact Mk|].
      intros v p H1 H2 H3. destruct (N v p H1 H2 H3).
  Qed.

  (** ** executing an action *)
  Definition deletes (m : msg) (tr : otrace) : Prop :=
    forall e, In e tr -> (exists o, fst e = GetProxy o true) \/ (exists a, fst e = Alloc a) \/
      (exists oid rid, fst e = Delete oid rid /\ asks_delete V m oid rid).
  Lemma makes_deletes m tr : makes tr -> deletes m tr.
  Proof. intros M e I. destruct (M e I) as [?|?]; auto. Qed.
  Lemma deletes_app m a b : deletes m a -> deletes m b -> deletes m (a ++ b).
  Proof. intros A B e I. apply in_app_or in I. destruct I; auto. Qed.

  Lemma opt_kget opts k v : opt opts k = Ok v -> exists d, opts = VDict d /\ kget d (VStr k) = Some v.
  Proof.
    unfold opt. destruct opts; try discriminate. unfold field. destruct (kget d (VStr k)) eqn:G; [|discriminate].
    intros [= <-]. eauto.
  Qed.

  Lemma do_delete_life s opts s' r : do_delete s opts = (s', r) -> exists tr, evolves (sv_st s) (sv_st s') tr /\
    (forall e, In e tr -> exists oid rid d, fst e = Delete oid rid /\ opts = VDict d /\
       kget d (VStr "obj_id") = Some (VInt oid) /\ kget d (VStr "ref_id") = Some (VInt rid)) /\
    (forall v, r = Ok v -> v = VNone).
  Proof.
    unfold do_delete.
    assert (Nil : forall e, (s, Err e) = (s', r) -> exists tr, evolves (sv_st s) (sv_st s') tr /\
      (forall e, In e tr -> exists oid rid d, fst e = Delete oid rid /\ opts = VDict d /\
         kget d (VStr "obj_id") = Some (VInt oid) /\ kget d (VStr "ref_id") = Some (VInt rid)) /\ (forall v, r = Ok v -> v = VNone)).
    { intros e [= <- <-]. exists []. split; [apply evolves_refl|]. split; [intros ? []|discriminate]. }
    destruct (opt opts "obj_id") as [[]|] eqn:O1; try apply Nil; [].
    destruct (dget (prefs (tab (ss_o (sv_st s)))) z); [|apply Nil].
    destruct (opt opts "ref_id") as [[]|] eqn:O2; try apply Nil; [].
    destruct (delete_ref (id_in (hp (ss_o (sv_st s)))) (tab (ss_o (sv_st s))) z z0) as [t' dr] eqn:D.
    intros [= <- <-]. exists [(Delete z z0, match dr with Ok _ => ODeleted | Err e => OErr e end)].
    split; [|split].
    - constructor; cbn [set_st sv_st ss_o ss_boxes hp]; auto. cbn [map fst orun ostep]. rewrite D. reflexivity.
    - intros e [<-|[]]. destruct (opt_kget _ _ _ O1) as (d & -> & K1). destruct (opt_kget _ _ _ O2) as (d' & [= <-] & K2).
      exists z, z0, d. auto.
    - intros v. destruct dr; cbn; [intros [= <-]; reflexivity|discriminate].
  Qed.

  Lemma process_life s action opts c s' o r : process_action V s action opts c = (s', o, r) ->
    (sv_st s' = sv_st s /\ (forall p, ~ In (Sent c p) o)) \/
    (action = "delete" /\ o = [] /\ exists dr, r = AVal dr /\ do_delete s opts = (s', dr)).
  Proof.
    unfold process_action.
    destruct (String.eqb action "call_obj"); [intros [= <- <- _]; left; split; [reflexivity|intros p []]|].
    destruct (String.eqb action "get_obj"); [intros [= <- <- _]; left; split; [reflexivity|intros p []]|].
    destruct (String.eqb_spec action "delete").
    { destruct (do_delete s opts) as [s1 r1] eqn:D. intros [= <- <- <-]. right. eauto 10. }
    destruct (String.eqb action "get_item"); [intros [= <- <- _]; left; split; [reflexivity|intros p []]|].
    destruct (String.eqb_spec action "set_item").
    { subst. destruct (opt opts "obj") as [v|e]; [|intros [= <- <- _]; left; split; [reflexivity|intros p []]].
      destruct (opt opts "name") as [[]|e']; intros [= <- <- _]; left; (split; [reflexivity|intros p1 []]). }
    destruct (String.eqb action "import"); [intros [= <- <- _]; left; split; [reflexivity|intros p []]|].
    destruct (String.eqb action "ping"); [intros [= <- <- _]; left; split; [reflexivity|intros p []]|].
    destruct (String.eqb action "close"); [|intros [= <- <- _]; left; split; [reflexivity|intros p []]].
    destruct (send_disconnects V (set_closed s) c (sv_clients (set_closed s))) as [os x] eqn:D.
    assert (N : forall p, ~ In (Sent c p) os).
    { assert (G : forall l s0 os x, send_disconnects V s0 c l = (os, x) -> forall p, ~ In (Sent c p) os).
      { induction l as [|[c' t] l IH]; intros s0 os0 x0; cbn [send_disconnects]; [intros [= <- _] p []|].
        destruct (String.eqb_spec c' c); [apply IH|]. destruct (smem t (sv_sers s0)); [|intros [= <- _] p []].
        destruct (snd (dumps V t None (sv_st s0) _)) as [p0|]; [|intros [= <- _] p []].
        unfold sock_send. destruct (sv_open s0); [|intros [= <- _] p []].
        destruct (send_disconnects V s0 c l) as [o' x'] eqn:D'. intros [= <- _] p [[= E0 _]|I]; [contradiction|].
        exact (IH _ _ _ D' p I). }
      eapply G. exact D. }
    destruct x; [intros [= <- <- _]; left; auto|]. destruct (sv_reg (set_closed s)); intros [= <- <- _]; left; auto.
  Qed.

  Lemma begin_life s c m s' os b : sv_open s = true -> ve_utf8 V c = true -> smem (m_ser m) (sv_sers s) = true ->
    heap_ok (sv_st s) ->
    begin_request V s c m = (s', os, b) -> (forall v x, b = Finished (Ok v) x -> existing (sv_st s) v) ->
    exists tr, evolves (sv_st s) (sv_st s') tr /\ deletes m tr /\
      forall v x p, b = Finished (Ok v) x -> by_proxy V m v -> In (Sent c p) os ->
        exists tr1 tr2, tr = tr1 ++ tr2 /\ stand (sv_st s') tr2 (sv_addr s) (m_ser m) (m_req m) v p.
  Proof.
    intros O U S HO. unfold begin_request. fold (with_client s c m).
    pose proof (with_client_served V s c m U S O) as W. set (s1 := with_client s c m) in *.
    change (sv_sers s1) with (sv_sers s). rewrite S, U.
    change (match m_opts m with PEmpty => Ok VNone | p => loads V (m_ser m) (Some (sv_addr s1)) (sv_st s1) p end) with (options V s m).
    assert (F : forall s2 o2 r tr0, evolves (sv_st s) (sv_st s2) tr0 -> deletes m tr0 -> heap_ok (sv_st s2) ->
      sv_addr s2 = sv_addr s -> (forall p, ~ In (Sent c p) o2) ->
      (sv_open s2 = true -> served V s2 c (m_ser m)) ->
      (let '(s3, o3, x) := finish_request V s2 (mkAct c m) r in (s3, o2 ++ o3, Finished r x)) = (s', os, b) ->
      (forall v, r = Ok v -> existing (sv_st s2) v) ->
      exists tr, evolves (sv_st s) (sv_st s') tr /\ deletes m tr /\
      forall v x p, b = Finished (Ok v) x -> by_proxy V m v -> In (Sent c p) os ->
        exists tr1 tr2, tr = tr1 ++ tr2 /\ stand (sv_st s') tr2 (sv_addr s) (m_ser m) (m_req m) v p).
    { intros s2 o2 r tr0 E0 D0 HO2 A2 N2 S2 H X. destruct (finish_request V s2 (mkAct c m) r) as [[s3 o3] x] eqn:Fi.
      injection H as <- <- <-. destruct (finish_life s2 (mkAct c m) r s3 o3 x (m_ser m) S2 X HO2 Fi) as (tr & Ev & Mk & St).
      exists (tr0 ++ tr). split; [eapply evolves_trans; eauto|]. split; [apply deletes_app; [exact D0|apply makes_deletes; exact Mk]|].
      intros v x0 p Hb BP I. injection Hb as -> _. exists tr0, tr. split; [reflexivity|]. rewrite <- A2. apply (St v p eq_refl BP).
      apply in_app_or in I. destruct I as [I|I]; [destruct (N2 _ I)|exact I]. }
    destruct (options V s m) as [v|e] eqn:Op.
    - destruct (process_action V s1 (m_action m) v c) as [[s2 o2] ar] eqn:P.
      destruct (process_life _ _ _ _ _ _ _ P) as [[Es N]|(Ad & -> & dr & -> & DD)].
      + assert (A2 : sv_addr s2 = sv_addr s /\ (sv_open s2 = true -> served V s2 c (m_ser m))).
        { destruct (String.eqb_spec (m_action m) "close") as [Cl|NC].
          - rewrite Cl in P. unfold process_action in P. cbn [String.eqb Ascii.eqb Bool.eqb] in P.
            destruct (send_disconnects V (set_closed s1) c (sv_clients (set_closed s1))) as [od [xd|]].
            + injection P as <- _ _. split; [reflexivity|]. intros _. exact W.
            + destruct (sv_reg (set_closed s1)); injection P as <- _ _; (split; [reflexivity|]); intros _; exact W.
          - destruct (process_kept V _ _ _ _ _ _ _ NC P) as (_ & Kp & _). split; [destruct Kp as (_ & _ & _ & _ & _ & Q); exact Q|].
            intros _. eapply kept_served; eauto. }
        destruct A2 as [A2 S2].
        destruct ar as [r|f args kw].
        * intros H X. apply (F s2 o2 r []); auto.
          -- rewrite Es. apply evolves_refl.
          -- intros ? [].
          -- rewrite Es. exact HO.
          -- destruct (finish_request V s2 (mkAct c m) r) as [[s3 o3] x]. injection H as _ _ <-. intros w ->. rewrite Es. eapply X. reflexivity.
        * intros [= <- <- <-] X. exists []. split; [rewrite Es; apply evolves_refl|]. split; [intros ? []|discriminate].
      + destruct (do_delete_life _ _ _ _ DD) as (tr & Ev & Dl & Nn). intros H X.
        destruct (do_delete_kept _ _ _ _ DD) as [Kp _].
        apply (F s2 [] dr tr); auto.
        * intros e I. destruct (Dl e I) as (oid & rid & d & Fe & -> & K1 & K2). right. right. exists oid, rid. split; [exact Fe|].
          split; [exact Ad|]. exists s, d. auto.
        * destruct (do_delete s1 v) as [sd rd] eqn:DD'. injection DD as <- <-. unfold heap_ok.
          assert (Hh : hp (ss_o (sv_st sd)) = hp (ss_o (sv_st s))); [|rewrite Hh; exact HO].
          clear - DD'. unfold do_delete in DD'.
          repeat match type of DD' with
           | (let '(_, _) := ?x in _) = _ => destruct x
           | match ?x with _ => _ end = _ => destruct x
           end; injection DD' as <- <-; reflexivity.
        * destruct Kp as (_ & _ & _ & _ & _ & Q). exact Q.
        * intros _. eapply kept_served; eauto.
        * intros w Hw. rewrite (Nn w Hw). apply none_existing. reflexivity.
    - intros H X. apply (F s1 [] (Err e) []); auto.
      + apply evolves_refl.
      + intros ? [].
      + discriminate.
  Qed.
End Life2.
