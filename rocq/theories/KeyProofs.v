From Verif Require Import Py ObjTableModel ObjTableSpec ObjTableProofs DateTimeModel DateTimeProofs
  NdArrayModel Base64Model Base64Proofs SerModel SerSpec SerProofs SerProofs2 FrameModel ServerModel ClientModel WireSpec WireProofs KeySpec.
Local Open Scope list_scope.

Section Keys.
  Variable E : senv.
  Hypothesis GE : good_env E.

  Lemma whole_packs srv n st v : whole E n v -> exists w, pack E n srv st v = (st, Ok w) /\ forall srv2 st2, unpack E srv2 st2 w = Ok v.
  Proof.
    intros (S & O & P & D). destruct (msgpack_roundtrip E GE srv n st v S O D) as (w & A & B). exists w. split; [exact A|].
    intros. apply B. rewrite P. intros p [].
  Qed.
  Lemma list_then srv n st a x wx : Forall (whole E n) a -> pack_list (pack E n srv) st x = (st, Ok wx) ->
    exists ws, pack_list (pack E n srv) st (a ++ x) = (st, Ok ws) /\
    forall srv2 st2 e, unpack_list E srv2 st2 wx = Err e -> unpack_list E srv2 st2 ws = Err e.
  Proof.
    intros F X. induction F as [|v l H F IH]; [exists wx; auto|]. destruct (whole_packs srv n st v H) as (w & A & B). destruct IH as (ws & C & D).
    exists (w :: ws). cbn [pack_list app]. rewrite A, C. split; [reflexivity|]. intros srv2 st2 e Er. cbn [unpack_list]. rewrite B, (D _ _ _ Er). reflexivity.
  Qed.
  Lemma whole_list srv n st l : Forall (whole E n) l -> exists ws, pack_list (pack E n srv) st l = (st, Ok ws).
  Proof. intros F. destruct (list_then srv n st l [] [] F eq_refl) as (ws & A & _). rewrite app_nil_r in A. eauto. Qed.
  Lemma whole_pairs srv n st d : whole_items E n d -> exists ws, pack_pairs (pack E n srv) st d = (st, Ok ws).
  Proof.
    induction 1 as [|[k v] d [H1 H2] F IH]; [exists []; reflexivity|]. destruct (whole_packs srv n st k H1) as (wk & A & _). destruct (whole_packs srv n st v H2) as (wv & B & _).
    destruct IH as (ws & C). exists ((wk, wv) :: ws). cbn [pack_pairs fst snd]. rewrite A, B, C. reflexivity.
  Qed.
  Lemma pairs_then srv n st a x wx : whole_items E n a -> Forall (fun kv => text_key (fst kv)) a -> pack_pairs (pack E n srv) st x = (st, Ok wx) ->
    exists ws, pack_pairs (pack E n srv) st (a ++ x) = (st, Ok ws) /\
    forall srv2 st2 e, (forall d0, unpack_map E srv2 st2 wx d0 = Err e) -> forall d0, unpack_map E srv2 st2 ws d0 = Err e.
  Proof.
    intros W T X. induction W as [|[k v] d [H1 H2] F IH]; [exists wx; auto|].
    inversion T as [|? ? T1 T2]; subst. destruct (whole_packs srv n st k H1) as (wk & A & A'). destruct (whole_packs srv n st v H2) as (wv & B & B').
    destruct (IH T2) as (ws & C & D). exists ((wk, wv) :: ws). cbn [pack_pairs app fst snd] in *. rewrite A, B, C. split; [reflexivity|].
    intros srv2 st2 e Er d0. cbn [unpack_map]. rewrite A', B'. cbn [bind].
    unfold map_item. replace (key_ok k) with true by (destruct k; cbn in *; tauto). cbn [bind]. exact (D _ _ _ Er _).
  Qed.
  Lemma first_other (d : list (pyval * pyval)) k v : In (k, v) d -> ~ text_key k ->
    exists a k' v' b, d = a ++ (k', v') :: b /\ Forall (fun kv => text_key (fst kv)) a /\ ~ text_key k'.
  Proof.
    induction d as [|[k0 v0] d IH]; intros I N; [destruct I|].
    assert (D : text_key k0 \/ ~ text_key k0) by (destruct k0; cbn; tauto). destruct D as [D|D].
    - destruct I as [I|I]; [injection I as -> ->; contradiction|]. destruct (IH I N) as (a & k' & v' & b & -> & A & B).
      exists ((k0, v0) :: a), k', v', b. split; [reflexivity|]. split; [constructor; auto|exact B].
    - exists [], k0, v0, d. split; [reflexivity|]. split; [constructor|exact D].
  Qed.

  Lemma other_key_refused n v : other_key_in E n v -> forall m srv st, (n <= m)%nat ->
    exists w, pack E m srv st v = (st, Ok w) /\ forall srv2 st2, unpack E srv2 st2 w = Err ValueError.
  Proof.
    assert (M : forall n m v, (n <= m)%nat -> whole E n v -> whole E m v) by (intros n0 m0 v0 L (A & B & C & D); split; [exact A|split; [exact B|split; [exact C|exact (Nat.le_trans _ _ _ D L)]]]).
    assert (ML : forall n m l, (n <= m)%nat -> Forall (whole E n) l -> Forall (whole E m) l) by (intros n0 m0 l L F; eapply Forall_impl; [|exact F]; intros; eauto).
    assert (MI : forall n m l, (n <= m)%nat -> whole_items E n l -> whole_items E m l) by (intros n0 m0 l L F; eapply Forall_impl; [|exact F]; cbn; intros ? []; eauto).
    induction 1 as [n d k v W I N|n a v b Fa H IH Fb|n a v b Fa H IH Fb|n a k v b Wa Ta Tk H IH Wb]; intros m srv st L.
    - destruct m as [|m]; [lia|]. destruct (first_other _ _ _ I N) as (a & k' & v' & b & -> & Ta & N').
      apply (MI _ m) in W; [|lia]. apply Forall_app in W. destruct W as [Wa Wb]. inversion Wb as [|? ? [Wk Wv] Wb']; subst. cbn [fst snd] in *.
      destruct (whole_packs srv m st k' Wk) as (wk & A & A'). destruct (whole_packs srv m st v' Wv) as (wv & B & B'). destruct (whole_pairs srv m st b Wb') as (wb & C).
      destruct (pairs_then srv m st a ((k', v') :: b) ((wk, wv) :: wb) Wa Ta) as (ws & P & U).
      { cbn [pack_pairs]. rewrite A, B, C. reflexivity. }
      exists (WMap ws). rewrite pack_S. cbn [pack_native]. rewrite P. split; [reflexivity|]. intros. rewrite unpack_wmap. rewrite (U srv2 st2 ValueError); [reflexivity|].
      intros d0. cbn [unpack_map]. rewrite A', B'. cbn [bind]. unfold map_item. replace (key_ok k') with false by (destruct k'; cbn in *; tauto). reflexivity.
    - destruct m as [|m]; [lia|]. destruct (IH m srv st ltac:(lia)) as (w & A & B). destruct (whole_list srv m st b (ML n m _ ltac:(lia) Fb)) as (wb & C).
      destruct (list_then srv m st a (v :: b) (w :: wb) (ML n m _ ltac:(lia) Fa)) as (ws & P & U). { cbn [pack_list]. rewrite A, C. reflexivity. }
      exists (WArr ws). rewrite pack_S. cbn [pack_native]. rewrite P. split; [reflexivity|]. intros. rewrite unpack_arr. rewrite (U srv2 st2 ValueError); [reflexivity|].
      cbn [unpack_list]. rewrite B. reflexivity.
    - destruct m as [|[|m]]; try lia. destruct (IH m srv st ltac:(lia)) as (w & A & B). destruct (whole_list srv m st b (ML n m _ ltac:(lia) Fb)) as (wb & C).
      destruct (list_then srv m st a (v :: b) (w :: wb) (ML n m _ ltac:(lia) Fa)) as (ws & P & U). { cbn [pack_list]. rewrite A, C. reflexivity. }
      eexists. rewrite (pack_tuple E GE), P. split; [reflexivity|]. intros. rewrite unpack_wmap. cbn [unpack_map]. rewrite unpack_arr. rewrite (U srv2 st2 ValueError); [reflexivity|].
      cbn [unpack_list]. rewrite B. reflexivity.
    - destruct m as [|m]; [lia|]. destruct (IH m srv st ltac:(lia)) as (w & A & B). destruct (whole_pairs srv m st b (MI n m _ ltac:(lia) Wb)) as (wb & C).
      assert (K : key_ok k = true) by (destruct k; cbn in *; tauto).
      assert (m <> 0)%nat. { intros ->. assert (n = 0)%nat by lia. subst n. inversion H. }
      destruct m as [|m]; [contradiction|].
      destruct (pairs_then srv (S m) st a ((k, v) :: b) ((key_wire k, w) :: wb) (MI n (S m) _ ltac:(lia) Wa) Ta) as (ws & P & U).
      { cbn [pack_pairs]. rewrite pack_key, A, C by exact K. reflexivity. }
      exists (WMap ws). rewrite pack_S. cbn [pack_native]. rewrite P. split; [reflexivity|]. intros. rewrite unpack_wmap. rewrite (U srv2 st2 ValueError); [reflexivity|].
      intros d0. cbn [unpack_map]. rewrite unpack_key, B by exact K. reflexivity.
  Qed.

  Lemma lmax_bound l n : Forall (fun x => (x <= n)%nat) l -> (lmax l <= n)%nat.
  Proof. induction 1 as [|x l H F IH]; cbn; lia. Qed.
  Lemma text_keys srv st d : whole_items E 511 d -> NoDup (map fst d) -> (forall v, ~ In (VStr "___type_name___", v) d) ->
    exists w, msgpack_dumps E srv st (VDict d) = (st, Ok w) /\ forall srv2 st2,
      (Forall (fun kv => text_key (fst kv)) d -> unpack E srv2 st2 w = Ok (VDict d)) /\
      (~ Forall (fun kv => text_key (fst kv)) d -> unpack E srv2 st2 w = Err ValueError).
  Proof.
    intros W N R. assert (Dec : Forall (fun kv => text_key (fst kv)) d \/ exists k v, In (k, v) d /\ ~ text_key k).
    { clear. induction d as [|[k v] d IH]; [left; constructor|]. assert (D : text_key k \/ ~ text_key k) by (destruct k; cbn; tauto). destruct D as [D|D].
      - destruct IH as [IH|(k' & v' & I & X)]; [left; constructor; auto|right]. exists k', v'. split; [right; exact I|exact X].
      - right. exists k, v. split; [left; reflexivity|exact D]. }
    destruct Dec as [T|(k & v & I & X)].
    - destruct (msgpack_roundtrip E GE srv 512 st (VDict d)) as (w & A & B).
      + cbn [sendable]. split; [|exact N]. clear N. induction d as [|[k v] d IH]; [exact I|]. inversion W as [|? ? [_ Wv] W']; subst. inversion T as [|? ? Tk T']; subst. cbn [fst snd] in *.
        split; [|apply IH; auto; intros v0 J; apply (R v0); right; exact J]. split; [|apply Wv]. cbn [fst]. destruct k; cbn in Tk |- *; try tauto. intros ->. apply (R v). left. reflexivity.
      + cbn [objs]. clear - W. induction W as [|[k v] d [_ (_ & O & _)] F IH]; [reflexivity|]. cbn [flat_map snd] in *. rewrite O, IH. reflexivity.
      + cbn [mdepth]. apply le_n_S. apply lmax_bound. apply Forall_map. eapply Forall_impl; [|exact W]. intros kv [_ (_ & _ & _ & D)]. exact D.
      + exists w. split; [exact A|]. intros srv2 st2. split; [intros _|contradiction]. apply B. intros p J. exfalso.
        cbn [proxies] in J. apply in_flat_map in J. destruct J as (kv & K & J). unfold whole_items in W. rewrite Forall_forall in W. destruct (W _ K) as [_ (_ & _ & P & _)]. rewrite P in J. exact J.
    - destruct (other_key_refused 512 (VDict d) (ok_here E 511 d k v W I X) 512 srv st ltac:(lia)) as (w & A & B). exists w. split; [exact A|].
      intros srv2 st2. split; [|auto]. intros F. rewrite Forall_forall in F. destruct (X (F _ I)).
  Qed.
End Keys.

Section Calls.
  Variable V : venv.
  Hypothesis GV : good_venv V.

  Lemma result_unreadable s a v : other_key_in (ve_ser V) 511 v -> served V s (a_caller a) "msgpack" -> 0 <= m_req (a_msg a) ->
    m_action (a_msg a) <> "close" -> m_rt (a_msg a) <> "proxy" ->
    exists p, finish_request V s a (Ok v) = (s, [Sent (a_caller a) p], None) /\
      forall k, c_ser k = "msgpack" -> client_recv V k p = (k, Some ValueError).
  Proof.
    intros O (U & Dc & Sm & Op) Rq Ac Rt.
    destruct (pack_reply V GV 509 (Some (sv_addr s)) (m_req (a_msg a))) as (wr & Ur & P).
    destruct (other_key_refused (ve_ser V) (gv_ser V GV) 511 v O 511 (Some (sv_addr s)) (sv_st s) ltac:(lia)) as (w & A & B).
    assert (Pk : msgpack_dumps (ve_ser V) (Some (sv_addr s)) (sv_st s) (reply (m_req (a_msg a)) v VNone) =
      (sv_st s, Ok (WMap [(WStr "action", WStr "return"); (WStr "req_id", wr); (WStr "rval", w); (WStr "error", WNil)]))).
    { unfold msgpack_dumps. change 512%nat with (S (S (S 509))). rewrite P. change (S (S 509)) with 511%nat. rewrite A. reflexivity. }
    exists (PPack (WMap [(WStr "action", WStr "return"); (WStr "req_id", wr); (WStr "rval", w); (WStr "error", WNil)])). split.
    - unfold finish_request. replace (0 <=? m_req (a_msg a)) with true by (symmetry; apply Z.leb_le; exact Rq).
      assert (Ap : (if String.eqb (m_rt (a_msg a)) "auto" then auto_proxy V s v
         else if String.eqb (m_rt (a_msg a)) "proxy" then make_proxy V s v else (s, Ok v)) = (s, Ok v)).
      { destruct (String.eqb_spec (m_rt (a_msg a)) "auto").
        - unfold auto_proxy. rewrite (ge_types _ (gv_ser V GV)) by (inversion O; discriminate). reflexivity.
        - destruct (String.eqb_spec (m_rt (a_msg a)) "proxy"); [contradiction|reflexivity]. }
      rewrite Ap. unfold send_result. rewrite U, Dc, Sm. unfold dumps. cbn [String.eqb Ascii.eqb Bool.eqb]. rewrite Pk. cbn [bind].
      assert (Es : set_st s (sv_st s) = s) by (destruct s; reflexivity). rewrite Es. unfold sock_send. rewrite Op.
      destruct (String.eqb_spec (m_action (a_msg a)) "close"); [contradiction|reflexivity].
    - intros k Es. unfold client_recv, loads. rewrite Es. cbn [String.eqb Ascii.eqb Bool.eqb].
      rewrite (unpack_reply V _ (m_req (a_msg a))) by apply Ur. rewrite B. reflexivity.
  Qed.
End Calls.
