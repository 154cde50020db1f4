(** Requests from the client's method call to the server's action. *)
From Verif Require Import Py ObjTableModel ObjTableSpec ObjTableProofs SerModel SerSpec SerProofs SerProofs2 SerProofsJ
  FrameModel FrameProofs ServerModel ClientModel WireSpec WireProofs ServerProofs ServerProofs2 ClientProofs
  ApiModel ApiSpec RpcModel RpcSpec ApiProofs.

Section Api2.
  Variable V : venv.
  Hypothesis GV : good_venv V.
  Let E := ve_ser V.
  Let GE : good_env E := gv_ser V GV.

  (** {'obj': proxy} on the wire, also if the proxy cannot be resolved *)
  Lemma get_wire t srv st p :
    exists pl, dumps V t srv st (fields [("obj", VProxy p)]) = (st, Ok pl) /\ pl <> PEmpty /\
      forall srv2 st2, loads V t srv2 st2 pl = bind (home E srv2 st2 p) (fun v => Ok (fields [("obj", v)])).
  Proof.
    unfold dumps, loads. destruct (String.eqb t "msgpack") eqn:T.
    - destruct (pack_proxy E GE srv 511 st p) as (w & P & U).
      { destruct (p_attrs p); repeat constructor. }
      assert (G : pack E 512 srv st (fields [("obj", VProxy p)]) = (st, Ok (WMap [(WStr "obj", w)]))).
      { change (pack E (S 511) srv st (fields [("obj", VProxy p)]) = (st, Ok (WMap [(WStr "obj", w)]))).
        assert (K : forall n, pack E (S n) srv st (VStr "obj") = (st, Ok (WStr "obj"))) by reflexivity.
        assert (Q : pack E (S 510) srv st (VProxy p) = (st, Ok w)).
        { rewrite pack_S. cbn [pack_native]. unfold encode. rewrite (ge_types _ GE) by discriminate.
          unfold encode_value. cbn [base_of]. cbn [pred] in P. rewrite P. reflexivity. }
        rewrite pack_S. cbn [fields map pack_native pack_pairs]. rewrite (K 510%nat). cbv beta iota. rewrite Q. reflexivity. }
      exists (PPack (WMap [(WStr "obj", w)])). unfold msgpack_dumps. fold E. rewrite G. split; [reflexivity|]. split; [discriminate|].
      intros srv2 st2. rewrite unpack_wmap. cbn [unpack_map unpack bind]. rewrite U.
      destruct (home E srv2 st2 p); reflexivity.
    - pose proof (gv_limit V GV) as L. destruct (ve_limit V) as [|[|n]]; try lia.
      destruct (jproxy E srv n st p) as (j & P & U); [lia|].
      assert (G : jdumps E (S (S n)) srv st (fields [("obj", VProxy p)]) = (st, Ok (JObj [("obj", j)]))).
      { rewrite jdumps_S. cbn [fields map j_native base_of j_pairs json_key]. rewrite jdumps_S. cbn [j_native base_of].
        unfold jencode, encode. cbn [base_of]. rewrite (ge_types _ GE) by discriminate.
        unfold encode_value. cbn [base_of]. rewrite P. reflexivity. }
      exists (PJson (JObj [("obj", j)])). fold E. rewrite G. split; [reflexivity|]. split; [discriminate|].
      intros srv2 st2. rewrite jloads_obj. cbn [jl_obj]. rewrite U. cbn [bind].
      destruct (home E srv2 st2 p); reflexivity.
  Qed.

  (** [get_obj(proxy)]: the outcome at the server is whatever the proxy stands for *)
  Lemma get_obj_outcome k p rt sync s c : c_disc k = false -> c_open k = true ->
    ve_utf8 V c = true -> smem (c_ser k) (sv_sers s) = true -> sv_open s = true -> p_addr p = sv_addr s ->
    exists k' m r, send V k (rq_action (rq_get (VProxy p))) (rq_opts (rq_get (VProxy p))) rt sync = (k', Some m, r) /\
      exists s' os, begin_request V s c m = (s', os, Finished (unwrap_proxy E (sv_st s) p) None).
  Proof.
    intros D O U S So Ad. cbn [rq_get rq_action rq_opts].
    destruct (get_wire (c_ser k) (c_local k) (c_st k) p) as (pl & Du & NE & L).
    assert (G : forall req, exists s' os, begin_request V s c (mkMsg req "get_obj" rt (c_ser k) pl)
              = (s', os, Finished (unwrap_proxy E (sv_st s) p) None)).
    { intro req. set (m := mkMsg req "get_obj" rt (c_ser k) pl).
      assert (W : served V (with_client s c m) c (c_ser k)) by (apply (with_client_served V s c m); assumption).
      assert (Op : options V s m = bind (unwrap_proxy E (sv_st s) p) (fun v => Ok (fields [("obj", v)]))).
      { unfold options, m. cbn [m_opts m_ser]. specialize (L (Some (sv_addr s)) (sv_st s)). unfold home in L.
        rewrite Ad, String.eqb_refl in L. destruct pl; try exact L. congruence. }
      unfold begin_request. fold (with_client s c m). change (sv_sers (with_client s c m)) with (sv_sers s).
      change (m_ser m) with (c_ser k). rewrite S, U.
      change (match m_opts m with PEmpty => Ok VNone | p => loads V (c_ser k) (Some (sv_addr (with_client s c m))) (sv_st (with_client s c m)) p end)
        with (options V s m). rewrite Op.
      destruct (unwrap_proxy E (sv_st s) p) as [v|e]; cbn [bind].
      - unfold process_action. cbn.
        destruct (finish_answer V GV (with_client s c m) (mkAct c m) (Ok v) (c_ser k) W) as (s' & o & F & _); [cbn; discriminate|].
        rewrite F. eauto.
      - destruct (finish_answer V GV (with_client s c m) (mkAct c m) (Err e) (c_ser k) W) as (s' & o & F & _); [cbn; discriminate|].
        rewrite F. eauto. }
    unfold send. rewrite D.
    destruct sync; cbn [set_next c_ser c_local c_st c_open set_cst]; rewrite Du; cbn [set_cst c_open c_ser set_next]; rewrite O;
      eexists _, _, _; (split; [reflexivity|]); apply G.
  Qed.

  (** ** Remote calls *)
  Lemma subst_fields h l : subst h (fields l) = fields (map (fun kx => (fst kx, subst h (snd kx))) l).
  Proof. unfold fields. cbn [subst]. f_equal. rewrite !map_map. apply map_ext. intros [a b]. reflexivity. Qed.

  Lemma remote_call k p args kw rt sync s c h : c_disc k = false -> c_open k = true ->
    ve_utf8 V c = true -> smem (c_ser k) (sv_sers s) = true ->
    NoDup (map fst kw) -> objs E (fields [("obj", VProxy p); ("args", VTuple args); ("kwargs", fields kw)]) = [] ->
    supported V (c_ser k) (fields [("obj", VProxy p); ("args", VTuple args); ("kwargs", fields kw)]) ->
    stands_for V s (proxies (fields [("obj", VProxy p); ("args", VTuple args); ("kwargs", fields kw)])) h ->
    exists k' m r, send V k (rq_action (rq_proxy_call p args kw)) (rq_opts (rq_proxy_call p args kw)) rt sync = (k', Some m, r) /\
      exists s', begin_request V s c m = (s', [], InCall (mkAct c m) (h p)
          (map (fun x => subst h (seen V (c_ser k) x)) args)
          (map (fun kx => (VStr (fst kx), subst h (seen V (c_ser k) (snd kx)))) kw)) /\
        sv_names s' = sv_names s /\ sv_st s' = sv_st s.
  Proof.
    intros D O U S ND Ob Su SF. cbn [rq_proxy_call rq_call rq_action rq_opts].
    destruct (request_arrives V GV k "call_obj" _ rt sync D O Su Ob) as (k' & m & r & Se & A & _ & Sr & Op).
    exists k', m, r. split; [exact Se|]. specialize (Op s h SF). rewrite seen_call, seen_proxy, seen_kw in Op by exact ND.
    rewrite subst_fields in Op. cbn [map fst snd] in Op. rewrite subst_fields, map_map in Op. cbn [fst snd] in Op.
    destruct (seen_args V (c_ser k) args) as [Ea|Ea]; rewrite Ea in Op; cbn [subst] in Op; rewrite map_map in Op.
    - destruct (call_begins V s c m (h p) (map (fun x => subst h (seen V (c_ser k) x)) args)
                  (map (fun kx => (fst kx, subst h (seen V (c_ser k) (snd kx)))) kw) U) with (2 := A) (3 := Op) as (s' & B & N); auto.
      + rewrite Sr. exact S.
      + exists s'. rewrite B, map_map. split; [reflexivity|exact N].
    - destruct (call_begins V s c m (h p) (map (fun x => subst h (seen V (c_ser k) x)) args)
                  (map (fun kx => (fst kx, subst h (seen V (c_ser k) (snd kx)))) kw) U) with (2 := A) (3 := Op) as (s' & B & N); auto.
      + rewrite Sr. exact S.
      + exists s'. rewrite B, map_map. split; [reflexivity|exact N].
  Qed.

  (** calling with the default arguments of [call_obj] *)
  Lemma supported_call k p : p_attrs p = [] -> supported V (c_ser k) (fields [("obj", VProxy p); ("args", VNone); ("kwargs", VNone)]).
  Proof.
    intro A. pose proof (gv_limit V GV) as L. unfold supported. destruct (String.eqb (c_ser k) "msgpack").
    - split.
      + cbn. repeat split; try discriminate. repeat (constructor; [intro H; cbn in H; repeat (destruct H as [H|H]; [discriminate H|]); destruct H|]). constructor.
      + cbn. rewrite A. repeat constructor.
    - split; [|cbn; lia]. cbn. repeat split; eexists; (split; [reflexivity|discriminate]).
  Qed.
  Lemma default_call k p rt sync s c h : c_disc k = false -> c_open k = true ->
    ve_utf8 V c = true -> smem (c_ser k) (sv_sers s) = true -> p_attrs p = [] -> stands_for V s [p] h ->
    exists k' m r, send V k (rq_action (rq_call_default (VProxy p))) (rq_opts (rq_call_default (VProxy p))) rt sync = (k', Some m, r) /\
      exists s' os esc, begin_request V s c m = (s', os, Finished (Err TypeError) esc).
  Proof.
    intros D O U S A SF. cbn [rq_call_default rq_call rq_action rq_opts].
    destruct (request_arrives V GV k "call_obj" _ rt sync D O (supported_call k p A)) as (k' & m & r & Se & Ac & _ & Sr & Op); [reflexivity|].
    exists k', m, r. split; [exact Se|]. specialize (Op s h SF).
    rewrite seen_call, seen_proxy, seen_none in Op. rewrite subst_fields in Op. cbn [map fst snd subst] in Op.
    eapply call_none; eauto. rewrite Sr. exact S.
  Qed.

  (** ** Imports *)
  Lemma import_outcome k a l rt sync s c : c_disc k = false -> c_open k = true ->
    ve_utf8 V c = true -> smem (c_ser k) (sv_sers s) = true -> sv_open s = true ->
    a <> "" -> Forall no_dot (a :: l) ->
    exists k' m r, send V k (rq_action (rq_import (dotted (a :: l)))) (rq_opts (rq_import (dotted (a :: l)))) rt sync = (k', Some m, r) /\
      exists s' os, begin_request V s c m =
        (s', os, Finished (bind (ve_import V (dotted (a :: l))) (fun top => getattrs E top l)) None).
  Proof.
    intros D O U S So Na F. cbn [rq_import rq_action rq_opts].
    assert (Su : supported V (c_ser k) (fields [("module", VStr (dotted (a :: l)))])).
    { pose proof (gv_limit V GV) as L. unfold supported. destruct (String.eqb (c_ser k) "msgpack").
      - split; [|cbn; repeat constructor]. cbn. repeat split; try discriminate. constructor; [intros []|constructor].
      - split; [|cbn; lia]. cbn. repeat split. eexists; (split; [reflexivity|discriminate]). }
    destruct (request_arrives V GV k "import" _ rt sync D O Su) as (k' & m & r & Se & Ac & _ & Sr & Op); [reflexivity|].
    exists k', m, r. split; [exact Se|]. specialize (Op s VProxy (fun q => False_ind _)).
    rewrite subst_id in Op. rewrite seen_fields1, seen_str in Op.
    assert (W : served V (with_client s c m) c (c_ser k)).
    { pose proof (with_client_served V s c m U) as W. rewrite Sr in W. apply W; assumption. }
    unfold begin_request. fold (with_client s c m). change (sv_sers (with_client s c m)) with (sv_sers s).
    unfold options in Op. rewrite Sr in Op. rewrite Sr, S, U.
    change (sv_addr (with_client s c m)) with (sv_addr s). change (sv_st (with_client s c m)) with (sv_st s). rewrite Op, Ac. unfold process_action.
    change (String.eqb "import" "call_obj") with false. change (String.eqb "import" "get_obj") with false.
    change (String.eqb "import" "delete") with false. change (String.eqb "import" "get_item") with false.
    change (String.eqb "import" "set_item") with false. change (String.eqb "import" "import") with true. cbv iota beta.
    rewrite import_dotted by assumption.
    set (r0 := bind _ _).
    destruct (finish_answer V GV (with_client s c m) (mkAct c m) r0 (c_ser k) W) as (s' & o & Fi & _).
    { cbn [a_msg]. rewrite Ac. discriminate. }
    rewrite Fi. eauto.
  Qed.

  (** ** Names *)
  Lemma set_item_arrives k n v rt sync : c_disc k = false -> c_open k = true ->
    supported V (c_ser k) (fields [("name", VStr n); ("obj", v)]) -> objs E v = [] ->
    exists k' m r, send V k (rq_action (rq_setitem n v)) (rq_opts (rq_setitem n v)) rt sync = (k', Some m, r) /\
      m_action m = "set_item" /\
      forall s h, stands_for V s (proxies v) h ->
        options V s m = Ok (fields [("name", VStr n); ("obj", subst h (seen V (c_ser k) v))]).
  Proof.
    intros D O Su Ob. cbn [rq_setitem rq_action rq_opts].
    destruct (request_arrives V GV k "set_item" _ rt sync D O Su) as (k' & m & r & Se & Ac & _ & Sr & Op).
    { cbn [fields map objs flat_map snd app]. fold E. rewrite Ob. reflexivity. }
    exists k', m, r. split; [exact Se|]. split; [exact Ac|]. intros s h SF.
    rewrite (Op s h); [rewrite seen_name_obj, seen_str, subst_fields; reflexivity|].
    intros q I. apply SF. cbn [fields map proxies flat_map snd app] in I. rewrite app_nil_r in I. exact I.
  Qed.
  Lemma get_item_arrives k n rt sync : c_disc k = false -> c_open k = true ->
    exists k' m r, send V k (rq_action (rq_getitem n)) (rq_opts (rq_getitem n)) rt sync = (k', Some m, r) /\
      m_action m = "get_item" /\
      forall s, options V s m = Ok (fields [("name", VStr n)]).
  Proof.
    intros D O. cbn [rq_getitem rq_action rq_opts].
    assert (Su : supported V (c_ser k) (fields [("name", VStr n)])).
    { pose proof (gv_limit V GV) as L. unfold supported. destruct (String.eqb (c_ser k) "msgpack").
      - split; [|cbn; repeat constructor]. cbn. repeat split; try discriminate. constructor; [intros []|constructor].
      - split; [|cbn; lia]. cbn. repeat split. eexists; (split; [reflexivity|discriminate]). }
    destruct (request_arrives V GV k "get_item" _ rt sync D O Su) as (k' & m & r & Se & Ac & _ & Sr & Op); [reflexivity|].
    exists k', m, r. split; [exact Se|]. split; [exact Ac|]. intros s.
    rewrite (Op s VProxy (fun q => False_ind _)). rewrite subst_id, seen_fields1, seen_str. reflexivity.
  Qed.

  (** ** Deleting *)
  Lemma delete_arrives k p rt sync : c_disc k = false -> c_open k = true ->
    exists k' m r, send V k (rq_action (rq_delete p)) (rq_opts (rq_delete p)) rt sync = (k', Some m, r) /\
      m_action m = "delete" /\
      forall s, options V s m = Ok (fields [("obj_id", VInt (p_oid p)); ("ref_id", VInt (p_rid p))]).
  Proof.
    intros D O. cbn [rq_delete rq_action rq_opts].
    assert (Su : supported V (c_ser k) (fields [("obj_id", VInt (p_oid p)); ("ref_id", VInt (p_rid p))])).
    { pose proof (gv_limit V GV) as L. unfold supported. destruct (String.eqb (c_ser k) "msgpack").
      - split.
        + cbn. repeat split; try discriminate. repeat (constructor; [intro H; cbn in H; repeat (destruct H as [H|H]; [discriminate H|]); destruct H|]). constructor.
        + cbn [fields map mdepth snd lmax fold_right]. pose proof (zdepth_le (p_oid p)). pose proof (zdepth_le (p_rid p)).
          apply Nat.le_trans with 4%nat; [lia|repeat constructor].
      - split; [|cbn; lia]. cbn. repeat split; eexists; (split; [reflexivity|discriminate]). }
    destruct (request_arrives V GV k "delete" _ rt sync D O Su) as (k' & m & r & Se & Ac & _ & Sr & Op); [reflexivity|].
    exists k', m, r. split; [exact Se|]. split; [exact Ac|]. intros s.
    rewrite (Op s VProxy (fun q => False_ind _)). rewrite subst_id. unfold seen. destruct (String.eqb _ _); reflexivity.
  Qed.
End Api2.
