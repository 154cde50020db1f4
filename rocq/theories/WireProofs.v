(** Both serializers under one roof, and how replies travel. *)
From Verif Require Import Py ObjTableModel ObjTableSpec ObjTableProofs SerModel SerSpec SerProofs SerProofs2 SerProofsJ
  FrameModel ServerModel ClientModel WireSpec.

Section Wire.
  Variable V : venv.
  Hypothesis GV : good_venv V.
  Let E := ve_ser V.
  Let GE : good_env E := gv_ser V GV.

  (** sending a supported value; what each receiver sees *)
  Lemma wire_send t addr srv st v :
    supported V t v -> alive E (ss_o st) v -> objs E v = [] \/ srv = Some addr ->
    exists st' p tr v',
      dumps V t srv st v = (st', Ok p) /\
      ss_boxes st' = ss_boxes st /\ hp (ss_o st') = hp (ss_o st) /\
      orun (ss_o st) (map fst tr) = (ss_o st', tr) /\
      arrives E addr v tr v' /\
      (objs E v = [] -> st' = st) /\
      (forall srv2 st2 h, (forall q, In q (proxies v') -> home E srv2 st2 q = Ok (h q)) ->
         loads V t srv2 st2 p = Ok (subst h (seen V t v'))).
  Proof.
    unfold supported, seen, dumps, loads. destruct (String.eqb t "msgpack") eqn:T.
    - intros [Hs Hd] Ha Hsrv.
      destruct (packs E GE addr v srv 512 st Hd Hs Ha Hsrv) as (st' & w & tr & v' & P & B & H & R & A & S & U).
      exists st', (PPack w), tr, v'. unfold msgpack_dumps. fold E. rewrite P. cbn [bind].
      repeat (apply conj; [first [reflexivity|assumption]|]). exact U.
    - intros [Hs Hd] Ha Hsrv.
      destruct (jpacks E GE addr v srv (ve_limit V) st Hd Hs Ha Hsrv) as (st' & w & tr & v' & P & B & H & R & A & S & U).
      exists st', (PJson w), tr, v'. fold E. rewrite P. cbn [bind].
      repeat (apply conj; [first [reflexivity|assumption]|]). exact U.
  Qed.

  (** plain values: unchanged state, same value everywhere *)
  Lemma arrives_plain addr v tr v' : arrives E addr v tr v' -> objs E v = [] -> v' = v /\ tr = [].
  Proof. apply (proj1 (arrives_same E addr)). Qed.

  Lemma subst_plain h v : proxies v = [] -> subst h v = v.
  Proof.
    induction v using pyval_ind'; cbn [proxies subst]; auto; try discriminate; intro P; f_equal.
    - induction H; [reflexivity|]. cbn [flat_map map] in *. apply app_eq_nil in P. destruct P. rewrite H, IHForall; auto.
    - induction H; [reflexivity|]. cbn [flat_map map] in *. apply app_eq_nil in P. destruct P. rewrite H, IHForall; auto.
    - induction H as [|[k v] r [_ Hv] F IH]; [reflexivity|]. cbn [flat_map map fst snd] in *.
      apply app_eq_nil in P. destruct P. rewrite Hv, IH; auto.
  Qed.

  Lemma jproxies_plain v : proxies v = [] -> jsendable E v -> forall h, subst h (jnf E v) = jnf E v.
  Proof. intros P S h. apply subst_jnf_same; [exact S|]. rewrite P. intros ? []. Qed.

  Lemma wire_plain t srv st v : supported V t v -> plain_value V v ->
    exists p, dumps V t srv st v = (st, Ok p) /\ forall srv2 st2, loads V t srv2 st2 p = Ok (seen V t v).
  Proof.
    intros S [O P]. destruct (wire_send t "" srv st v S (alive_none _ _ _ O) (or_introl O))
      as (st' & p & tr & v' & D & _ & _ & _ & A & St & U).
    rewrite (St O) in D. destruct (arrives_plain _ _ _ _ A O) as [-> ->].
    exists p. split; [exact D|]. intros. rewrite (U srv2 st2 VProxy); [|rewrite P; intros ? []].
    f_equal. apply subst_id.
  Qed.

  (** ** Replies *)
  Let st0 : sst := mkSst ostate_init [].
  Lemma pack_reply n srv req : exists wr,
    (forall srv2 st2, unpack E srv2 st2 wr = Ok (VInt req)) /\
    forall st rv er, pack E (S (S (S n))) srv st (reply req rv er) =
      let '(st1, r1) := pack E (S (S n)) srv st rv in
      match r1 with
      | Err e => (st1, Err e)
      | Ok w1 =>
          let '(st2, r2) := pack E (S (S n)) srv st1 er in
          (st2, bind r2 (fun w2 => Ok (WMap [(WStr "action", WStr "return"); (WStr "req_id", wr);
                                             (WStr "rval", w1); (WStr "error", w2)])))
      end.
  Proof.
    destruct (pack_int E GE srv (S (S n)) st0 req) as (wr & P0 & U);
      [pose proof (zdepth_le req); lia|].
    assert (P : forall st, pack E (S (S n)) srv st (VInt req) = (st, Ok wr)).
    { intro st. rewrite pack_S in P0 |- *. cbn [pack_native] in *. destruct (int_fits req).
      - injection P0 as <-. reflexivity.
      - unfold encode in *. rewrite (ge_types E GE (VInt req)) in * by discriminate.
        destruct (encode_value E (VInt req)) as [v|e] eqn:Ev; [|discriminate].
        unfold encode_value in Ev. cbn [base_of] in Ev. destruct (pickle_dumps E (VInt req)) as [s|]; [|discriminate].
        cbn [bind] in Ev. injection Ev as <-. rewrite pack_fields_pickle in *. congruence. }
    exists wr. split; [exact U|]. intros st rv er. rewrite pack_S. unfold reply, fields.
    cbn [map pack_native pack_pairs]. pk. rewrite P. pk.
    destruct (pack E (S (S n)) srv st rv) as [st1 [w1|e]]; [|reflexivity]. pk.
    destruct (pack E (S (S n)) srv st1 er) as [st2 [w2|e]]; reflexivity.
  Qed.

  Lemma unpack_reply wr req w1 w2 srv2 st2 : unpack E srv2 st2 wr = Ok (VInt req) ->
    unpack E srv2 st2 (WMap [(WStr "action", WStr "return"); (WStr "req_id", wr); (WStr "rval", w1); (WStr "error", w2)])
    = bind (unpack E srv2 st2 w1) (fun v => bind (unpack E srv2 st2 w2) (fun e => Ok (reply req v e))).
  Proof.
    intro U. rewrite unpack_wmap. cbn [unpack_map]. rewrite U. cbn [unpack bind map_item key_ok].
    destruct (unpack E srv2 st2 w1) as [v|e]; [|reflexivity]. cbn [bind map_item key_ok].
    destruct (unpack E srv2 st2 w2) as [v2|e]; reflexivity.
  Qed.

  Lemma json_reply n srv req st rv er : jdumps E (S (S n)) srv st (reply req rv er) =
      let '(st1, r1) := jdumps E (S n) srv st rv in
      match r1 with
      | Err e => (st1, Err e)
      | Ok w1 =>
          let '(st2, r2) := jdumps E (S n) srv st1 er in
          (st2, bind r2 (fun w2 => Ok (JObj [("action", JStr "return"); ("req_id", JInt req);
                                             ("rval", w1); ("error", w2)])))
      end.
  Proof.
    unfold reply. jfields. rewrite jint. cbv beta iota.
    destruct (jdumps E (S n) srv st rv) as [st1 [w1|e]]; [|reflexivity]. cbv beta iota.
    destruct (jdumps E (S n) srv st1 er) as [st2 [w2|e]]; reflexivity.
  Qed.
  Lemma jloads_reply req w1 w2 srv2 st2 :
    jloads E srv2 st2 (JObj [("action", JStr "return"); ("req_id", JInt req); ("rval", w1); ("error", w2)])
    = bind (jloads E srv2 st2 w1) (fun v => bind (jloads E srv2 st2 w2) (fun e => Ok (reply req v e))).
  Proof.
    rewrite jloads_obj. cbn [jl_obj jloads bind].
    destruct (jloads E srv2 st2 w1) as [v|e]; [|reflexivity]. cbn [bind].
    destruct (jloads E srv2 st2 w2) as [v2|e]; reflexivity.
  Qed.

  (** the error value of the server as the client reads it *)
  Lemma pack_error n srv st e : exists w, pack E (S (S (S (S n)))) srv st (error_value V e) = (st, Ok w) /\
    forall srv2 st2, unpack E srv2 st2 w = Ok (error_value V e).
  Proof.
    destruct (msgpack_roundtrip E GE srv (S (S (S (S n)))) st (error_value V e)) as (w & P & U).
    - cbn. tauto.
    - reflexivity.
    - cbn. lia.
    - exists w. split; [exact P|]. intros. apply U. intros ? [].
  Qed.
  Lemma json_error n srv st e : exists j, jdumps E (S (S (S n))) srv st (error_value V e) = (st, Ok j) /\
    forall srv2 st2, jloads E srv2 st2 j = Ok (jnf E (error_value V e)).
  Proof.
    destruct (json_roundtrip E GE srv (S (S (S n))) st (error_value V e)) as (w & P & U).
    - cbn. tauto.
    - reflexivity.
    - cbn. lia.
    - exists w. split; [exact P|]. intros. apply U. intros ? [].
  Qed.
  Lemma remote_error t e : remote_exc (seen V t (error_value V e)) = Ok (RemoteCallException (exn_name e)).
  Proof. unfold seen. destruct (String.eqb t "msgpack"); reflexivity. Qed.

  (** How a reply is read back, whatever the result was *)
  Lemma reply_ok t srv st req rv st' p : dumps V t srv st (reply req rv VNone) = (st', Ok p) ->
    exists f, forall srv2 st2, loads V t srv2 st2 p = bind (f srv2 st2) (fun v => Ok (reply req v VNone)).
  Proof.
    unfold dumps, loads. pose proof (gv_limit V GV) as HL. destruct (String.eqb t "msgpack").
    - unfold msgpack_dumps. destruct (pack_reply 509 srv req) as (wr & U & P). fold E.
      pose proof (P st rv VNone) as Q. clear P. intro H.
      assert (G : forall n st, pack E (S n) srv st VNone = (st, Ok WNil)) by reflexivity.
      rewrite Q in H. destruct (pack E 511 srv st rv) as [st1 [w1|e]]; [|discriminate H]. rewrite (G 510%nat) in H.
      cbn [bind] in H. injection H as <- <-. exists (fun srv2 st2 => unpack E srv2 st2 w1). intros.
      rewrite (unpack_reply wr req w1 WNil _ _ (U _ _)). destruct (unpack E srv2 st2 w1); reflexivity.
    - destruct (ve_limit V) as [|[|n]]; try lia. fold E. rewrite json_reply.
      destruct (jdumps E (S n) srv st rv) as [st1 [w1|e]]; [|discriminate].
      intro H. cbn in H. injection H as <- <-. exists (fun srv2 st2 => jloads E srv2 st2 w1). intros.
      rewrite jloads_reply. destruct (jloads E srv2 st2 w1); reflexivity.
  Qed.

  Lemma reply_error t srv st req e :
    exists p, dumps V t srv st (reply req VNone (error_value V e)) = (st, Ok p) /\
      forall srv2 st2, loads V t srv2 st2 p = Ok (reply req VNone (seen V t (error_value V e))).
  Proof.
    unfold dumps, loads, seen. pose proof (gv_limit V GV) as HL. destruct (String.eqb t "msgpack").
    - unfold msgpack_dumps. destruct (pack_reply 509 srv req) as (wr & U & P). fold E. rewrite P. clear P.
      assert (G : forall n st, pack E (S n) srv st VNone = (st, Ok WNil)) by reflexivity. rewrite (G 510%nat).
      destruct (pack_error 507 srv st e) as (w & P & Ue). rewrite P. cbv beta iota. cbn [bind]. eexists. split; [reflexivity|]. intros. cbv beta iota.
      rewrite (unpack_reply wr req WNil w _ _ (U _ _)). rewrite Ue. reflexivity.
    - destruct (ve_limit V) as [|[|[|[|n]]]]; try lia. fold E. rewrite json_reply.
      destruct (json_error n srv st e) as (w & P & Ue).
      change (jdumps E (S (S (S n))) srv st VNone) with (st, @Ok json JNull). cbv beta iota. rewrite P. cbv beta iota. cbn [bind].
      eexists. split; [reflexivity|]. intros. cbv beta iota. rewrite jloads_reply, Ue. reflexivity.
  Qed.

  Lemma reply_send t addr srv st req v : carried V t v -> alive E (ss_o st) v -> objs E v = [] \/ srv = Some addr ->
    exists st' p tr v',
      dumps V t srv st (reply req v VNone) = (st', Ok p) /\
      ss_boxes st' = ss_boxes st /\ hp (ss_o st') = hp (ss_o st) /\
      orun (ss_o st) (map fst tr) = (ss_o st', tr) /\
      arrives E addr v tr v' /\
      (objs E v = [] -> st' = st) /\
      (forall srv2 st2 h, (forall q, In q (proxies v') -> home E srv2 st2 q = Ok (h q)) ->
         loads V t srv2 st2 p = Ok (reply req (subst h (seen V t v')) VNone)).
  Proof.
    unfold carried, seen, dumps, loads. pose proof (gv_limit V GV) as HL. destruct (String.eqb t "msgpack") eqn:T.
    - intros [Hs Hd] Ha Hsrv.
      destruct (packs E GE addr v srv 511 st Hd Hs Ha Hsrv) as (st' & w & tr & v' & P & B & H & R & A & S & U).
      unfold msgpack_dumps. destruct (pack_reply 509 srv req) as (wr & Ur & Q). fold E. rewrite Q, P.
      assert (G : forall n st, pack E (Datatypes.S n) srv st VNone = (st, Ok WNil)) by reflexivity. rewrite (G 510%nat).
      cbv beta iota; cbn [bind]. eexists st', _, tr, v'. apply conj; [reflexivity|]. cbv beta iota.
      repeat (apply conj; [first [reflexivity|assumption]|]). intros srv2 st2 h Hh. cbv beta iota.
      rewrite (unpack_reply wr req w WNil _ _ (Ur _ _)), (U _ _ h Hh). reflexivity.
    - intros [Hs Hd] Ha Hsrv. destruct (ve_limit V) as [|[|n]]; try lia. 
      destruct (jpacks E GE addr v srv (S n) st ltac:(unfold E in *; lia) Hs Ha Hsrv) as (st' & w & tr & v' & P & B & H & R & A & S & U).
      fold E. rewrite json_reply, P. cbv beta iota; cbn [bind]. eexists st', _, tr, v'. apply conj; [reflexivity|]. cbv beta iota.
      repeat (apply conj; [first [reflexivity|assumption]|]). intros srv2 st2 h Hh. cbv beta iota.
      rewrite jloads_reply, (U _ _ h Hh). reflexivity.
  Qed.

  (** the disconnect notice *)
  Lemma notice_wire t srv st : exists p, dumps V t srv st notice = (st, Ok p) /\
    forall srv2 st2, loads V t srv2 st2 p = Ok notice.
  Proof.
    unfold dumps, loads. pose proof (gv_limit V GV) as HL. destruct (String.eqb t "msgpack").
    - unfold msgpack_dumps.
      assert (G : forall n st, pack (ve_ser V) (S (S n)) srv st notice
         = (st, Ok (WMap [(WStr "action", WStr "disconnect")]))) by reflexivity.
      rewrite (G 510%nat). eexists. split; reflexivity.
    - destruct (ve_limit V) as [|[|n]]; try lia. eexists. split; reflexivity.
  Qed.
End Wire.
