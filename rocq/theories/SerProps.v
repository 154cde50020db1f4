(** Properties C08, C09, C12, C13, C57, C58, C61: serialization. *)
From Verif Require Import Py ObjTableModel ObjTableSpec ObjTableProofs DateTimeModel DateTimeSpec DateTimeProofs NdArrayModel
  SerModel SerSpec SerProofs SerProofs2 SerProofsJ.
From Coq Require Import DecimalString DecimalZ.

(** An environment to state concrete cases in: user objects are not serializable,
    ints and two dtypes can be pickled. *)
Definition i32 := mkDtype "int32" 4 KInt true.
Definition c128 := mkDtype "complex128" 16 KComplex true.
Definition demo_env : senv := {|
  ser_ok := fun v => match v with VObj _ => false | _ => true end;
  pickle_dumps := fun v => match v with
    | VInt z => Ok ("I" ++ str_of_Z z)%string
    | VDtype d => Ok ("D" ++ dt_str d)%string
    | VSub c (VInt z) => Ok ("S" ++ str_of_Z z)%string
    | _ => Err TypeError end;
  pickle_loads := fun s => match s with
    | String "I" r => match NilZero.int_of_string r with Some i => Ok (VInt (Z.of_int i)) | None => Err ValueError end
    | String "S" r => match NilZero.int_of_string r with Some i => Ok (VSub "Color" (VInt (Z.of_int i))) | None => Err ValueError end
    | "Dint32" => Ok (VDtype i32)
    | _ => Err ValueError end;
  np_dtype := fun s => match s with "int32" => Ok i32 | "complex128" => Ok c128 | _ => Err TypeError end;
  exec_dtype := fun s => Err TypeError;
  type_str := fun v => "<class 'thing'>";
  getattr_of := fun v a => Err AttributeError;
  float_repr := fun f => "1.5" |}.

Lemma str_of_Z_back z : NilZero.int_of_string (str_of_Z z) = Some (Z.to_int z).
Proof.
  unfold str_of_Z. apply NilZero.isi.
  - destruct z; cbn; [discriminate| |]; pose proof (DecimalPos.Unsigned.to_uint_nonnil p); congruence.
  - destruct z; cbn; try discriminate. pose proof (DecimalPos.Unsigned.to_uint_nonnil p). congruence.
Qed.
Lemma demo_good : good_env demo_env.
Proof.
  split.
  - intros v H. destruct v; try reflexivity. exfalso. eapply H. reflexivity.
  - intro z. exists ("I" ++ str_of_Z z)%string. split; [reflexivity|].
    cbn [pickle_loads demo_env append]. rewrite str_of_Z_back, DecimalZ.of_to. reflexivity.
Qed.

Definition st0 : sst := mkSst ostate_init [].
Definition demo_value : pyval :=
  VDict [(VStr "t", VTuple [VInt (2 ^ 70); VNone; VBytes "ab"]);
         (VBytes "d", VDate (mkDate 2024 2 29));
         (VStr "a", VNdarray i32 [1; 2]%nat "12345678");
         (VStr "n", VNp i32 (NInt 7));
         (VStr "p", VProxy (mkP "tcp://x:1" 3 4 "T" ["a"; "b"]));
         (VStr "e", VSub "Color" (VInt 2))].

(** C08.  The value arrives as it was sent, and the sender's state is untouched. *)
Theorem C08_msgpack_roundtrip :
  forall E, good_env E -> forall srv st v,
  sendable E v -> objs E v = [] -> (mdepth E v <= 512)%nat ->
  exists w, msgpack_dumps E srv st v = (st, Ok w) /\
    forall srv2 st2, (forall p, In p (proxies v) -> srv2 <> Some (p_addr p)) ->
      unpack E srv2 st2 w = Ok v.
Proof. intros E GE srv st v. exact (msgpack_roundtrip E GE srv 512 st v). Qed.
Print Assumptions C08_msgpack_roundtrip.

(** The nesting limit is exact: anything deeper is refused and changes nothing. *)
Theorem C08_deeper_values_are_refused :
  forall E, good_env E -> forall srv st v,
  sendable E v -> objs E v = [] -> (512 < mdepth E v)%nat ->
  msgpack_dumps E srv st v = (st, Err ValueError).
Proof. intros E GE srv st v Hs Ho Hd. exact (too_deep E GE srv v Hs Ho 512 st Hd). Qed.
Print Assumptions C08_deeper_values_are_refused.

Lemma demo_sendable : sendable demo_env demo_value.
Proof.
  assert (D : real_date (mkDate 2024 2 29)) by (apply real_date_is; reflexivity).
  cbn -[Z.pow real_date]. repeat match goal with |- real_date _ => exact D | |- array_ok _ _ _ => split | |- _ /\ _ => split end; try exact I; try reflexivity; try discriminate; try (vm_compute; discriminate).
  - exists "Dint32". split; reflexivity.
  - exists "S2". split; reflexivity.
  - repeat (constructor; [intro H; repeat (destruct H as [H|H]; [discriminate H|]); destruct H|]). constructor.
Qed.
Example C08_case : sendable demo_env demo_value /\ objs demo_env demo_value = [] /\
  (mdepth demo_env demo_value <= 512)%nat /\
  exists w, msgpack_dumps demo_env None st0 demo_value = (st0, Ok w) /\ unpack demo_env None st0 w = Ok demo_value.
Proof.
  split; [exact demo_sendable|]. split; [reflexivity|].
  assert (H : (mdepth demo_env demo_value <= 512)%nat) by (vm_compute; repeat constructor).
  split; [exact H|].
  destruct (C08_msgpack_roundtrip demo_env demo_good None st0 demo_value demo_sendable eq_refl H) as (w & P & U).
  exists w. split; [exact P|]. apply U. discriminate.
Qed.

(** C57.  A complex numpy scalar is a serializable type but cannot be sent. *)
Theorem C57_complex_scalar_refuted :
  forall E, good_env E -> forall srv st d,
  ser_ok E (VNp d NComplex) = true /\
  msgpack_dumps E srv st (VNp d NComplex) = (st, Err TypeError) /\
  forall n, jdumps E (S n) srv st (VNp d NComplex) = (st, Err TypeError).
Proof.
  intros E GE srv st d. assert (Hok : ser_ok E (VNp d NComplex) = true) by (apply (ge_types _ GE); discriminate).
  split; [exact Hok|]. split.
  - change (pack E (S 511) srv st (VNp d NComplex) = (st, Err TypeError)). generalize 511%nat. intro n.
    rewrite pack_S. cbn [pack_native]. unfold encode. rewrite Hok. reflexivity.
  - intro n. rewrite jdumps_S. cbn [j_native base_of]. unfold jencode, encode. cbn [base_of]. rewrite Hok. reflexivity.
Qed.
Print Assumptions C57_complex_scalar_refuted.

(** Every other numpy scalar arrives, through msgpack, unchanged. *)
Theorem C57_real_scalars_arrive_partial :
  forall E, good_env E -> forall srv st d n, picklable E (VDtype d) -> scalar_ok d n ->
  exists w, msgpack_dumps E srv st (VNp d n) = (st, Ok w) /\
    forall srv2 st2, unpack E srv2 st2 w = Ok (VNp d n).
Proof.
  intros E GE srv st d n Hp Hk.
  destruct (C08_msgpack_roundtrip E GE srv st (VNp d n) (conj Hp Hk) eq_refl) as (w & P & U).
  - cbn. repeat constructor.
  - exists w. split; [exact P|]. intros. apply U. intros p [].
Qed.
Print Assumptions C57_real_scalars_arrive_partial.

(** C58.  An instance of a subclass of tuple (a namedtuple, say) arrives as a plain tuple ... *)
Theorem C58_tuple_subclass_loses_type_refuted :
  forall E, good_env E -> forall srv st c l,
  sendable E (VTuple l) -> objs E (VTuple l) = [] -> (mdepth E (VTuple l) <= 512)%nat ->
  exists w, msgpack_dumps E srv st (VSub c (VTuple l)) = (st, Ok w) /\
    forall srv2 st2, (forall p, In p (proxies (VTuple l)) -> srv2 <> Some (p_addr p)) ->
      unpack E srv2 st2 w = Ok (VTuple l) /\ VTuple l <> VSub c (VTuple l).
Proof.
  intros E GE srv st c l Hs Ho Hd.
  destruct (C08_msgpack_roundtrip E GE srv st (VTuple l) Hs Ho Hd) as (w & P & U).
  exists w. split; [|intros; split; [apply U; assumption|discriminate]].
  rewrite <- P. change (pack E (S 511) srv st (VSub c (VTuple l)) = pack E (S 511) srv st (VTuple l)).
  generalize 511%nat. intro n. rewrite !pack_S. cbn [pack_native]. unfold encode.
  rewrite !(ge_types _ GE) by discriminate. reflexivity.
Qed.
Print Assumptions C58_tuple_subclass_loses_type_refuted.

(** ... while subclasses of int, float, str, bytes, list and dict keep their type. *)
Theorem C58_pickled_subclasses_keep_type_partial :
  forall E, good_env E -> forall srv st c v, pickled_class (VSub c v) -> picklable E (VSub c v) ->
  exists w, msgpack_dumps E srv st (VSub c v) = (st, Ok w) /\
    forall srv2 st2, unpack E srv2 st2 w = Ok (VSub c v).
Proof.
  intros E GE srv st c v Hc Hp.
  destruct (C08_msgpack_roundtrip E GE srv st (VSub c v) (conj Hc Hp) eq_refl) as (w & P & U).
  - cbn. repeat constructor.
  - exists w. split; [exact P|]. intros. apply U. intros p [].
Qed.
Print Assumptions C58_pickled_subclasses_keep_type_partial.

Example C58_case : sendable demo_env (VTuple [VInt 1; VInt 2]) /\
  pickled_class (VSub "Color" (VInt 2)) /\ picklable demo_env (VSub "Color" (VInt 2)).
Proof. split; [repeat split|]. split; [exact I|]. exists "S2". split; reflexivity. Qed.

(** C09.  Through JSON a value arrives as its normal form ... *)
Theorem C09_json_normal_form :
  forall E, good_env E -> forall srv limit st v,
  jsendable E v -> objs E v = [] -> (jdepth E v <= limit)%nat ->
  exists j, jdumps E limit srv st v = (st, Ok j) /\
    forall srv2 st2, (forall p, In p (proxies v) -> srv2 <> Some (p_addr p)) ->
      jloads E srv2 st2 j = Ok (jnf E v).
Proof. exact json_roundtrip. Qed.
Print Assumptions C09_json_normal_form.

(** ... and values in normal form arrive unchanged. *)
Theorem C09_json_normal_values_unchanged :
  forall E, good_env E -> forall srv limit st v,
  jsendable E v -> in_jnf v -> objs E v = [] -> (jdepth E v <= limit)%nat ->
  exists j, jdumps E limit srv st v = (st, Ok j) /\
    forall srv2 st2, (forall p, In p (proxies v) -> srv2 <> Some (p_addr p)) ->
      jloads E srv2 st2 j = Ok v.
Proof.
  intros E GE srv limit st v Hs Hn Ho Hd. destruct (json_roundtrip E GE srv limit st v Hs Ho Hd) as (j & P & U).
  exists j. split; [exact P|]. intros srv2 st2 H. rewrite (U srv2 st2 H), (jnf_normal E v Hn). reflexivity.
Qed.
Print Assumptions C09_json_normal_values_unchanged.

(** a dict whose keys 1 and "1" collide, nested in a tuple *)
Definition json_value : pyval :=
  VTuple [VDict [(VInt 1, VStr "a"); (VStr "k", VBytes "zz"); (VStr "1", VInt 5)]; VNp i32 (NInt 3);
          VNdarray i32 [1; 1]%nat "abcd"; VSub "Color" (VInt 2)].
Example C09_case : jsendable demo_env json_value /\ objs demo_env json_value = [] /\
  jnf demo_env json_value =
    VList [VDict [(VStr "1", VInt 5); (VStr "k", VBytes "zz")]; VNp i32 (NInt 3);
           VNdarray i32 [1; 1]%nat "abcd"; VInt 2] /\
  in_jnf (VDict [(VStr "k", VList [VBytes "zz"; VNone])]).
Proof.
  split; [|split; [reflexivity|split; [reflexivity|]]].
  - cbn. repeat split; try discriminate.
    + exists "1". split; [reflexivity|discriminate].
    + exists "k". split; [reflexivity|discriminate].
    + exists "1". split; [reflexivity|discriminate].
    + exists "Dint32". split; reflexivity.
  - cbn. repeat split; eauto. repeat (constructor; [intros []|]). constructor.
Qed.

(** C61.  A dict that uses the reserved key is not delivered: the two-entry dict below
    is accepted and arrives as a tuple. *)
Theorem C61_reserved_key_refuted :
  forall E srv st x, exists w,
    msgpack_dumps E srv st (VDict [(VStr "___type_name___", VStr "tuple"); (VStr "data", VList [VStr x])]) = (st, Ok w) /\
    forall srv2 st2, unpack E srv2 st2 w = Ok (VTuple [VStr x]).
Proof. exact reserved_tuple. Qed.
Print Assumptions C61_reserved_key_refuted.

(** However the receiver and the environment behave, a dict with the reserved key
    and any text under it other than "pickle" or "proxy" never arrives. *)
Theorem C61_reserved_key_never_arrives_partial :
  forall E srv st d s st' w srv2 st2 v,
  Forall (fun kv => exists x, fst kv = VStr x \/ fst kv = VBytes x) d -> NoDup (map fst d) ->
  In (VStr "___type_name___", VStr s) d -> s <> "pickle" -> s <> "proxy" ->
  msgpack_dumps E srv st (VDict d) = (st', Ok w) -> unpack E srv2 st2 w = Ok v -> v <> VDict d.
Proof.
  intros E srv st d s st' w srv2 st2 v Hk. apply (reserved_dict E 510).
  eapply Forall_impl; [|exact Hk]. intros kv (x & [->| ->]); reflexivity.
Qed.
Print Assumptions C61_reserved_key_never_arrives_partial.

(** Under "pickle" the receiver runs whatever the sender put into the dict. *)
Theorem C61_reserved_key_runs_pickle_refuted :
  forall E srv st code, exists w,
    msgpack_dumps E srv st (VDict [(VStr "___type_name___", VStr "pickle"); (VStr "pickle_str", VBytes code)]) = (st, Ok w) /\
    forall srv2 st2, unpack E srv2 st2 w = pickle_loads E code.
Proof.
  intros. exists (WMap [(WStr "___type_name___", WStr "pickle"); (WStr "pickle_str", WBin code)]).
  split; [|reflexivity].
  assert (G : forall n, pack E (S (S n)) srv st (VDict [(VStr "___type_name___", VStr "pickle"); (VStr "pickle_str", VBytes code)])
     = (st, Ok (WMap [(WStr "___type_name___", WStr "pickle"); (WStr "pickle_str", WBin code)]))) by reflexivity.
  exact (G 510%nat).
Qed.
Print Assumptions C61_reserved_key_runs_pickle_refuted.

(** C12.  A dict with str and bytes keys that does not use the reserved key arrives. *)
Theorem C12_dicts_arrive :
  forall E, good_env E -> forall srv st d,
  All (fun kv => good_key (fst kv) /\ sendable E (snd kv)) d -> NoDup (map fst d) ->
  objs E (VDict d) = [] -> proxies (VDict d) = [] -> (mdepth E (VDict d) <= 512)%nat ->
  exists w, msgpack_dumps E srv st (VDict d) = (st, Ok w) /\
    forall srv2 st2, unpack E srv2 st2 w = Ok (VDict d).
Proof.
  intros E GE srv st d Hs Hnd Ho Hp Hd.
  destruct (C08_msgpack_roundtrip E GE srv st (VDict d) (conj Hs Hnd) Ho Hd) as (w & P & U).
  exists w. split; [exact P|]. intros. apply U. rewrite Hp. intros p [].
Qed.
Print Assumptions C12_dicts_arrive.

Example C12_case : good_key (VStr "__type_name__") /\
  Forall (fun kv : pyval * pyval => exists x, fst kv = VStr x \/ fst kv = VBytes x)
    [(VStr "___type_name___", VStr "zip"); (VBytes "b", VNone)].
Proof. split; [discriminate|]. repeat constructor; eexists; (left; reflexivity) || (right; reflexivity). Qed.

(** C13.  Sending: the reference table changes exactly by one get_proxy per
    occurrence of an unserializable object, in order; the receiver sees the value
    with those proxies in place of the objects; all of them are undeleted. *)
Theorem C13_objects_arrive_as_proxies :
  forall E, good_env E -> forall addr st tr0 v,
  history (ss_o st) tr0 ->
  sendable E v -> alive E (ss_o st) v -> (mdepth E v <= 512)%nat ->
  exists st' w tr v',
    msgpack_dumps E (Some addr) st v = (st', Ok w) /\
    history (ss_o st') (tr0 ++ tr) /\ orun (ss_o st) (map fst tr) = (ss_o st', tr) /\
    map fst tr = map (fun o => GetProxy o true) (objs E v) /\
    (forall o oid rid, In (GetProxy o true, OProxy oid rid) tr -> outstanding (tr0 ++ tr) oid rid o) /\
    arrives E addr v tr v' /\
    forall srv2 st2, (forall p, In p (proxies v') -> srv2 <> Some (p_addr p)) ->
      unpack E srv2 st2 w = Ok v'.
Proof.
  intros E GE addr st tr0 v Hh Hs Ha Hd.
  destruct (msgpack_send E GE addr 512 st v Hs Ha Hd) as (st' & w & tr & v' & P & R & B & A & U).
  destruct (made_are_outstanding _ _ _ _ Hh R (arrives_getproxy E addr v tr v' A)) as [H1 H2].
  exists st', w, tr, v'. repeat (apply conj; [first [assumption | exact (proj1 (arrives_ops E addr) _ _ _ A)]|]).
  exact U.
Qed.
Print Assumptions C13_objects_arrive_as_proxies.

(** Coming home: whoever received the value with proxies sends it back, and as
    long as none of the proxies has been deleted the owner gets the very objects. *)
Theorem C13_proxies_come_home_as_objects :
  forall E, good_env E -> forall addr v tr v',
  sendable E v -> (mdepth E v <= 512)%nat -> arrives E addr v tr v' ->
  (forall p, In p (proxies v) -> p_addr p <> addr) ->
  forall srvc stc st2 tr2, history (ss_o st2) tr2 ->
  (forall o, dget (ss_boxes st2) o = None) ->
  (forall o oid rid, In (GetProxy o true, OProxy oid rid) tr -> outstanding tr2 oid rid o) ->
  exists w, msgpack_dumps E srvc stc v' = (stc, Ok w) /\ unpack E (Some addr) st2 w = Ok v.
Proof. intros E GE addr v tr v'. exact (msgpack_home E GE addr v tr v' 512). Qed.
Print Assumptions C13_proxies_come_home_as_objects.

(** The same through JSON, up to the JSON normal form. *)
Theorem C13_json_objects_arrive_as_proxies :
  forall E, good_env E -> forall addr limit st tr0 v,
  history (ss_o st) tr0 ->
  jsendable E v -> alive E (ss_o st) v -> (jdepth E v <= limit)%nat ->
  exists st' j tr v',
    jdumps E limit (Some addr) st v = (st', Ok j) /\
    history (ss_o st') (tr0 ++ tr) /\ orun (ss_o st) (map fst tr) = (ss_o st', tr) /\
    map fst tr = map (fun o => GetProxy o true) (objs E v) /\
    (forall o oid rid, In (GetProxy o true, OProxy oid rid) tr -> outstanding (tr0 ++ tr) oid rid o) /\
    arrives E addr v tr v' /\
    forall srv2 st2, (forall p, In p (proxies v') -> srv2 <> Some (p_addr p)) ->
      jloads E srv2 st2 j = Ok (jnf E v').
Proof.
  intros E GE addr limit st tr0 v Hh Hs Ha Hd.
  destruct (json_send E GE addr limit st v Hs Ha Hd) as (st' & w & tr & v' & P & R & B & A & U).
  destruct (made_are_outstanding _ _ _ _ Hh R (arrives_getproxy E addr v tr v' A)) as [H1 H2].
  exists st', w, tr, v'. repeat (apply conj; [first [assumption | exact (proj1 (arrives_ops E addr) _ _ _ A)]|]).
  exact U.
Qed.
Print Assumptions C13_json_objects_arrive_as_proxies.

Theorem C13_json_proxies_come_home_as_objects :
  forall E, good_env E -> forall addr v tr v' limit,
  jsendable E v -> (jdepth E v <= limit)%nat -> arrives E addr v tr v' ->
  (forall p, In p (proxies v) -> p_addr p <> addr) ->
  forall srvc stc st2 tr2, history (ss_o st2) tr2 ->
  (forall o, dget (ss_boxes st2) o = None) ->
  (forall o oid rid, In (GetProxy o true, OProxy oid rid) tr -> outstanding tr2 oid rid o) ->
  exists j, jdumps E limit srvc stc v' = (stc, Ok j) /\ jloads E (Some addr) st2 j = Ok (jnf E v).
Proof. exact json_home. Qed.
Print Assumptions C13_json_proxies_come_home_as_objects.

(** two objects, one of them occurring twice, inside a tuple inside a list *)
Definition two_objects : sst := mkSst (fst (orun ostate_init [Alloc 10; Alloc 20])) [].
Definition obj_value : pyval := VList [VObj 0%nat; VTuple [VObj 1%nat; VInt 3]; VObj 0%nat].
Example C13_case :
  exists st' w, msgpack_dumps demo_env (Some "tcp://me:1") two_objects obj_value = (st', Ok w) /\
  unpack demo_env None st0 w =
    Ok (VList [VProxy (mkP "tcp://me:1" 0 0 "<class 'thing'>" []);
               VTuple [VProxy (mkP "tcp://me:1" 1 1 "<class 'thing'>" []); VInt 3];
               VProxy (mkP "tcp://me:1" 0 2 "<class 'thing'>" [])]) /\
  unpack demo_env (Some "tcp://me:1") st' w = Ok obj_value /\
  alive demo_env (ss_o two_objects) obj_value /\ sendable demo_env obj_value.
Proof.
  eexists _, _. split; [vm_compute; reflexivity|]. split; [vm_compute; reflexivity|].
  split; [vm_compute; reflexivity|]. split.
  - intros o H. vm_compute in H. destruct H as [<-|[<-|[<-|[]]]]; reflexivity.
  - cbn. repeat split; discriminate.
Qed.
