(** Properties C33-C37, C68-C73 and C125: using proxies. *)
From Verif Require Import Py ObjTableModel ObjTableSpec SerModel SerSpec SerProps
  FrameModel ServerModel ClientModel WireSpec ServerProofs ApiModel ApiSpec RpcModel RpcSpec RpcDemo ApiProofs ApiProofs2 ApiProps
  ProxyModel ProxySpec ProxyProofs ProxyProofs2.

(** C33, for proxies that are not attributes of others: == answered without the
    server means same hash and, in every state of the server, the same object.
    Missing: attribute proxies (refuted below). *)
Theorem C33_equal_proxies_partial :
  forall p q, p_attrs (x_rec p) = [] -> p_attrs (x_rec q) = [] -> equals p (VProxy (x_rec q)) = inl true ->
  hash_key p = hash_key q /\ forall E st, unwrap_proxy E st (x_rec p) = unwrap_proxy E st (x_rec q).
Proof. exact equal_plain. Qed.
Print Assumptions C33_equal_proxies_partial.

(** == is never answered negatively without the server, and positively whenever the
    two are proxies for one object *)
Theorem C33_same_object_is_equal :
  forall p q, p_addr (x_rec p) = p_addr (x_rec q) -> p_oid (x_rec p) = p_oid (x_rec q) ->
  equals p (VProxy (x_rec q)) = inl true.
Proof. exact same_equal. Qed.
Print Assumptions C33_same_object_is_equal.
Theorem C33_never_unequal_locally : forall p v, equals p v <> inl false.
Proof. exact never_unequal. Qed.
Print Assumptions C33_never_unequal_locally.

Definition x0 : px := Px p0 default_options None.
(** every proxy equals all its attributes, with a different hash, although they are
    different objects *)
Theorem C33_attribute_equals_owner_refuted :
  (forall p a q, made p -> deferred p a [] = Ok q ->
     equals p (VProxy (x_rec q)) = inl true /\ equals q (VProxy (x_rec p)) = inl true /\ hash_key p <> hash_key q) /\
  exists p a q, made p /\ deferred p a [] = Ok q /\
    unwrap_proxy twin_env (mkSst two []) (x_rec p) = Ok (VObj 0%nat) /\
    unwrap_proxy twin_env (mkSst two []) (x_rec q) = Ok (VObj 1%nat).
Proof.
  split; [exact attr_equal|]. exists x0, "twin".
  eexists. split; [eapply (made_new p0 []); [reflexivity|constructor|reflexivity]|]. split; [reflexivity|]. vm_compute. auto.
Qed.
Print Assumptions C33_attribute_equals_owner_refuted.

Lemma x0_made : made x0.
Proof. eapply (made_new p0 []); [reflexivity|constructor|reflexivity]. Qed.
Example C33_case : made x0 /\ equals x0 (VProxy (mkP "tcp://s" 0 7 "other reference" [])) = inl true /\
  (exists r, equals x0 (VProxy (mkP "tcp://s" 1 0 "" [])) = inr r) /\ exists r, equals x0 (VInt 3) = inr r.
Proof. split; [exact x0_made|]. vm_compute. eauto. Qed.

(** C34, for all operators but one: the object's own method of that name runs at
    the server, with the operands; from the operator to the running call. *)
Theorem C34_operator_calls_method_partial :
  forall V, good_venv V -> forall k p m args s c h sm rt v f,
  made p -> In m operators -> m <> "__rxor__" ->
  c_disc k = false -> c_open k = true -> ve_utf8 V c = true -> smem (c_ser k) (sv_sers s) = true ->
  opt p "return_type" = VStr rt -> opt p "sync" = VStr sm -> In sm ["sync"; "async"; "off"] ->
  let opts := fields [("obj", VProxy (attribute (x_rec p) m)); ("args", VTuple args); ("kwargs", fields [])] in
  objs (ve_ser V) opts = [] -> supported V (c_ser k) opts ->
  p_addr (x_rec p) = sv_addr s -> resolves (ve_ser V) (sv_st s) (x_rec p) v -> getattr_of (ve_ser V) v m = Ok f ->
  stands_for V s (proxies opts) h ->
  exists x k' mm r, operate p m args = Some (Ok x) /\ send_as V k x = (k', Some mm, r) /\
    m_rt mm = rt /\ (sm = "off" -> r = Ok None /\ m_req mm = -1) /\ (sm <> "off" -> r = Ok (Some (m_req mm)) /\ m_req mm = c_next k) /\
    exists s', begin_request V s c mm = (s', [], InCall (mkAct c mm) f (map (fun x => subst h (seen V (c_ser k) x)) args) []) /\
      sv_names s' = sv_names s /\ sv_st s' = sv_st s.
Proof. exact operator_runs. Qed.
Print Assumptions C34_operator_calls_method_partial.

(** the exception: the reflected ^ calls the reflected | *)
Theorem C34_reflected_xor_refuted :
  forall p args, made p -> exists x, operate p "__rxor__" args = Some (Ok x) /\
    sn_req x = rq_proxy_call (attribute (x_rec p) "__ror__") args [] /\
    sn_req x <> rq_proxy_call (attribute (x_rec p) "__rxor__") args [].
Proof. exact rxor_wrong. Qed.
Print Assumptions C34_reflected_xor_refuted.

(** objects with operators *)
Definition op_env : senv :=
  {| ser_ok := ser_ok demo_env; pickle_dumps := pickle_dumps demo_env; pickle_loads := pickle_loads demo_env;
     np_dtype := np_dtype demo_env; exec_dtype := exec_dtype demo_env; type_str := type_str demo_env;
     getattr_of := fun v a => match v with
       | VObj 0%nat => if String.eqb a "__radd__" then Ok (VObj 11%nat) else if String.eqb a "__ror__" then Ok (VObj 12%nat)
                       else if String.eqb a "__rxor__" then Ok (VObj 13%nat) else Err AttributeError
       | _ => Err AttributeError end;
     float_repr := float_repr demo_env |}.
Definition op_V : venv := mkVenv op_env 20 (fun _ => true) (fun _ => Err ImportError) (fun _ _ => Err AttributeError) (fun _ => "tb").
Lemma op_good : good_venv op_V.
Proof. split; [destruct demo_good as [A B]; split; [exact A|exact B]|cbn; repeat constructor|reflexivity|reflexivity]. Qed.
Definition op_runs (m : string) (args : list pyval) : option (pyval * list pyval) :=
  match operate x0 m args with
  | Some (Ok x) => match send_as op_V (new_client "msgpack" None st0) x with
                   | (_, Some mm, _) => match begin_request op_V demo_served "c" mm with
                                        | (_, _, InCall _ f args _) => Some (f, args)
                                        | _ => None
                                        end
                   | _ => None
                   end
  | _ => None
  end.
Example C34_case : good_venv op_V /\ made x0 /\
  op_runs "__radd__" [VInt 5] = Some (VObj 11%nat, [VInt 5]) /\
  op_runs "__ror__" [VProxy p0] = Some (VObj 12%nat, [VObj 0%nat]) /\
  op_runs "__rxor__" [VInt 5] = Some (VObj 12%nat, [VInt 5]).
Proof. split; [exact op_good|]. split; [exact x0_made|]. vm_compute. auto. Qed.

(** C35. *)
Theorem C35_unknown_option_changes_nothing :
  forall p kw, made p -> (exists k, In k (map fst kw) /\ ~ In k option_names) -> set_options p kw = (p, Err KeyError).
Proof. intros p kw M. apply set_unknown, made_well, M. Qed.
Print Assumptions C35_unknown_option_changes_nothing.
Theorem C35_known_options_are_set :
  forall p kw, made p -> NoDup (map fst kw) -> (forall k, In k (map fst kw) -> In k option_names) ->
  exists p', set_options p kw = (p', Ok tt) /\ made p' /\ x_rec p' = x_rec p /\
    forall k, opt p' k = or_else (given kw k) (opt p k).
Proof.
  intros p kw M ND K. destruct (set_known p kw (made_well _ M) ND K) as (p' & E & _ & R & _ & O).
  exists p'. split; [exact E|]. split; [eapply made_set; eauto|]. auto.
Qed.
Print Assumptions C35_known_options_are_set.
Theorem C35_attributes_inherit_options :
  forall p a kw, made p -> NoDup (map fst kw) -> (forall k, In k (map fst kw) -> In k option_names) ->
  exists q, deferred p a kw = Ok q /\ made q /\ x_rec q = attribute (x_rec p) a /\
    forall k, opt q k = or_else (given kw k) (opt p k).
Proof.
  intros p a kw M ND K. destruct (deferred_ok p a kw (made_well _ M) ND K) as (q & E & _ & R & _ & O).
  exists q. split; [exact E|]. split; [eapply made_attr; eauto|]. auto.
Qed.
Print Assumptions C35_attributes_inherit_options.
(** whatever the options, requests are about the same object *)
Theorem C35_options_do_not_change_the_object :
  forall p q args kw, NoDup (map fst kw) -> x_rec p = x_rec q -> sn_req (call p args kw) = sn_req (call q args kw).
Proof. intros p q args kw ND E. rewrite !call_sends by exact ND. cbn. now rewrite E. Qed.
Print Assumptions C35_options_do_not_change_the_object.

Example C35_case :
  exists p q, set_options x0 [("sync", VStr "async"); ("timeout", VInt 3)] = (p, Ok tt) /\ made p /\
    deferred p "a" [("timeout", VInt 4)] = Ok q /\ opt q "sync" = VStr "async" /\ opt q "timeout" = VInt 4 /\ opt p "timeout" = VInt 3 /\
    set_options p [("sync", VStr "off"); ("bogus", VNone)] = (p, Err KeyError).
Proof.
  destruct (C35_known_options_are_set x0 [("sync", VStr "async"); ("timeout", VInt 3)] x0_made) as (p & E & M & _).
  - repeat (constructor; [cbn; intuition discriminate|]). constructor.
  - cbn. intuition.
  - exists p. revert M. injection E as <-. intros M. eexists. split; [reflexivity|]. split; [exact M|]. vm_compute. auto 10.
Qed.

(** C36, as long as no proxy that is an attribute of another has auto_delete
    (missing: those; refuted below): releases are sent only when no proxy with the
    reference is left, *)
Theorem C36_released_only_when_gone_partial :
  forall l, careful_run lst0 l -> forall r x, In r (ls_log (lrun lst0 l)) -> In x (ls_live (lrun lst0 l)) -> l_ref x <> r.
Proof. exact released_last. Qed.
Print Assumptions C36_released_only_when_gone_partial.
(** and, in every history, when a proxy with auto_delete is collected its reference is released, *)
Theorem C36_collected_means_released :
  forall l i x s, s = lrun lst0 l -> In x (ls_live s) -> l_auto x = true ->
  (exists y, In y (ls_live (lstep s (LDrop i))) /\ l_id y = l_id x) \/ In (l_ref x) (ls_log (lstep s (LDrop i))).
Proof. exact released_when_collected. Qed.
Print Assumptions C36_collected_means_released.
(** which happens at once when it is forgotten, unless an attribute of it is in use *)
Theorem C36_forgotten_means_collected :
  forall l i s, s = lrun lst0 l -> (forall x, In x (ls_live s) -> l_parent x <> Some i) ->
  forall y, In y (ls_live (lstep s (LDrop i))) -> l_id y <> i.
Proof. exact dropped_is_collected. Qed.
Print Assumptions C36_forgotten_means_collected.

(** Only what the program can no longer reach is collected, and all of it is. *)
Theorem C36_collected_iff_unreachable :
  forall l s, s = lrun lst0 l ->
  (forall x, In x (ls_live s) -> in_use s x) /\
  (forall x o, In x (ls_live s) -> l_held x = true -> o <> LDrop (l_id x) ->
     exists y, In y (ls_live (lstep s o)) /\ l_id y = l_id x /\ l_ref y = l_ref x /\ l_held y = true) /\
  (forall y q, In y (ls_live s) -> l_parent y = Some q -> exists x, In x (ls_live s) /\ l_id x = q /\ l_ref x = l_ref y).
Proof. exact collected_iff_unreachable. Qed.
Print Assumptions C36_collected_iff_unreachable.

(** p._set_proxy_options(auto_delete=True); p.attr: the reference is released when
    the temporary p.attr is gone, while p is held; using p then fails *)
Theorem C36_attribute_releases_owner_refuted :
  forall r, let s := lrun lst0 [LRecv r; LAuto 0 true; LAttr 0; LDrop 1] in
  In r (ls_log s) /\ (exists x, lfind (ls_live s) 0 = Some x /\ l_ref x = r /\ l_held x = true) /\
  unwrap_proxy twin_env (mkSst two []) p0 = Ok (VObj 0%nat) /\
  unwrap_proxy twin_env (mkSst (fst (ostep two (Delete 0 0))) []) p0 = Err KeyError.
Proof. intros r. split; [left; reflexivity|]. split; [eexists; repeat split|]. vm_compute. auto. Qed.
Print Assumptions C36_attribute_releases_owner_refuted.

Example C36_case : let l := [LRecv (1, 0); LAttr 0; LAuto 0 true; LDrop 0; LRecv (2, 0); LDrop 1] in
  careful_run lst0 l /\ ls_log (lrun lst0 (firstn 5 l)) = [] /\ ls_log (lrun lst0 l) = [(1, 0)] /\
  map l_ref (ls_live (lrun lst0 l)) = [(2, 0)].
Proof.
  split; [|vm_compute; auto]. cbn.
  assert (A : forall x : lp, In x [] -> l_ref x <> (1, 0)) by easy.
  repeat split; try easy.
  - intros x [= <-]. reflexivity.
  - intros x [= <-]. reflexivity.
  - intros x [<-|[<-|[]]] C; discriminate C.
Qed.

(** C37, for proxies that are not attributes of others.  Missing: those (refuted below). *)
Theorem C37_copy_sends_nothing_partial :
  forall p, made p -> x_parent p = None -> forall v,
  exists q, copy p v = Ok (q, []) /\ x_rec q = x_rec p /\ forall k, opt q k = opt p k.
Proof. exact copy_root. Qed.
Print Assumptions C37_copy_sends_nothing_partial.
(** copying an attribute proxy calls [copy] of the object it is an attribute of, and
    sets an attribute of the remote object *)
Theorem C37_copy_of_attribute_has_effects_refuted :
  forall p b, made p -> made b -> x_parent p = Some b -> forall v,
  exists q x1 x2, copy p v = Ok (q, [x1; x2]) /\ x_rec q = x_rec p /\ (forall k, opt q k = opt p k) /\
    sn_req x1 = rq_proxy_call (attribute (x_rec b) "copy") [] [] /\
    sn_req x2 = rq_proxy_call (attribute (x_rec p) "__setattr__") [VStr "_parent_proxy"; v] [].
Proof. exact copy_attr. Qed.
Print Assumptions C37_copy_of_attribute_has_effects_refuted.

Example C37_case : exists q, deferred x0 "a" [] = Ok q /\ made q /\ x_parent q = Some x0 /\ x_parent x0 = None.
Proof.
  destruct (C35_attributes_inherit_options x0 "a" [] x0_made) as (q & E & M & _); [constructor|easy|].
  exists q. split; [exact E|]. split; [exact M|]. injection E as <-. auto.
Qed.

(** C103.  With defer_getattr (the default) p.attr asks nobody and stands for the
    attribute; otherwise the attribute is looked up at the server at once. *)
Theorem C103_deferred_access :
  forall p a, made p -> opt p "defer_getattr" = VBool true ->
  exists q, getattribute p a = GProxy q /\ made q /\ x_rec q = attribute (x_rec p) a /\ forall k, opt q k = opt p k.
Proof. exact access_deferred. Qed.
Print Assumptions C103_deferred_access.
Theorem C103_immediate_access_partial :
  forall V, good_venv V -> forall k p a s c v, made p -> opt p "defer_getattr" = VBool false ->
  c_disc k = false -> c_open k = true -> ve_utf8 V c = true -> smem (c_ser k) (sv_sers s) = true -> sv_open s = true ->
  p_addr (x_rec p) = sv_addr s -> resolves (ve_ser V) (sv_st s) (x_rec p) v ->
  exists x k' m rid, getattribute p a = GSend x /\ send_as V k x = (k', Some m, Ok (Some rid)) /\
    exists s' os, begin_request V s c m = (s', os, Finished (getattr_of (ve_ser V) v a) None).
Proof. intros V GV k p a s c v M D. apply (access_runs V GV); auto. rewrite D. discriminate. Qed.
Print Assumptions C103_immediate_access_partial.
(** Missing: the options of the proxy.  Its return_type and timeout do not apply. *)
Theorem C103_options_not_applied_refuted :
  forall p a, made p -> opt p "defer_getattr" = VBool false ->
  exists x, getattribute p a = GSend x /\ sn_rt x = VStr "auto" /\ sn_timeout x = VInt 10.
Proof.
  intros p a M D. destruct (access_immediate p a M) as (x & G & _ & _ & R & T); [rewrite D; discriminate|]. eauto.
Qed.
Print Assumptions C103_options_not_applied_refuted.
Example C103_case : exists p, set_options x0 [("defer_getattr", VBool false); ("return_type", VStr "proxy"); ("timeout", VInt 60)] = (p, Ok tt) /\
  made p /\ opt p "defer_getattr" = VBool false /\ opt p "return_type" = VStr "proxy" /\ opt p "timeout" = VInt 60.
Proof.
  eexists. split; [reflexivity|]. split; [apply (made_set x0 [("defer_getattr", VBool false); ("return_type", VStr "proxy"); ("timeout", VInt 60)]); [exact x0_made| |reflexivity]|vm_compute; auto].
  repeat (constructor; [cbn; intuition discriminate|]). constructor.
Qed.

(** C68 does not hold: None is not "the default" but fails, after the request was
    sent (sync) or instead (return_type). *)
Theorem C68_none_is_not_default_refuted :
  forall V, good_venv V -> forall k p args, made p -> c_disc k = false -> c_open k = true ->
  let opts := fields [("obj", VProxy (x_rec p)); ("args", VTuple args); ("kwargs", fields [])] in
  objs (ve_ser V) opts = [] -> supported V (c_ser k) opts ->
  (exists p', set_options p [("sync", VNone); ("return_type", VStr "auto")] = (p', Ok tt) /\
     exists k' m, send_as V k (call p' args []) = (k', Some m, Err ValueError)) /\
  (exists p', set_options p [("return_type", VNone)] = (p', Ok tt) /\
     exists k', send_as V k (call p' args []) = (k', None, Err AttributeError)).
Proof. exact none_fails. Qed.
Print Assumptions C68_none_is_not_default_refuted.
Example C68_case : made x0 /\ let opts := fields [("obj", VProxy (x_rec x0)); ("args", VTuple [VInt 1]); ("kwargs", fields [])] in
  objs (ve_ser demo_V) opts = [] /\ supported demo_V "json" opts.
Proof.
  split; [exact x0_made|]. split; [reflexivity|]. unfold supported. cbn [String.eqb Ascii.eqb Bool.eqb]. split; [|cbn; lia].
  cbn. repeat split; eexists; (split; [reflexivity|discriminate]).
Qed.

(** C69 does not hold: an option of the documentation is refused. *)
Theorem C69_documented_option_refused_refuted :
  forall p v, made p -> set_options p [("auto_proxy", v)] = (p, Err KeyError).
Proof.
  intros p v M. apply C35_unknown_option_changes_nothing; [exact M|]. exists "auto_proxy". split; [now left|].
  cbn. intuition discriminate.
Qed.
Print Assumptions C69_documented_option_refused_refuted.
Example C69_case : made x0.
Proof. exact x0_made. Qed.

(** C70.  _sync, _return_type and _timeout apply to the one call, over the proxy's
    options, and are not passed on; all other keyword arguments are. *)
Theorem C70_call_options :
  forall p args kw, NoDup (map fst kw) ->
  sn_sync (call p args kw) = or_else (given kw "_sync") (opt p "sync") /\
  sn_rt (call p args kw) = or_else (given kw "_return_type") (opt p "return_type") /\
  sn_timeout (call p args kw) = or_else (given kw "_timeout") (opt p "timeout") /\
  exists kw', sn_req (call p args kw) = rq_proxy_call (x_rec p) args kw' /\
    forall k v, In (k, v) kw' <-> In (k, v) kw /\ ~ In k ["_sync"; "_return_type"; "_timeout"].
Proof. exact call_options. Qed.
Print Assumptions C70_call_options.
Example C70_case : call x0 [VInt 1] [("a", VInt 2); ("_timeout", VInt 3); ("_sync", VStr "off")] =
  mkSending (rq_proxy_call p0 [VInt 1] [("a", VInt 2)]) (VStr "off") (VStr "auto") (VInt 3).
Proof. reflexivity. Qed.

(** C71 does not hold: iterating over a proxy for any sequence gives its items and
    then an exception, where iterating over the sequence ends. *)
Theorem C71_iteration_does_not_end_refuted :
  forall item n, (forall i, (i < n)%nat -> exists v, item i = Ok v) -> item n = Err (UserExc "IndexError") ->
  forall m, (n < m)%nat ->
  snd (py_iter item m 0) = Some (Ok tt) /\
  snd (py_iter (fun j => at_client (item j)) m 0) = Some (Err (RemoteCallException "IndexError")) /\
  fst (py_iter (fun j => at_client (item j)) m 0) = fst (py_iter item m 0).
Proof. intros item n Hi Hn m Hm. apply (iter_remote item n Hi Hn); lia. Qed.
Print Assumptions C71_iteration_does_not_end_refuted.
Example C71_case : let item i := match i with O => Ok (VInt 5) | 1%nat => Ok VNone | _ => Err (UserExc "IndexError") end in
  py_iter item 9 0 = ([VInt 5; VNone], Some (Ok tt)) /\
  py_iter (fun j => at_client (item j)) 9 0 = ([VInt 5; VNone], Some (Err (RemoteCallException "IndexError"))).
Proof. vm_compute. auto. Qed.

(** C72 does not hold: when the remote operator gives NotImplemented, Python goes on
    with the other operand (or, for ==, with False), but through a proxy the result
    of the operation is a proxy. *)
Theorem C72_not_implemented_is_a_result_refuted :
  forall V, good_venv V -> forall s a t o tr0, served V s (a_caller a) t -> 0 <= m_req (a_msg a) ->
  m_action (a_msg a) <> "close" -> m_rt (a_msg a) = "auto" ->
  ser_ok (ve_ser V) (VObj o) = false -> history (ss_o (sv_st s)) tr0 -> proxyable (sv_st s) (VObj o) ->
  exists s' p px, finish_request V s a (Ok (VObj o)) = (s', [Sent (a_caller a) p], None) /\
    (forall k, c_ser k = t -> waiting k (m_req (a_msg a)) -> c_local k <> Some (sv_addr s) ->
      finished (fst (client_recv V k p)) (m_req (a_msg a)) (Ok (VProxy px))) /\
    forall right is_eq,
      py_binop (VObj o) (Ok (VProxy px)) right is_eq = Ok (VProxy px) /\
      py_binop (VObj o) (Ok (VObj o)) (Ok (VObj o)) true = Ok (VBool false).
Proof. exact not_implemented. Qed.
Print Assumptions C72_not_implemented_is_a_result_refuted.
Example C72_case : served demo_V demo_served "a" "msgpack" /\ comes_back "auto" (VObj 1%nat) = Some (Ok (VProxy (mkP "tcp://s" 1 1 "<class 'thing'>" []))) /\
  py_binop (VObj 1%nat) (Ok (VObj 1%nat)) (Ok (VInt 8)) false = Ok (VInt 8).
Proof. vm_compute. auto. Qed.

(** C73 does not hold: bool() of an object that defines nothing for it is True, of a
    proxy for it an exception. *)
Definition answer (x : sending) : option (res pyval) :=
  let y := yrun demo_V 100 (yinit demo_sv)
    (firstn 10 demo_run ++ [say "a" (sn_req x) "auto" Sync; SRecv "a"; CRecv "a"]) in
  match dget (y_cl y) "a" with Some k => dget (c_done k) 1 | None => None end.
Theorem C73_truth_of_proxy_refuted :
  exists p x r, made p /\ operate p "__len__" [] = Some (Ok x) /\ answer x = Some r /\
    py_truth None = Ok true /\ py_truth (Some r) = Err (RemoteCallException "AttributeError").
Proof.
  exists x0. eexists. eexists. split; [exact x0_made|]. split; [reflexivity|]. split; [vm_compute; reflexivity|]. split; reflexivity.
Qed.
Print Assumptions C73_truth_of_proxy_refuted.

(** C125.  With a valid value of sync, a request that raises an exception instead of being
    waited for was not sent. *)
Theorem C125_refused_not_sent_partial :
  forall V k x k' sent e, In (sn_sync x) [VStr "sync"; VStr "async"; VStr "off"] ->
  send_as V k x = (k', sent, Err e) -> sent = None.
Proof. exact refused_not_sent. Qed.
Print Assumptions C125_refused_not_sent_partial.
(** With any other value the very message is sent that a valid call sends; ValueError is
    raised afterwards. *)
Theorem C125_refused_after_sending_refuted :
  forall V k p args v k' m r, ~ In v [VStr "sync"; VStr "async"; VStr "off"] ->
  send_as V k (call p args [("_sync", VStr "sync")]) = (k', Some m, r) ->
  send_as V k (call p args [("_sync", v)]) = (k', Some m, Err ValueError).
Proof. exact bad_sync_sent. Qed.
Print Assumptions C125_refused_after_sending_refuted.
Example C125_case :
  let k := new_client "msgpack" None st0 in
  (exists k' m r, send_as demo_V k (call x0 [VInt 1] [("_sync", VStr "sync")]) = (k', Some m, r) /\ r = Ok (Some 0) /\
     send_as demo_V k (call x0 [VInt 1] [("_sync", VStr "synchronous")]) = (k', Some m, Err ValueError)) /\
  (exists k', send_as demo_V k (call x0 [VObj 1%nat] [("_sync", VStr "async")]) = (k', None, Err TypeError)).
Proof.
  cbn zeta. split.
  - eexists. eexists. eexists. split; [vm_compute; reflexivity|]. split; [reflexivity|]. vm_compute. reflexivity.
  - eexists. vm_compute. reflexivity.
Qed.
