(** Properties C07, C15, C55, C62, C63, C64: what requests do and what comes back. *)
From Verif Require Import Py ObjTableModel ObjTableSpec ObjTableProofs SerModel SerSpec SerProps
  FrameModel ServerModel ClientModel WireSpec ServerProofs ApiModel ApiSpec RpcModel RpcSpec RpcDemo ApiProofs ApiProofs2.

(** C07.  Using an attribute chain of an undeleted proxy. *)
Theorem C07_chain_is_attribute_access :
  forall E st tr p o v l, history (ss_o st) tr -> outstanding tr (p_oid p) (p_rid p) o -> value_at st o v -> p_attrs p = [] ->
  follows E v l (unwrap_proxy E st (attr_chain p l)).
Proof.
  intros E st tr p o v l H O U A. apply value_at_unbox in U. subst v. apply chain_meaning; [|exact A].
  pose proof (outstanding_resolves _ _ _ _ _ H O) as R. unfold ObjTableSpec.outcome, ostep in R. cbn [snd] in R.
  destruct (lookup_oid (tab (ss_o st)) (p_oid p) (p_rid p)); congruence.
Qed.
Print Assumptions C07_chain_is_attribute_access.

(** and that is what get_obj() on such a chain does, from the client's call to the
    server's outcome *)
Theorem C07_get_obj_on_chain :
  forall V, good_venv V -> forall k p l rt sync s c tr o v, c_disc k = false -> c_open k = true ->
  ve_utf8 V c = true -> smem (c_ser k) (sv_sers s) = true -> sv_open s = true -> p_addr p = sv_addr s ->
  history (ss_o (sv_st s)) tr -> outstanding tr (p_oid p) (p_rid p) o -> value_at (sv_st s) o v -> p_attrs p = [] ->
  let q := VProxy (attr_chain p l) in
  exists k' m r, send V k (rq_action (rq_get q)) (rq_opts (rq_get q)) rt sync = (k', Some m, r) /\
    exists s' os res, begin_request V s c m = (s', os, Finished res None) /\
      follows (ve_ser V) v l res.
Proof.
  intros V GV k p l rt sync s c tr o v D Op U S So A H Ou Va At q.
  destruct (get_obj_outcome V GV k (attr_chain p l) rt sync s c D Op U S So) as (k' & m & r & Se & s' & os & B).
  { rewrite attr_chain_attrs. exact A. }
  exists k', m, r. split; [exact Se|]. exists s', os, (unwrap_proxy (ve_ser V) (sv_st s) (attr_chain p l)). split; [exact B|].
  eapply C07_chain_is_attribute_access; eauto.
Qed.
Print Assumptions C07_get_obj_on_chain.

(** the meaning of a chain is unique *)
Theorem C07_meaning_unique : forall E v l r r', follows E v l r -> follows E v l r' -> r = r'.
Proof. intros E v l r r' A B. rewrite (follows_det _ _ _ _ A), (follows_det _ _ _ _ B). reflexivity. Qed.
Print Assumptions C07_meaning_unique.

Definition two : ostate := fst (orun ostate_init [Alloc 100; Alloc 108; GetProxy 0%nat true]).
Example C07_case :
  history two (snd (orun ostate_init [Alloc 100; Alloc 108; GetProxy 0%nat true])) /\
  outstanding (snd (orun ostate_init [Alloc 100; Alloc 108; GetProxy 0%nat true])) (p_oid p0) (p_rid p0) 0%nat /\
  unwrap_proxy twin_env (mkSst two []) (attr_chain p0 ["twin"; "twin"]) = Ok (VObj 2%nat) /\
  unwrap_proxy twin_env (mkSst two []) (attr_chain p0 ["twin"; "nope"; "twin"]) = Err AttributeError.
Proof.
  split; [exists [Alloc 100; Alloc 108; GetProxy 0%nat true]; reflexivity|]. split; [|vm_compute; auto].
  split; [exists true; vm_compute; auto|]. vm_compute. intro H. repeat (destruct H as [H|H]; [discriminate H|]). exact H.
Qed.

(** C15.  'proxy' always, and 'auto' for types that are not serializable, give the
    caller a new undeleted proxy of the result. *)
Theorem C15_proxy_requested_or_needed :
  forall V, good_venv V -> forall s a t v tr0, served V s (a_caller a) t -> 0 <= m_req (a_msg a) ->
  m_action (a_msg a) <> "close" ->
  (m_rt (a_msg a) = "proxy" \/ m_rt (a_msg a) = "auto" /\ ser_ok (ve_ser V) v = false) ->
  history (ss_o (sv_st s)) tr0 -> proxyable (sv_st s) v ->
  exists s' p px tr, finish_request V s a (Ok v) = (s', [Sent (a_caller a) p], None) /\
    p_addr px = sv_addr s /\ sv_addr s' = sv_addr s /\ p_attrs px = [] /\
    history (ss_o (sv_st s')) (tr0 ++ tr) /\ (exists o, outstanding (tr0 ++ tr) (p_oid px) (p_rid px) o /\ value_at (sv_st s') o v) /\
    forall k, c_ser k = t -> waiting k (m_req (a_msg a)) -> c_local k <> Some (sv_addr s) ->
      finished (fst (client_recv V k p)) (m_req (a_msg a)) (Ok (VProxy px)).
Proof. exact delivered_proxy. Qed.
Print Assumptions C15_proxy_requested_or_needed.

(** Otherwise the caller gets the value, as the serializer carries it; objects
    nested in it that need a proxy get one each (C13). *)
Theorem C15_value_otherwise :
  forall V, good_venv V -> forall s a t v, served V s (a_caller a) t -> 0 <= m_req (a_msg a) ->
  m_action (a_msg a) <> "close" ->
  m_rt (a_msg a) <> "proxy" /\ (m_rt (a_msg a) = "auto" -> ser_ok (ve_ser V) v = true) ->
  carried V t v -> alive (ve_ser V) (ss_o (sv_st s)) v ->
  exists s' p tr v', finish_request V s a (Ok v) = (s', [Sent (a_caller a) p], None) /\
    arrives (ve_ser V) (sv_addr s) v tr v' /\ orun (ss_o (sv_st s)) (map fst tr) = (ss_o (sv_st s'), tr) /\
    ss_boxes (sv_st s') = ss_boxes (sv_st s) /\
    forall k, c_ser k = t -> waiting k (m_req (a_msg a)) -> foreign k (proxies v') ->
      finished (fst (client_recv V k p)) (m_req (a_msg a)) (Ok (seen V t v')).
Proof. exact delivered. Qed.
Print Assumptions C15_value_otherwise.

Definition demo_served : sv := mkSv "tcp://s" ["msgpack"; "json"] [("a", "msgpack")] [] (mkSst two []) false true true.
Definition get_with (rt : string) : activation := mkAct "a" (mkMsg 0 "get_item" rt "msgpack" PEmpty).
Definition reader : cl := fst (client_run demo_V (new_client "msgpack" None st0) [OSend "get_item" None "auto" Sync]).
(** what the waiting client ends up with when the result is [v] *)
Definition comes_back (rt : string) (v : pyval) : option (res pyval) :=
  match finish_request demo_V demo_served (get_with rt) (Ok v) with
  | (_, [Sent _ p], None) => dget (c_done (fst (client_recv demo_V reader p))) 0
  | _ => None
  end.
Example C15_case :
  served demo_V demo_served "a" "msgpack" /\ waiting reader 0 /\ proxyable (mkSst two []) (VObj 1%nat) /\
  comes_back "proxy" (VInt 5) = Some (Ok (VProxy (mkP "tcp://s" 1 1 "<class 'thing'>" []))) /\
  comes_back "auto" (VInt 5) = Some (Ok (VInt 5)) /\
  comes_back "auto" (VObj 1%nat) = Some (Ok (VProxy (mkP "tcp://s" 1 1 "<class 'thing'>" []))) /\
  comes_back "value" (VTuple [VInt 5; VNone]) = Some (Ok (VTuple [VInt 5; VNone])).
Proof. vm_compute. auto 20. Qed.

(** C64 does not hold: an unserializable result asked for as a value arrives as a
    proxy, not as an exception; for every such object. *)
Theorem C64_value_of_unserializable_is_proxy_refuted :
  forall V, good_venv V -> forall s a t o, served V s (a_caller a) t -> 0 <= m_req (a_msg a) ->
  m_action (a_msg a) <> "close" -> m_rt (a_msg a) = "value" ->
  ser_ok (ve_ser V) (VObj o) = false -> dmem (addrs (hp (ss_o (sv_st s)))) o = true ->
  exists s' p px, finish_request V s a (Ok (VObj o)) = (s', [Sent (a_caller a) p], None) /\
    forall k, c_ser k = t -> waiting k (m_req (a_msg a)) -> c_local k <> Some (sv_addr s) ->
      finished (fst (client_recv V k p)) (m_req (a_msg a)) (Ok (VProxy px)).
Proof.
  intros V GV s a t o S R C T N A.
  destruct (delivered V GV s a t (VObj o) S R C) as (s' & p & tr & v' & F & Ar & _ & _ & G).
  - split; [rewrite T; discriminate|]. rewrite T. discriminate.
  - unfold carried. pose proof (gv_limit V GV) as L. destruct (String.eqb t "msgpack").
    + split; [cbn; rewrite N; discriminate|]. cbn. rewrite N. repeat constructor.
    + split; [cbn; rewrite N; discriminate|]. cbn. lia.
  - intros x I. cbn in I. rewrite N in I. destruct I as [<-|[]]. exact A.
  - inversion Ar; subst.
    + cbn in H. rewrite N in H. discriminate H.
    + exists s', p, (mkP (sv_addr s) oid rid (type_str (ve_ser V) (VObj o)) []). split; [exact F|].
      intros k K W Lo. specialize (G k K W). rewrite seen_proxy in G. apply G.
      intros q [<-|[]]. cbn [p_addr]. exact Lo.
Qed.
Print Assumptions C64_value_of_unserializable_is_proxy_refuted.

Example C64_case : comes_back "value" (VObj 1%nat) = Some (Ok (VProxy (mkP "tcp://s" 1 1 "<class 'thing'>" []))).
Proof. vm_compute. reflexivity. Qed.

(** C55.  client._import('a.b.c'): the outcome at the server is that of importing
    the name and then following b and c from the top-level package. *)
Theorem C55_import_dotted_name :
  forall V, good_venv V -> forall k a l rt sync s c, c_disc k = false -> c_open k = true ->
  ve_utf8 V c = true -> smem (c_ser k) (sv_sers s) = true -> sv_open s = true ->
  a <> "" -> Forall no_dot (a :: l) ->
  exists k' m r, send V k (rq_action (rq_import (dotted (a :: l)))) (rq_opts (rq_import (dotted (a :: l)))) rt sync = (k', Some m, r) /\
    exists s' os res, begin_request V s c m = (s', os, Finished res None) /\
      match ve_import V (dotted (a :: l)) with
      | Ok top => follows (ve_ser V) top l res
      | Err e => res = Err e
      end.
Proof.
  intros V GV k a l rt sync s c D O U S So Na F.
  destruct (import_outcome V GV k a l rt sync s c D O U S So Na F) as (k' & m & r & Se & s' & os & B).
  exists k', m, r. split; [exact Se|]. eexists _, _, _. split; [exact B|].
  destruct (ve_import V (dotted (a :: l))); cbn [bind]; [apply follows_getattrs|reflexivity].
Qed.
Print Assumptions C55_import_dotted_name.

Example C55_case :
  Forall no_dot ["pkg"; "twin"; "twin"] /\ dotted ["pkg"; "twin"; "twin"] = "pkg.twin.twin" /\
  do_import demo_V (fields [("module", VStr "pkg.twin.twin")]) = Ok (VObj 2%nat) /\
  do_import demo_V (fields [("module", VStr "pkg.twin.nope")]) = Err AttributeError /\
  do_import demo_V (fields [("module", VStr "nope.twin")]) = Err ImportError.
Proof. split; [repeat constructor; discriminate|]. vm_compute. auto. Qed.

(** C63.  Calling a proxy calls the object it stands for with the arguments as
    the serializer carries them, proxies among them standing for their objects;
    nothing else happens before the call. *)
Theorem C63_call_invokes_object_with_arguments :
  forall V, good_venv V -> forall k p args kw rt sync s c h, c_disc k = false -> c_open k = true ->
  ve_utf8 V c = true -> smem (c_ser k) (sv_sers s) = true ->
  let opts := fields [("obj", VProxy p); ("args", VTuple args); ("kwargs", fields kw)] in
  NoDup (map fst kw) -> objs (ve_ser V) opts = [] -> supported V (c_ser k) opts ->
  stands_for V s (proxies opts) h ->
  exists k' m r, send V k (rq_action (rq_proxy_call p args kw)) (rq_opts (rq_proxy_call p args kw)) rt sync = (k', Some m, r) /\
    exists s', begin_request V s c m = (s', [], InCall (mkAct c m) (h p)
        (map (fun x => subst h (seen V (c_ser k) x)) args)
        (map (fun kx => (VStr (fst kx), subst h (seen V (c_ser k) (snd kx)))) kw)) /\
      sv_names s' = sv_names s /\ sv_st s' = sv_st s.
Proof. exact remote_call. Qed.
Print Assumptions C63_call_invokes_object_with_arguments.

Definition what_runs (t : string) (r : request) : option (pyval * list pyval * list (pyval * pyval)) :=
  match send demo_V (new_client t None st0) (rq_action r) (rq_opts r) "auto" Sync with
  | (_, Some m, _) => match begin_request demo_V demo_served "c" m with
                      | (_, _, InCall _ f args kw) => Some (f, args, kw)
                      | _ => None
                      end
  | _ => None
  end.
Definition elsewhere : proxyrec := mkP "tcp://other" 0 0 "x" [].
Definition demo_args : list pyval := [VProxy p0; VTuple [VInt (2 ^ 70)]; VProxy elsewhere].
Example C63_case :
  what_runs "msgpack" (rq_proxy_call (attr_chain p0 ["twin"]) demo_args [("k", VNone)]) =
    Some (VObj 1%nat, [VObj 0%nat; VTuple [VInt (2 ^ 70)]; VProxy elsewhere], [(VStr "k", VNone)]) /\
  what_runs "json" (rq_proxy_call (attr_chain p0 ["twin"]) demo_args [("k", VNone)]) =
    Some (VObj 1%nat, [VObj 0%nat; VList [VInt (2 ^ 70)]; VProxy elsewhere], [(VStr "k", VNone)]).
Proof. vm_compute. auto. Qed.

(** C62 does not hold: call_obj(obj) with its default arguments never calls. *)
Theorem C62_default_arguments_fail_refuted :
  forall V, good_venv V -> forall k p rt sync s c h, c_disc k = false -> c_open k = true ->
  ve_utf8 V c = true -> smem (c_ser k) (sv_sers s) = true -> p_attrs p = [] -> stands_for V s [p] h ->
  exists k' m r, send V k (rq_action (rq_call_default (VProxy p))) (rq_opts (rq_call_default (VProxy p))) rt sync = (k', Some m, r) /\
    exists s' os esc, begin_request V s c m = (s', os, Finished (Err TypeError) esc).
Proof. exact default_call. Qed.
Print Assumptions C62_default_arguments_fail_refuted.

Example C62_case : stands_for demo_V demo_served [p0] (fun _ => VObj 0%nat) /\ what_runs "msgpack" (rq_call_default (VProxy p0)) = None /\
  what_runs "msgpack" (rq_call (VProxy p0) (VTuple []) (VDict [])) = Some (VObj 0%nat, [], []).
Proof.
  split; [|vm_compute; auto].
  intros q [<-|[]]. exists (snd (orun ostate_init [Alloc 100; Alloc 108; GetProxy 0%nat true])), 0%nat, (VObj 0%nat).
  split; [exists [Alloc 100; Alloc 108; GetProxy 0%nat true]; reflexivity|]. split.
  - split; [exists true; vm_compute; auto|]. vm_compute. intro H. repeat (destruct H as [H|H]; [discriminate H|]). exact H.
  - split; [right; auto|constructor].
Qed.
