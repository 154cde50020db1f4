(** Property C130: the options of proxies that arrive in messages. *)
From Verif Require Import Py ObjTableModel ObjTableSpec SerModel SerSpec SerProps FrameModel ServerModel ClientModel ApiModel RpcModel RpcSpec RpcDemo ApiProps ProxyModel ProxySpec
  ProxyProofs ProxyProps PxOptModel PxOptSpec PxOptProofs.

(** C130.  A proxy that arrives is for the object the sender meant; its options are those in the
    receiver's default_proxy_options, and the documented defaults otherwise.
    Missing: default options with an unknown name (refuted below). *)
Theorem C130_received_options_partial :
  forall E opts srv st r, NoDup (map fst opts) -> (forall k, In k (map fst opts) -> In k option_names) ->
  srv <> Some (p_addr r) ->
  exists q, decode_proxy E opts srv st r = Ok (inr q) /\ x_rec q = r /\ x_parent q = None /\
    forall k, opt q k = or_else (given opts k) (default_value k).
Proof. exact received_options. Qed.
Print Assumptions C130_received_options_partial.
(** The own server's objects arrive as themselves, whatever the options. *)
Theorem C130_own_object_partial :
  forall E opts st r, NoDup (map fst opts) -> (forall k, In k (map fst opts) -> In k option_names) ->
  decode_proxy E opts (Some (p_addr r)) st r =
    match unwrap_proxy E st r with Ok v => Ok (inl v) | Err e => Err e end.
Proof. exact own_object. Qed.
Print Assumptions C130_own_object_partial.
(** A name that is no option is accepted in default_proxy_options, and then no proxy can be
    received any more, not even one for an own object. *)
Theorem C130_unknown_default_refuted :
  forall E opts srv st r, (exists k, In k (map fst opts) /\ ~ In k option_names) ->
  decode_proxy E opts srv st r = Err KeyError.
Proof. exact unknown_default. Qed.
Print Assumptions C130_unknown_default_refuted.
(** The options set on a proxy are not sent with it. *)
Theorem C130_options_lost_refuted :
  forall E, good_env E -> forall srv st p opts, NoDup (map fst opts) -> (forall k, In k (map fst opts) -> In k option_names) ->
  exists w, msgpack_dumps E srv st (getstate p) = (st, Ok w) /\
    forall srv2 st2, srv2 <> Some (p_addr (x_rec p)) ->
    unpack E srv2 st2 w = Ok (VProxy (x_rec p)) /\
    exists q, decode_proxy E opts srv2 st2 (x_rec p) = Ok (inr q) /\ x_rec q = x_rec p /\
      forall k, opt q k = or_else (given opts k) (default_value k).
Proof. exact options_lost. Qed.
Print Assumptions C130_options_lost_refuted.

(** a proxy with sync='off' arrives with sync='sync' at a client whose default is timeout=3;
    one wrong default makes both this proxy and the own objects unreadable *)
Example C130_case :
  let p := fst (set_options x0 [("sync", VStr "off")]) in
  opt p "sync" = VStr "off" /\ x_rec p = p0 /\
  (exists q, decode_proxy demo_env [("timeout", VInt 3)] None st0 (x_rec p) = Ok (inr q) /\ opt q "sync" = VStr "sync" /\
     opt q "timeout" = VInt 3 /\ opt q "return_type" = VStr "auto") /\
  decode_proxy demo_env [("time_out", VInt 3)] (Some "tcp://s") st0 (x_rec p) = Err KeyError /\ good_env demo_env.
Proof.
  cbv zeta. split; [reflexivity|]. split; [reflexivity|]. split; [eexists; split; [reflexivity|]; repeat split|].
  split; [reflexivity|exact demo_good].
Qed.
