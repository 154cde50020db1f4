(** Proofs about the options of received proxies (C130). *)
From Verif Require Import Py ObjTableModel ObjTableSpec SerModel SerSpec FrameModel ServerModel ClientModel ApiModel ProxyModel ProxySpec
  SerProofs SerProofs2 ProxyProofs PxOptModel PxOptSpec.

Lemma default_opt r k : opt (Px r default_options None) k = default_value k.
Proof.
  destruct (in_dec string_dec k option_names) as [I|N].
  - cbn in I. repeat destruct I as [<-|I]; [reflexivity..|destruct I].
  - assert (X : dget default_options k = None) by (apply dget_None; exact N).
    unfold opt. cbn [x_opts]. rewrite X. unfold default_value.
    repeat match goal with |- context [String.eqb k ?b] =>
      replace (String.eqb k b) with false by (symmetry; apply String.eqb_neq; intros ->; apply N; cbn; tauto) end. reflexivity.
Qed.

Lemma received_options E opts srv st r : NoDup (map fst opts) -> (forall k, In k (map fst opts) -> In k option_names) ->
  srv <> Some (p_addr r) ->
  exists q, decode_proxy E opts srv st r = Ok (inr q) /\ x_rec q = r /\ x_parent q = None /\
    forall k, opt q k = or_else (given opts k) (default_value k).
Proof.
  intros ND K NS. unfold decode_proxy. change (make r []) with (Ok (Px r default_options None)). cbn [bind].
  destruct (set_known (Px r default_options None) opts (default_well _ _) ND K) as (q & E1 & _ & R & P & O).
  rewrite E1. cbn [bind]. replace (match srv with Some a => String.eqb a (p_addr r) | None => false end) with false.
  - exists q. split; [reflexivity|]. split; [exact R|]. split; [exact P|]. intros k. rewrite O. now rewrite default_opt.
  - symmetry. destruct srv as [a|]; [|reflexivity]. apply String.eqb_neq. congruence.
Qed.

Lemma own_object E opts st r : NoDup (map fst opts) -> (forall k, In k (map fst opts) -> In k option_names) ->
  decode_proxy E opts (Some (p_addr r)) st r = bind (unwrap_proxy E st r) (fun v => Ok (inl v)).
Proof.
  intros ND K. unfold decode_proxy. change (make r []) with (Ok (Px r default_options None)). cbn [bind].
  destruct (set_known (Px r default_options None) opts (default_well _ _) ND K) as (q & E1 & _).
  rewrite E1. cbn [bind]. now rewrite String.eqb_refl.
Qed.

Lemma unknown_default E opts srv st r : (exists k, In k (map fst opts) /\ ~ In k option_names) ->
  decode_proxy E opts srv st r = Err KeyError.
Proof.
  intros U. unfold decode_proxy. change (make r []) with (Ok (Px r default_options None)). cbn [bind].
  now rewrite (set_unknown _ opts (default_well _ _) U).
Qed.

Lemma options_lost E : good_env E -> forall srv st p opts, NoDup (map fst opts) -> (forall k, In k (map fst opts) -> In k option_names) ->
  exists w, msgpack_dumps E srv st (getstate p) = (st, Ok w) /\
    forall srv2 st2, srv2 <> Some (p_addr (x_rec p)) ->
    unpack E srv2 st2 w = Ok (VProxy (x_rec p)) /\
    exists q, decode_proxy E opts srv2 st2 (x_rec p) = Ok (inr q) /\ x_rec q = x_rec p /\
      forall k, opt q k = or_else (given opts k) (default_value k).
Proof.
  intros GE srv st p opts ND K.
  destruct (msgpack_roundtrip E GE srv 512 st (getstate p)) as (w & D & U); [exact I|reflexivity|cbn [mdepth getstate]; destruct (p_attrs (x_rec p)); apply Nat.leb_le; reflexivity|].
  exists w. split; [exact D|]. intros srv2 st2 NS. split.
  - apply U. cbn. intros p' [<-|[]]. exact NS.
  - destruct (received_options E opts srv2 st2 (x_rec p) ND K NS) as (q & A & B & _ & C). eauto.
Qed.
