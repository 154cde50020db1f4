(** More proofs about the serializer model: refusals, the reserved key, JSON. *)
From Verif Require Import Py ObjTableModel ObjTableSpec ObjTableProofs DateTimeModel DateTimeProofs
  NdArrayModel Base64Model Base64Proofs SerModel SerSpec SerProofs.

Section Refusal.
  Variable E : senv.
  Hypothesis GE : good_env E.

  Lemma packs_ok srv n st v : sendable E v -> objs E v = [] -> (mdepth E v <= n)%nat ->
    exists w, pack E n srv st v = (st, Ok w).
  Proof. intros Hs Ho Hd. destruct (msgpack_roundtrip E GE srv n st v Hs Ho Hd) as (w & P & _). eauto. Qed.

  (** no server: the first unserializable object is refused *)
  Lemma no_server_list n st l :
    Forall (fun v => sendable E v -> objs E v <> [] -> forall n st, (mdepth E v <= n)%nat ->
                     pack E n None st v = (st, Err TypeError)) l ->
    All (sendable E) l -> flat_map (objs E) l <> [] -> (lmax (map (mdepth E) l) <= n)%nat ->
    pack_list (pack E n None) st l = (st, Err TypeError).
  Proof.
    induction 1 as [|v l Hv F IH]; intros Hs Ho Hd; [contradiction|].
    destruct Hs as [Hs1 Hs2]. cbn [flat_map] in Ho. cbn [map] in Hd. unfold lmax in Hd. cbn [fold_right] in Hd.
    fold (lmax (map (mdepth E) l)) in Hd. cbn [pack_list].
    destruct (objs E v) as [|o os] eqn:Eo.
    - destruct (packs_ok None n st v Hs1 Eo) as [w P]; [lia|]. rewrite P, IH; auto. lia.
    - rewrite Hv; auto; [congruence|lia].
  Qed.

  Lemma no_server_dict n st d :
    Forall (fun kv => sendable E (snd kv) -> objs E (snd kv) <> [] -> forall n st, (mdepth E (snd kv) <= n)%nat ->
                     pack E n None st (snd kv) = (st, Err TypeError)) d ->
    All (fun kv => good_key (fst kv) /\ sendable E (snd kv)) d ->
    flat_map (fun kv => objs E (snd kv)) d <> [] -> (lmax (map (fun kv => mdepth E (snd kv)) d) <= n)%nat ->
    pack_pairs (pack E n None) st d = (st, Err TypeError).
  Proof.
    induction 1 as [|[k v] d Hv F IH]; intros Hs Ho Hd; [contradiction|].
    destruct Hs as [[Hk Hs1] Hs2]. cbn [flat_map fst snd] in *. cbn [map] in Hd. unfold lmax in Hd. cbn [fold_right snd] in Hd.
    fold (lmax (map (fun kv => mdepth E (snd kv)) d)) in Hd. cbn [pack_pairs].
    pose proof (mdepth_ge E v). destruct n as [|n]; [lia|]. rewrite pack_key by (apply good_key_ok; exact Hk).
    destruct (objs E v) as [|o os] eqn:Eo.
    - destruct (packs_ok None (S n) st v Hs1 Eo) as [w P]; [lia|]. rewrite P, IH; auto. lia.
    - rewrite Hv; auto; [congruence|lia].
  Qed.

  Lemma no_server v : sendable E v -> objs E v <> [] -> forall n st, (mdepth E v <= n)%nat ->
    pack E n None st v = (st, Err TypeError).
  Proof.
    induction v as [|b|z|f|s|s|l IH|l IH|d IH|t|d|d sh data|d n0|d|p|c v IH|o] using pyval_ind';
      intros Hs Ho n st Hd; try (exfalso; apply Ho; reflexivity).
    - cbn [mdepth] in Hd. destruct n; [lia|]. rewrite pack_S. cbn [pack_native].
      rewrite (no_server_list n st l IH Hs Ho) by lia. reflexivity.
    - cbn [mdepth] in Hd. destruct n as [|[|n]]; try lia. rewrite (pack_tuple E GE).
      rewrite (no_server_list n st l IH Hs Ho) by lia. reflexivity.
    - cbn [mdepth] in Hd. destruct n; [lia|]. rewrite pack_S. cbn [pack_native].
      rewrite (no_server_dict n st d); [reflexivity| | apply Hs | exact Ho | lia].
      eapply Forall_impl; [|exact IH]. intros [k v] [_ Hv]. exact Hv.
    - cbn [objs] in Ho. destruct (ser_ok E (VObj o)) eqn:Hok; [contradiction|].
      cbn [mdepth] in Hd. rewrite Hok in Hd. destruct n; [lia|].
      rewrite pack_S. cbn [pack_native]. unfold encode. rewrite Hok. reflexivity.
  Qed.

  (** ** too deep *)
  Lemma deep_pickle srv n st v : (n < 2)%nat -> picklable E v -> ser_ok E v = true ->
    (forall rec, pack_native rec st v = None) ->
    encode_value E v = bind (pickle_dumps E v)
             (fun s => Ok (fields [(encode_key, VStr "pickle"); ("pickle_str", VBytes s)])) ->
    pack E n srv st v = (st, Err ValueError).
  Proof.
    intros Hn (s & Hd & Hl) Hok Hnat Henc. destruct n as [|[|n]]; [reflexivity| |lia].
    rewrite pack_S, Hnat. unfold encode. rewrite Hok, Henc, Hd. reflexivity.
  Qed.

  Lemma deep_int srv n st z : (n < zdepth z)%nat -> pack E n srv st (VInt z) = (st, Err ValueError).
  Proof.
    intro Hn. destruct n; [reflexivity|]. pose proof (zdepth_le z).
    assert (Hz : zdepth z = 2%nat) by lia. apply deep_pickle; [lia|apply (ge_int _ GE)|apply (ge_types _ GE); discriminate| |reflexivity].
    intro rec. cbn [pack_native]. rewrite zdepth_fits, Hz. reflexivity.
  Qed.

  Lemma deep_list srv n st l :
    Forall (fun v => sendable E v -> objs E v = [] -> forall n st, (n < mdepth E v)%nat ->
                     pack E n srv st v = (st, Err ValueError)) l ->
    All (sendable E) l -> flat_map (objs E) l = [] -> (n < lmax (map (mdepth E) l))%nat ->
    pack_list (pack E n srv) st l = (st, Err ValueError).
  Proof.
    induction 1 as [|v l Hv F IH]; intros Hs Ho Hd; [cbn in Hd; lia|].
    destruct Hs as [Hs1 Hs2]. cbn [flat_map] in Ho. cbn [map] in Hd. unfold lmax in Hd. cbn [fold_right] in Hd.
    fold (lmax (map (mdepth E) l)) in Hd. cbn [pack_list]. apply app_eq_nil in Ho. destruct Ho as [Ho1 Ho2].
    destruct (Nat.lt_ge_cases n (mdepth E v)) as [Hl|Hg].
    - rewrite Hv by auto. reflexivity.
    - destruct (packs_ok srv n st v Hs1 Ho1 Hg) as [w P]. rewrite P, IH by (auto; lia). reflexivity.
  Qed.

  Lemma deep_dict srv n st d :
    Forall (fun kv => sendable E (snd kv) -> objs E (snd kv) = [] -> forall n st, (n < mdepth E (snd kv))%nat ->
                     pack E n srv st (snd kv) = (st, Err ValueError)) d ->
    All (fun kv => good_key (fst kv) /\ sendable E (snd kv)) d ->
    flat_map (fun kv => objs E (snd kv)) d = [] -> (n < lmax (map (fun kv => mdepth E (snd kv)) d))%nat ->
    pack_pairs (pack E n srv) st d = (st, Err ValueError).
  Proof.
    induction 1 as [|[k v] d Hv F IH]; intros Hs Ho Hd; [cbn in Hd; lia|].
    destruct Hs as [[Hk Hs1] Hs2]. cbn [flat_map fst snd] in *. cbn [map] in Hd. unfold lmax in Hd. cbn [fold_right snd] in Hd.
    fold (lmax (map (fun kv => mdepth E (snd kv)) d)) in Hd. cbn [pack_pairs].
    apply app_eq_nil in Ho. destruct Ho as [Ho1 Ho2].
    destruct n as [|n]; [reflexivity|]. rewrite pack_key by (apply good_key_ok; exact Hk).
    destruct (Nat.lt_ge_cases (S n) (mdepth E v)) as [Hl|Hg].
    - rewrite Hv by auto. reflexivity.
    - destruct (packs_ok srv (S n) st v Hs1 Ho1 Hg) as [w P]. rewrite P, IH by (auto; lia). reflexivity.
  Qed.

  Lemma deep_ints srv n st l : (n < lmax (map (fun k => zdepth (Z.of_nat k)) l))%nat ->
    pack_list (pack E n srv) st (vlist_ints l) = (st, Err ValueError).
  Proof.
    intro H. apply deep_list.
    - apply Forall_forall. intros v I. unfold vlist_ints in I. apply in_map_iff in I. destruct I as (k & <- & _).
      intros _ _ m st0 Hm. apply deep_int. exact Hm.
    - apply All_intro. intros v I. unfold vlist_ints in I. apply in_map_iff in I. destruct I as (k & <- & _). exact I.
    - induction l; [reflexivity|]. cbn. unfold vlist_ints in IHl. clear IHl H. induction l; [reflexivity|]. cbn. exact IHl.
    - unfold vlist_ints. rewrite map_map. exact H.
  Qed.

  Lemma too_deep srv v : sendable E v -> objs E v = [] -> forall n st, (n < mdepth E v)%nat ->
    pack E n srv st v = (st, Err ValueError).
  Proof.
    induction v as [|b|z|f|s|s|l IH|l IH|d IH|t|d|d sh data|d n0|d|p|c v IH|o] using pyval_ind';
      intros Hs Ho n st Hd; cbn [mdepth] in Hd; try (destruct n; [reflexivity|lia]).
    - apply deep_int. exact Hd.
    - destruct n; [reflexivity|]. rewrite pack_S. cbn [pack_native].
      rewrite (deep_list srv n st l IH Hs Ho) by lia. reflexivity.
    - destruct n as [|[|n]]; [reflexivity| |].
      + rewrite pack_S. cbn [pack_native]. unfold encode. rewrite (ser_tuple E GE). reflexivity.
      + rewrite (pack_tuple E GE). rewrite (deep_list srv n st l IH Hs Ho) by lia. reflexivity.
    - destruct n; [reflexivity|]. rewrite pack_S. cbn [pack_native].
      rewrite (deep_dict srv n st d); [reflexivity| | apply Hs | exact Ho | lia].
      eapply Forall_impl; [|exact IH]. intros [k v] [_ Hv]. exact Hv.
    - destruct n as [|[|n]]; [reflexivity| |lia]. rewrite pack_S. cbn [pack_native]. unfold encode.
      rewrite (ge_types _ GE) by discriminate. reflexivity.
    - destruct n as [|[|n]]; [reflexivity| |lia]. rewrite pack_S. cbn [pack_native]. unfold encode.
      rewrite (ge_types _ GE) by discriminate. reflexivity.
    - destruct n as [|n]; [reflexivity|]. rewrite pack_S. cbn [pack_native]. unfold encode.
      rewrite (ge_types _ GE) by discriminate. unfold encode_value. cbn [base_of fields map pack_native pack_pairs].
      destruct n as [|n]; [reflexivity|]. pk. destruct n as [|n].
      + rewrite pack_S. cbn [pack_native]. unfold encode. rewrite (ser_tuple E GE). reflexivity.
      + rewrite (pack_tuple E GE), deep_ints by lia. reflexivity.
    - destruct Hs as [Hp Hk]. destruct n as [|n]; [reflexivity|]. rewrite pack_S. cbn [pack_native]. unfold encode.
      rewrite (ge_types _ GE) by discriminate. unfold encode_value. cbn [base_of].
      assert (Hv : exists vv, (match n0 with NBool b => Ok (VBool b) | NInt z => Ok (VInt z) | NFloat f => Ok (VFloat f) | NComplex => Err TypeError end) = Ok vv).
      { destruct n0; eauto. destruct Hk. }
      destruct Hv as [vv ->]. cbn [bind fields map pack_native pack_pairs].
      destruct n as [|[|n]]; [reflexivity| |lia]. pk.
      rewrite deep_pickle; [reflexivity|lia|exact Hp|apply (ge_types _ GE); discriminate|reflexivity|reflexivity].
    - apply deep_pickle; [lia|exact Hs|apply (ge_types _ GE); discriminate|reflexivity|reflexivity].
    - destruct n as [|n]; [reflexivity|]. rewrite pack_S. cbn [pack_native]. unfold encode.
      rewrite (ge_types _ GE) by discriminate. unfold encode_value, proxy_state. cbn [base_of fields map pack_native pack_pairs].
      destruct n as [|n]; [reflexivity|]. pk.
      assert (Hoid : zdepth (p_oid p) = 2%nat /\ n = 0%nat \/ (zdepth (p_oid p) <= S n)%nat) by (pose proof (zdepth_le (p_oid p)); lia).
      destruct Hoid as [[Hz ->]|Hz]; [rewrite deep_int by lia; reflexivity|].
      destruct (pack_int E GE srv (S n) st (p_oid p) Hz) as (w1 & -> & _). pk.
      assert (Hrid : zdepth (p_rid p) = 2%nat /\ n = 0%nat \/ (zdepth (p_rid p) <= S n)%nat) by (pose proof (zdepth_le (p_rid p)); lia).
      destruct Hrid as [[Hz2 ->]|Hz2]; [rewrite deep_int by lia; reflexivity|].
      destruct (pack_int E GE srv (S n) st (p_rid p) Hz2) as (w2 & -> & _). pk.
      destruct n as [|n].
      + rewrite pack_S. cbn [pack_native]. unfold encode. rewrite (ser_tuple E GE). reflexivity.
      + rewrite (pack_tuple E GE). destruct n; [|destruct (p_attrs p); lia].
        destruct (p_attrs p); [lia|]. reflexivity.
    - destruct Hs as [Hc Hp]. apply deep_pickle; [lia|exact Hp|apply (ge_types _ GE); discriminate|reflexivity|].
      unfold encode_value, pickled_class in *. rewrite content_is in Hc. cbn [base_of] in *. destruct (base_of v); try destruct Hc; reflexivity.
    - cbn [objs] in Ho. destruct (ser_ok E (VObj o)) eqn:Hok; [|discriminate].
      apply deep_pickle; [lia|auto|exact Hok|reflexivity|reflexivity].
  Qed.
End Refusal.

(** ** The reserved key *)
Lemma unpack_packed_keys E srv n st d : forall st' ws srv2 st2 d0 d1,
  Forall (fun kv => key_ok (fst kv) = true) d -> NoDup (map fst d) ->
  (forall k, In k (map fst d) -> ~ In k (map fst d0)) ->
  pack_pairs (pack E (S n) srv) st d = (st', Ok ws) ->
  unpack_map E srv2 st2 ws d0 = Ok d1 ->
  exists d', d1 = d0 ++ d' /\ map fst d' = map fst d /\
    forall k s, In (k, VStr s) d -> In (k, VStr s) d'.
Proof.
  revert st. induction d as [|[k v] d IH]; intros st st' ws srv2 st2 d0 d1 Hk Hnd Hd P U.
  - cbn in P. injection P as <- <-. cbn in U. injection U as <-. exists []. rewrite app_nil_r. repeat split; auto.
  - inversion Hk as [|? ? Hk1 Hk2]; subst. inversion Hnd as [|? ? Hn1 Hn2]; subst. cbn [fst] in *.
    cbn [pack_pairs] in P. rewrite pack_key in P by exact Hk1.
    destruct (pack E (S n) srv st v) as [st1 [wv|e]] eqn:Pv; [|discriminate].
    destruct (pack_pairs (pack E (S n) srv) st1 d) as [st3 [ws'|e]] eqn:Pd; [|discriminate].
    cbn [bind] in P. injection P as <- <-.
    cbn [unpack_map] in U. rewrite unpack_key in U by exact Hk1. cbn [bind] in U.
    destruct (unpack E srv2 st2 wv) as [v2|e] eqn:Uv; [|discriminate]. cbn [bind] in U.
    unfold map_item in U. rewrite Hk1 in U. cbn [bind] in U. rewrite kset_new in U by (apply Hd; left; reflexivity).
    destruct (IH st1 st3 ws' srv2 st2 (d0 ++ [(k, v2)]) d1 Hk2 Hn2) as (d' & -> & K & V); [|exact Pd|exact U|].
    { intros k' I C. rewrite map_app, in_app_iff in C. cbn in C. destruct C as [C|[C|[]]].
      - apply (Hd k'); [right; exact I|exact C].
      - subst. contradiction. }
    exists ((k, v2) :: d'). rewrite <- app_assoc. split; [reflexivity|]. split; [cbn; congruence|].
    intros k' s [I|I].
    + injection I as <- ->. left. cbn in Pv. injection Pv as <- <-. cbn in Uv. injection Uv as <-. reflexivity.
    + right. apply V. exact I.
Qed.

Lemma kget_In d k v : NoDup (map fst d) -> key_ok k = true -> In (k, v) d -> kget d k = Some v.
Proof.
  intros Hnd Hk. induction d as [|[k0 v0] r IH]; cbn; [tauto|]. inversion Hnd; subst.
  intros [I|I].
  - injection I as -> ->. rewrite key_eqb_refl by exact Hk. reflexivity.
  - destruct (key_eqb k0 k) eqn:Ek; [|auto]. apply key_eqb_true in Ek. subst. exfalso. apply H1.
    apply (in_map fst) in I. exact I.
Qed.
Lemma kdel_gone d k : NoDup (map fst d) -> key_ok k = true -> ~ In k (map fst (kdel d k)).
Proof.
  intros Hnd Hk. induction d as [|[k0 v0] r IH]; cbn; [tauto|]. inversion Hnd; subst.
  destruct (key_eqb k0 k) eqn:Ek; [apply key_eqb_true in Ek; subst; assumption|].
  cbn. intros [->|I]; [rewrite key_eqb_refl in Ek by exact Hk; discriminate|]. apply IH; assumption.
Qed.

(** the markers whose decoding can produce an arbitrary value *)
Lemma decode_marked E srv2 st2 d s v :
  NoDup (map fst d) -> In (VStr "___type_name___", VStr s) d ->
  s <> "pickle" -> s <> "proxy" ->
  decode E srv2 st2 d = Ok v -> forall d0, In (VStr "___type_name___") (map fst d0) -> v <> VDict d0.
Proof.
  intros Hnd Hin H1 H2 D d0 H0 ->. unfold decode in D.
  change (VStr encode_key) with (VStr "___type_name___") in D.
  rewrite (kget_In d (VStr "___type_name___") (VStr s) Hnd eq_refl Hin) in D.
  assert (G : forall b, Ok (VDict (kdel d (VStr "___type_name___"))) = Ok b -> b <> VDict d0).
  { intros b [= <-] [= C]. rewrite <- C in H0. revert H0. apply kdel_gone; auto. }
  repeat match type of D with
  | (if String.eqb s ?x then _ else _) = _ => destruct (String.eqb_spec s x); try congruence
  end.
  all: try (eapply G; [exact D|reflexivity]).
  all: repeat match goal with
       | H : bind ?x _ = Ok _ |- _ => destruct x; [cbn [bind] in H|discriminate]
       | H : (match ?x with _ => _ end) = Ok _ |- _ => destruct x; try discriminate
       end.
  all: try discriminate.
  all: try (unfold make_array, np_make in *; repeat match goal with
       | H : bind ?x _ = Ok _ |- _ => destruct x; [cbn [bind] in H|discriminate]
       | H : (match ?x with _ => _ end) = Ok _ |- _ => destruct x; try discriminate
       end; discriminate).
Qed.

Lemma reserved_tuple_n n E srv st x : exists w,
  pack E (S (S (S n))) srv st (VDict [(VStr "___type_name___", VStr "tuple"); (VStr "data", VList [VStr x])]) = (st, Ok w) /\
  forall srv2 st2, unpack E srv2 st2 w = Ok (VTuple [VStr x]).
Proof. eexists. split; [reflexivity|]. intros. reflexivity. Qed.
Lemma reserved_tuple E srv st x : exists w,
  msgpack_dumps E srv st (VDict [(VStr "___type_name___", VStr "tuple"); (VStr "data", VList [VStr x])]) = (st, Ok w) /\
  forall srv2 st2, unpack E srv2 st2 w = Ok (VTuple [VStr x]).
Proof. exact (reserved_tuple_n 509 E srv st x). Qed.

Lemma reserved_dict E n srv st d s st' w srv2 st2 v :
  Forall (fun kv => key_ok (fst kv) = true) d -> NoDup (map fst d) ->
  In (VStr "___type_name___", VStr s) d -> s <> "pickle" -> s <> "proxy" ->
  pack E (S (S n)) srv st (VDict d) = (st', Ok w) -> unpack E srv2 st2 w = Ok v -> v <> VDict d.
Proof.
  intros Hk Hnd Hin H1 H2 P U.
  rewrite pack_S in P. cbn [pack_native] in P.
  destruct (pack_pairs (pack E (S n) srv) st d) as [st1 [ws|e]] eqn:Pd; cbn [bind] in P; [|discriminate].
  injection P as <- <-. rewrite unpack_wmap in U.
  destruct (unpack_map E srv2 st2 ws []) as [d1|e] eqn:Ud; [|discriminate]. cbn [bind] in U.
  destruct (unpack_packed_keys E srv n st d st1 ws srv2 st2 [] d1 Hk Hnd) as (d' & -> & K & V); [intros k _ []|exact Pd|exact Ud|].
  cbn [app] in *.
  apply (decode_marked E srv2 st2 d' s v); auto.
  - rewrite K. exact Hnd.
  - apply (in_map fst) in Hin. exact Hin.
Qed.

Lemma made_are_outstanding s tr0 tr s' :
  history s tr0 -> orun s (map fst tr) = (s', tr) ->
  (forall e, In e tr -> exists o, fst e = GetProxy o true) ->
  history s' (tr0 ++ tr) /\
  forall o oid rid, In (GetProxy o true, OProxy oid rid) tr -> outstanding (tr0 ++ tr) oid rid o.
Proof.
  intros H R G. split; [eapply history_extend; eauto|]. intros o oid rid I. split.
  - exists true. apply in_or_app. auto.
  - unfold released. rewrite in_app_iff. intros [C|C].
    + apply OInv_history in H. destruct (i_rel_iss _ _ H oid rid C) as [o' Hi].
      apply (rid_ne_later (map fst tr) s tr0 H oid rid o' Hi oid o). rewrite R. cbn [snd]. exists true. exact I.
    + destruct (G _ C) as [o' Ho]. discriminate.
Qed.

Lemma arrives_getproxy E addr v tr v' : arrives E addr v tr v' -> forall e, In e tr -> exists o, fst e = GetProxy o true.
Proof.
  intros A e I. apply (in_map fst) in I. rewrite (proj1 (arrives_ops E addr) _ _ _ A) in I.
  apply in_map_iff in I. destruct I as (o & <- & _). eauto.
Qed.
