(** Proofs about the serializer model. *)
From Verif Require Import Py ObjTableModel ObjTableSpec ObjTableProofs DateTimeModel DateTimeSpec DateTimeProofs
  NdArrayModel Base64Model Base64Proofs SerModel SerSpec.

(** What a proxy is for a receiver: [srv] is the address of the receiver's own
    server, [st] its state *)
Definition home (E : senv) (srv : option string) (st : sst) (p : proxyrec) : res pyval :=
  if match srv with Some a => String.eqb (p_addr p) a | None => false end
  then unwrap_proxy E st p else Ok (VProxy p).

(** ** Induction over values *)
Section PyvalInd.
  Variable P : pyval -> Prop.
  Hypothesis Hnone : P VNone.
  Hypothesis Hbool : forall b, P (VBool b).
  Hypothesis Hint : forall z, P (VInt z).
  Hypothesis Hfloat : forall f, P (VFloat f).
  Hypothesis Hstr : forall s, P (VStr s).
  Hypothesis Hbytes : forall s, P (VBytes s).
  Hypothesis Hlist : forall l, Forall P l -> P (VList l).
  Hypothesis Htuple : forall l, Forall P l -> P (VTuple l).
  Hypothesis Hdict : forall d, Forall (fun kv => P (fst kv) /\ P (snd kv)) d -> P (VDict d).
  Hypothesis Hdatetime : forall t, P (VDatetime t).
  Hypothesis Hdate : forall d, P (VDate d).
  Hypothesis Hnd : forall d sh data, P (VNdarray d sh data).
  Hypothesis Hnp : forall d n, P (VNp d n).
  Hypothesis Hdt : forall d, P (VDtype d).
  Hypothesis Hproxy : forall p, P (VProxy p).
  Hypothesis Hsub : forall c v, P v -> P (VSub c v).
  Hypothesis Hobj : forall o, P (VObj o).

  Fixpoint pyval_ind' (v : pyval) : P v :=
    match v with
    | VNone => Hnone | VBool b => Hbool b | VInt z => Hint z | VFloat f => Hfloat f
    | VStr s => Hstr s | VBytes s => Hbytes s
    | VList l => Hlist l ((fix f l : Forall P l :=
        match l with [] => Forall_nil P | x :: r => Forall_cons x (pyval_ind' x) (f r) end) l)
    | VTuple l => Htuple l ((fix f l : Forall P l :=
        match l with [] => Forall_nil P | x :: r => Forall_cons x (pyval_ind' x) (f r) end) l)
    | VDict d => Hdict d ((fix f l : Forall (fun kv => P (fst kv) /\ P (snd kv)) l :=
        match l with
        | [] => Forall_nil _
        | x :: r => Forall_cons x (conj (pyval_ind' (fst x)) (pyval_ind' (snd x))) (f r)
        end) d)
    | VDatetime t => Hdatetime t | VDate d => Hdate d | VNdarray d sh data => Hnd d sh data
    | VNp d n => Hnp d n | VDtype d => Hdt d | VProxy p => Hproxy p
    | VSub c v => Hsub c v (pyval_ind' v) | VObj o => Hobj o
    end.
End PyvalInd.

(** ** Small facts *)
Lemma lmax_in x l : In x l -> (x <= lmax l)%nat.
Proof. induction l; simpl; [tauto|]. intros [->|I]; [lia|]. specialize (IHl I). lia. Qed.

Lemma zdepth_le z : (zdepth z <= 2)%nat.
Proof. unfold zdepth. destruct (_ && _); lia. Qed.
Lemma zdepth_ge z : (1 <= zdepth z)%nat.
Proof. unfold zdepth. destruct (_ && _); lia. Qed.
Lemma content_is v : content v = base_of v.
Proof. induction v; cbn; auto. Qed.
Lemma zdepth_fits z : int_fits z = (zdepth z =? 1)%nat.
Proof. unfold int_fits, zdepth. destruct (_ && _); reflexivity. Qed.

Lemma mdepth_ge E v : (1 <= mdepth E v)%nat.
Proof.
  destruct v; cbn [mdepth]; try lia.
  - apply zdepth_ge.
  - destruct (p_attrs p); lia.
  - destruct (ser_ok _ _); lia.
Qed.

Lemma key_eqb_true a b : key_eqb a b = true -> a = b.
Proof. destruct a, b; simpl; try discriminate; intro H; apply String.eqb_eq in H; congruence. Qed.
Lemma key_eqb_refl k : key_ok k = true -> key_eqb k k = true.
Proof. destruct k; simpl; try discriminate; intros _; apply String.eqb_refl. Qed.

Lemma kset_new d k v : ~ In k (map fst d) -> kset d k v = d ++ [(k, v)].
Proof.
  induction d as [|[k0 v0] r IH]; simpl; [reflexivity|]. intro H.
  destruct (key_eqb k0 k) eqn:E; [apply key_eqb_true in E; subst; tauto|].
  rewrite IH; tauto.
Qed.

Lemma kget_notin d k : ~ In k (map fst d) -> kget d k = None.
Proof.
  induction d as [|[k0 v0] r IH]; simpl; [reflexivity|]. intro H.
  destruct (key_eqb k0 k) eqn:E; [apply key_eqb_true in E; subst; tauto|]. apply IH; tauto.
Qed.
Lemma kdel_notin d k : ~ In k (map fst d) -> kdel d k = d.
Proof.
  induction d as [|[k0 v0] r IH]; simpl; [reflexivity|]. intro H.
  destruct (key_eqb k0 k) eqn:E; [apply key_eqb_true in E; subst; tauto|]. rewrite IH; tauto.
Qed.

Lemma All_in {A} (P : A -> Prop) l x : All P l -> In x l -> P x.
Proof. induction l; simpl; [tauto|]. intros [H1 H2] [->|I]; auto. Qed.
Lemma All_intro {A} (P : A -> Prop) l : (forall x, In x l -> P x) -> All P l.
Proof. induction l; simpl; auto. Qed.

Lemma nats_of_ints sh : nats_of (vlist_ints sh) = Some sh.
Proof.
  induction sh as [|n r IH]; [reflexivity|]. cbn [vlist_ints map nats_of].
  destruct (Z.ltb_spec (Z.of_nat n) 0); [lia|]. fold (vlist_ints r). rewrite IH, Nat2Z.id. reflexivity.
Qed.
Lemma strs_of_strs l : strs_of (vstrs l) = Some l.
Proof. induction l as [|s r IH]; [reflexivity|]. cbn. fold (vstrs r). rewrite IH. reflexivity. Qed.

Lemma length_bytes_of s : List.length (bytes_of s) = String.length s.
Proof. unfold bytes_of. induction s; simpl; congruence. Qed.
Lemma of_bytes_of s : of_bytes (bytes_of s) = s.
Proof. apply string_of_list_ascii_of_string. Qed.
Lemma bytes_of_of l : bytes_of (of_bytes l) = l.
Proof. apply list_ascii_of_string_of_list_ascii. Qed.

Lemma make_array_ok d sh data : array_ok d sh data ->
  make_array d (VBytes data) (VTuple (vlist_ints sh)) = Ok (VNdarray d sh data)
  /\ make_array d (VBytes data) (VList (vlist_ints sh)) = Ok (VNdarray d sh data).
Proof.
  intros [Hi Hl]. unfold make_array. rewrite nats_of_ints. unfold frombuffer_reshape.
  rewrite length_bytes_of, Hl.
  destruct (Nat.eqb_spec (dt_item d) 0); [contradiction|].
  rewrite Nat.mod_mul, Nat.div_mul by assumption. simpl. rewrite Nat.eqb_refl. auto.
Qed.

(** ** Unpacking containers *)
Fixpoint unpack_list E srv st (l : list wire) : res (list pyval) :=
  match l with
  | [] => Ok []
  | x :: r => bind (unpack E srv st x) (fun v => bind (unpack_list E srv st r) (fun vs => Ok (v :: vs)))
  end.
Fixpoint unpack_map E srv st (l : list (wire * wire)) (d : list (pyval * pyval)) : res (list (pyval * pyval)) :=
  match l with
  | [] => Ok d
  | (k, x) :: r =>
      bind (unpack E srv st k) (fun kv => bind (unpack E srv st x) (fun v =>
        bind (map_item d kv v) (fun d' => unpack_map E srv st r d')))
  end.
Lemma unpack_arr E srv st l : unpack E srv st (WArr l) = bind (unpack_list E srv st l) (fun vs => Ok (VList vs)).
Proof.
  cbn [unpack]. f_equal. induction l as [|x r IH]; [reflexivity|]. cbn [unpack_list]. rewrite <- IH. reflexivity.
Qed.
Lemma unpack_wmap E srv st l : unpack E srv st (WMap l) = bind (unpack_map E srv st l []) (fun d => decode E srv st d).
Proof.
  cbn [unpack]. f_equal. generalize (@nil (pyval * pyval)).
  induction l as [|[k x] r IH]; intro d; [reflexivity|]. cbn [unpack_map].
  destruct (unpack E srv st k); [|reflexivity]. cbn [bind]. destruct (unpack E srv st x); [|reflexivity]. cbn [bind].
  destruct (map_item d a a0); [|reflexivity]. cbn [bind]. apply IH.
Qed.

(** ** The effect of sending one object by proxy *)
Lemma get_proxy_ok id t o : exists t' oid rid, get_proxy id true t o = (t', Ok (oid, rid)).
Proof. unfold get_proxy. destruct (get_object_id _ _ _) as [t2 oid]. eauto. Qed.

Lemma proxy_value_obj E addr st o : dmem (addrs (hp (ss_o st))) o = true ->
  exists st' oid rid,
    proxy_value E addr st (VObj o) = (st', Ok (VProxy (mkP addr oid rid (type_str E (VObj o)) [])))
    /\ ss_boxes st' = ss_boxes st /\ hp (ss_o st') = hp (ss_o st)
    /\ ostep (ss_o st) (GetProxy o true) = (ss_o st', OProxy oid rid).
Proof.
  intro Hl. unfold proxy_value, ostep. rewrite Hl.
  destruct (get_proxy_ok (id_in (hp (ss_o st))) (tab (ss_o st)) o) as (t' & oid & rid & G). rewrite G.
  eexists _, oid, rid. repeat split.
Qed.

(** ** Packing *)
Lemma pack_S E n srv st v : pack E (S n) srv st v =
  match pack_native (pack E n srv) st v with
  | Some r => r
  | None =>
      let '(st1, e) := encode E srv st v in
      match e with
      | Err x => (st1, Err x)
      | Ok v' => match pack_native (pack E n srv) st1 v' with
                 | Some r => r
                 | None => (st1, Err TypeError)
                 end
      end
  end.
Proof. reflexivity. Qed.

Definition key_wire (k : pyval) : wire :=
  match k with VStr s => WStr s | VBytes s => WBin s | _ => WNil end.

Lemma pack_key E n srv st k : key_ok k = true -> pack E (S n) srv st k = (st, Ok (key_wire k)).
Proof. destruct k; simpl; try discriminate; reflexivity. Qed.
Lemma unpack_key E srv st k : key_ok k = true -> unpack E srv st (key_wire k) = Ok k.
Proof. destruct k; simpl; try discriminate; reflexivity. Qed.

Ltac pk := repeat (cbn [bind]; cbv beta iota; first [rewrite pack_key by reflexivity]); cbn [bind]; cbv beta iota.

Section Sending.
  Variable E : senv.
  Hypothesis GE : good_env E.
  Variable addr : string.

  (** what packing a value does and how it is read back *)
  Definition packs_as (srv : option string) (n : nat) (st : sst) (v : pyval) : Prop :=
    exists st' w tr v',
      pack E n srv st v = (st', Ok w) /\
      ss_boxes st' = ss_boxes st /\ hp (ss_o st') = hp (ss_o st) /\
      orun (ss_o st) (map fst tr) = (ss_o st', tr) /\
      arrives E addr v tr v' /\
      (objs E v = [] -> st' = st) /\
      (forall srv2 st2 h, (forall p, In p (proxies v') -> home E srv2 st2 p = Ok (h p)) ->
         unpack E srv2 st2 w = Ok (subst h v')).

  Lemma packs_leaf srv n st v w :
    objs E v = [] -> proxies v = [] -> (forall h, subst h v = v) ->
    pack E n srv st v = (st, Ok w) -> (forall srv2 st2, unpack E srv2 st2 w = Ok v) ->
    packs_as srv n st v.
  Proof.
    intros Ho Hp Hs Hpk Hu. exists st, w, [], v. repeat split; auto.
    - constructor. exact Ho.
    - intros. rewrite Hs. apply Hu.
  Qed.

  (** dicts made by encode *)
  Lemma pack_fields_pickle n srv st s : 
    pack_native (pack E (S n) srv) st (fields [(encode_key, VStr "pickle"); ("pickle_str", VBytes s)])
    = Some (st, Ok (WMap [(WStr encode_key, WStr "pickle"); (WStr "pickle_str", WBin s)])).
  Proof. reflexivity. Qed.

  Lemma packs_pickled srv n st v : (2 <= n)%nat -> picklable E v ->
    ser_ok E v = true ->
    (forall rec, pack_native rec st v = None) ->
    encode_value E v = bind (pickle_dumps E v)
             (fun s => Ok (fields [(encode_key, VStr "pickle"); ("pickle_str", VBytes s)])) ->
    exists w, pack E n srv st v = (st, Ok w) /\ forall srv2 st2, unpack E srv2 st2 w = Ok v.
  Proof.
    intros Hn (s & Hd & Hl) Hok Hnat Henc.
    destruct n as [|[|n]]; try lia. rewrite pack_S, Hnat. unfold encode. rewrite Hok, Henc, Hd.
    cbn [bind]. rewrite pack_fields_pickle. eexists. split; [reflexivity|].
    intros. cbn. exact Hl.
  Qed.

  Lemma pack_int srv n st z : (zdepth z <= n)%nat ->
    exists w, pack E n srv st (VInt z) = (st, Ok w) /\ forall srv2 st2, unpack E srv2 st2 w = Ok (VInt z).
  Proof.
    intro Hn. destruct (int_fits z) eqn:Hf.
    - pose proof (zdepth_ge z). destruct n; [lia|]. rewrite pack_S. cbn [pack_native]. rewrite Hf. eauto.
    - rewrite zdepth_fits in Hf. apply Nat.eqb_neq in Hf. pose proof (zdepth_ge z). pose proof (zdepth_le z).
      apply packs_pickled; [lia| apply (ge_int _ GE) | apply (ge_types _ GE); discriminate | |reflexivity].
      intro rec. cbn [pack_native]. rewrite zdepth_fits. destruct (Nat.eqb_spec (zdepth z) 1); [lia|reflexivity].
  Qed.

  Lemma pack_ints srv n st l : (lmax (map (fun k => zdepth (Z.of_nat k)) l) <= n)%nat ->
    exists ws, pack_list (pack E n srv) st (vlist_ints l) = (st, Ok ws) /\
      forall srv2 st2, unpack_list E srv2 st2 ws = Ok (vlist_ints l).
  Proof.
    induction l as [|k r IH]; intro H.
    - exists []. split; reflexivity.
    - cbn [map lmax fold_right] in H. fold (lmax (map (fun k => zdepth (Z.of_nat k)) r)) in H.
      destruct IH as (ws & P & U); [lia|].
      destruct (pack_int srv n st (Z.of_nat k)) as (w & P1 & U1); [lia|].
      exists (w :: ws). cbn [vlist_ints map pack_list]. fold (vlist_ints r). rewrite P1, P. split; [reflexivity|].
      intros. cbn [unpack_list]. rewrite U1, U. reflexivity.
  Qed.

  Lemma pack_strs srv n st l :
    pack_list (pack E (S n) srv) st (vstrs l) = (st, Ok (map WStr l)).
  Proof.
    induction l as [|s r IH]; [reflexivity|]. cbn [vstrs map pack_list]. fold (vstrs r).
    rewrite pack_key, IH by reflexivity. reflexivity.
  Qed.
  Lemma unpack_strs srv2 st2 l : unpack_list E srv2 st2 (map WStr l) = Ok (vstrs l).
  Proof. induction l as [|s r IH]; [reflexivity|]. cbn. rewrite IH. reflexivity. Qed.

  Lemma ser_tuple l : ser_ok E (VTuple l) = true.
  Proof. apply (ge_types _ GE). discriminate. Qed.

  (** a tuple, given how its elements pack *)
  Lemma pack_tuple srv n st l : pack E (S (S n)) srv st (VTuple l) =
    let '(st', r) := pack_list (pack E n srv) st l in
    (st', bind r (fun ws => Ok (WMap [(WStr encode_key, WStr "tuple"); (WStr "data", WArr ws)]))).
  Proof.
    rewrite pack_S. cbn [pack_native]. unfold encode. rewrite ser_tuple. unfold encode_value. cbn [base_of].
    cbn [fields map pack_native pack_pairs]. pk.
    rewrite (pack_S E n srv st (VList l)). cbn [pack_native].
    destruct (pack_list (pack E n srv) st l) as [st' [ws|e]]; reflexivity.
  Qed.
  Lemma unpack_tuple srv2 st2 ws l :
    unpack_list E srv2 st2 ws = Ok l ->
    unpack E srv2 st2 (WMap [(WStr encode_key, WStr "tuple"); (WStr "data", WArr ws)]) = Ok (VTuple l).
  Proof. intro U. rewrite unpack_wmap. cbn [unpack_map]. rewrite unpack_arr, U. reflexivity. Qed.

  Lemma pack_proxy srv n st p : (match p_attrs p with [] => 3 | _ => 4 end <= n)%nat ->
    exists w,
      pack_native (pack E (pred n) srv) st (proxy_state p) = Some (st, Ok w) /\
      forall srv2 st2, unpack E srv2 st2 w = home E srv2 st2 p.
  Proof.
    intro Hn. destruct p as [a oid rid ty attrs]. cbn [p_attrs] in Hn.
    assert (H3 : (3 <= n)%nat) by (destruct attrs; lia).
    destruct n as [|[|[|n]]]; try lia. cbn [pred].
    destruct (pack_int srv (S (S n)) st oid) as (w1 & P1 & U1); [pose proof (zdepth_le oid); lia|].
    destruct (pack_int srv (S (S n)) st rid) as (w2 & P2 & U2); [pose proof (zdepth_le rid); lia|].
    assert (Ht : pack_list (pack E n srv) st (vstrs attrs) = (st, Ok (map WStr attrs))).
    { destruct attrs as [|x r]; [reflexivity|]. destruct n as [|n]; [lia|]. apply pack_strs. }
    unfold proxy_state. cbn [fields map pack_native pack_pairs p_addr p_oid p_rid p_type p_attrs].
    pk. rewrite P1. pk. rewrite P2. pk. rewrite pack_tuple, Ht. pk.
    eexists. split; [reflexivity|]. intros srv2 st2. rewrite unpack_wmap. cbn [unpack_map].
    rewrite U1, U2, (unpack_tuple _ _ _ _ (unpack_strs srv2 st2 attrs)).
    cbn. rewrite strs_of_strs. unfold home. cbn.
    destruct srv2 as [a2|]; [|reflexivity]. destruct (String.eqb a a2); reflexivity.
  Qed.

  Lemma decode_dict srv2 st2 d : ~ In (VStr "___type_name___") (map fst d) ->
    decode E srv2 st2 d = Ok (VDict d).
  Proof. intro H. unfold decode. change encode_key with "___type_name___". rewrite kget_notin, kdel_notin by exact H. reflexivity. Qed.

  Lemma alive_same s1 s2 v : hp s1 = hp s2 -> alive E s1 v -> alive E s2 v.
  Proof. unfold alive. intros -> H. exact H. Qed.

  Lemma packs_list srv n l : 
    (objs E (VList l) = [] \/ srv = Some addr) ->
    Forall (fun v => forall n st, (mdepth E v <= n)%nat -> sendable E v -> alive E (ss_o st) v ->
                     (objs E v = [] \/ srv = Some addr) -> packs_as srv n st v) l ->
    forall st, (lmax (map (mdepth E) l) <= n)%nat -> All (sendable E) l -> alive E (ss_o st) (VList l) ->
    exists st' ws tr l',
      pack_list (pack E n srv) st l = (st', Ok ws) /\
      ss_boxes st' = ss_boxes st /\ hp (ss_o st') = hp (ss_o st) /\
      orun (ss_o st) (map fst tr) = (ss_o st', tr) /\
      arrive_all E addr l tr l' /\
      (objs E (VList l) = [] -> st' = st) /\
      (forall srv2 st2 h, (forall p, In p (flat_map proxies l') -> home E srv2 st2 p = Ok (h p)) ->
         unpack_list E srv2 st2 ws = Ok (map (subst h) l')).
  Proof.
    intros Hsrv F. induction F as [|v l Hv F IH]; intros st Hn Hs Ha.
    - exists st, [], [], []. repeat split; auto. constructor.
    - cbn [map lmax fold_right] in Hn. fold (lmax (map (mdepth E) l)) in Hn. destruct Hs as [Hs1 Hs2].
      assert (Hv' : packs_as srv n st v).
      { apply Hv; [lia|exact Hs1| |].
        - intros o I. apply Ha. cbn. apply in_or_app. auto.
        - destruct Hsrv as [O|O]; [|auto]. cbn in O. apply app_eq_nil in O. tauto. }
      destruct Hv' as (st1 & w & t1 & v1 & P1 & B1 & H1 & R1 & A1 & S1 & U1).
      destruct (IH) with (st := st1) as (st2 & ws & t2 & l2 & P2 & B2 & H2 & R2 & A2 & S2 & U2); [| lia | exact Hs2 | |].
      + destruct Hsrv as [O|O]; [|auto]. cbn in O. apply app_eq_nil in O. left. apply O.
      + intros o I. rewrite H1. apply Ha. cbn. apply in_or_app. auto.
      + exists st2, (w :: ws), (t1 ++ t2), (v1 :: l2). cbn [pack_list]. rewrite P1, P2. cbn [bind].
        repeat split; auto; try congruence.
        * rewrite map_app, orun_app, R1. cbn [fst snd]. rewrite R2. reflexivity.
        * constructor; assumption.
        * intro O. cbn in O. apply app_eq_nil in O. destruct O as [O1 O2]. rewrite (S2 O2), (S1 O1). reflexivity.
        * intros srv2 st3 h Hh. cbn [unpack_list]. rewrite (U1 srv2 st3 h), (U2 srv2 st3 h); [reflexivity| |];
            intros p I; apply Hh; cbn; apply in_or_app; auto.
  Qed.

  Lemma good_key_ok k : good_key k -> key_ok k = true.
  Proof. destruct k; simpl; tauto. Qed.

  Lemma packs_dict srv n d :
    (objs E (VDict d) = [] \/ srv = Some addr) ->
    Forall (fun kv => forall n st, (mdepth E (snd kv) <= n)%nat -> sendable E (snd kv) -> alive E (ss_o st) (snd kv) ->
                     (objs E (snd kv) = [] \/ srv = Some addr) -> packs_as srv n st (snd kv)) d ->
    forall st, (lmax (map (fun kv => mdepth E (snd kv)) d) <= n)%nat ->
    All (fun kv => good_key (fst kv) /\ sendable E (snd kv)) d ->
    NoDup (map fst d) -> alive E (ss_o st) (VDict d) ->
    exists st' ws tr d',
      pack_pairs (pack E n srv) st d = (st', Ok ws) /\
      ss_boxes st' = ss_boxes st /\ hp (ss_o st') = hp (ss_o st) /\
      orun (ss_o st) (map fst tr) = (ss_o st', tr) /\
      map fst d' = map fst d /\ arrive_all E addr (map snd d) tr (map snd d') /\
      (objs E (VDict d) = [] -> st' = st) /\
      (forall srv2 st2 h d0, (forall p, In p (proxies (VDict d')) -> home E srv2 st2 p = Ok (h p)) ->
         (forall k, In k (map fst d) -> ~ In k (map fst d0)) ->
         unpack_map E srv2 st2 ws d0 = Ok (d0 ++ map (fun kv => (fst kv, subst h (snd kv))) d')).
  Proof.
    intros Hsrv F. induction F as [|[k v] d Hv F IH]; intros st Hn Hs Hnd Ha.
    - exists st, [], [], []. repeat split; auto. constructor. intros. cbn. rewrite app_nil_r. reflexivity.
    - cbn [map lmax fold_right snd fst] in *. fold (lmax (map (fun kv => mdepth E (snd kv)) d)) in Hn.
      destruct Hs as [[Hk Hs1] Hs2]. cbn [fst snd] in *. apply good_key_ok in Hk.
      inversion Hnd as [|? ? Hnk Hnd']; subst.
      assert (Hn1 : (1 <= n)%nat) by (pose proof (mdepth_ge E v); lia). destruct n as [|n]; [lia|].
      assert (Hv' : packs_as srv (S n) st v).
      { apply Hv; [lia|exact Hs1| |].
        - intros o I. apply Ha. cbn. apply in_or_app. auto.
        - destruct Hsrv as [O|O]; [|auto]. cbn in O. apply app_eq_nil in O. tauto. }
      destruct Hv' as (st1 & w & t1 & v1 & P1 & B1 & H1 & R1 & A1 & S1 & U1).
      destruct (IH) with (st := st1) as (st2 & ws & t2 & d2 & P2 & B2 & H2 & R2 & K2 & A2 & S2 & U2); [| lia | exact Hs2 | exact Hnd' | |].
      + destruct Hsrv as [O|O]; [|auto]. cbn in O. apply app_eq_nil in O. left. apply O.
      + intros o I. rewrite H1. apply Ha. cbn. apply in_or_app. auto.
      + exists st2, ((key_wire k, w) :: ws), (t1 ++ t2), ((k, v1) :: d2). cbn [pack_pairs].
        rewrite pack_key by exact Hk. rewrite P1, P2. cbn [bind].
        repeat split; auto; try congruence.
        * rewrite map_app, orun_app, R1. cbn [fst snd]. rewrite R2. reflexivity.
        * cbn [map fst]. congruence.
        * cbn [map snd]. constructor; assumption.
        * intro O. cbn in O. apply app_eq_nil in O. destruct O as [O1 O2]. rewrite (S2 O2), (S1 O1). reflexivity.
        * intros srv2 st3 h d0 Hh Hd0. cbn [unpack_map]. rewrite unpack_key by exact Hk. cbn [bind].
          rewrite (U1 srv2 st3 h) by (intros p I; apply Hh; cbn; apply in_or_app; auto). cbn [bind].
          unfold map_item. rewrite Hk. cbn [bind]. rewrite kset_new by (apply Hd0; left; reflexivity).
          rewrite (U2 srv2 st3 h).
          -- cbn [map fst snd]. rewrite <- app_assoc. reflexivity.
          -- intros p I. apply Hh. cbn. apply in_or_app. auto.
          -- intros k' I C. rewrite map_app, in_app_iff in C. cbn in C. destruct C as [C|[C|[]]].
             ++ apply (Hd0 k'); [right; exact I|exact C].
             ++ subst. contradiction.
  Qed.

  Lemma fields_1 srv n st (k1 k2 : string) (v1 v2 : string) :
    pack_native (pack E (S n) srv) st (fields [(k1, VStr v1); (k2, VStr v2)])
    = Some (st, Ok (WMap [(WStr k1, WStr v1); (WStr k2, WStr v2)])).
  Proof. reflexivity. Qed.

  Theorem packs v : forall srv n st,
    (mdepth E v <= n)%nat -> sendable E v -> alive E (ss_o st) v ->
    (objs E v = [] \/ srv = Some addr) -> packs_as srv n st v.
  Proof.
    induction v as [|b|z|f|s|s|l IH|l IH|d IH|t|d|d sh data|d n0|d|p|c v IH|o] using pyval_ind';
      intros srv n st Hn Hs Ha Hsrv.
    - destruct n; [cbn in Hn; lia|]. eapply packs_leaf; try reflexivity.
    - destruct n; [cbn in Hn; lia|]. eapply packs_leaf; try reflexivity.
    - cbn [mdepth] in Hn. destruct (pack_int srv n st z Hn) as (w & P & U). eapply packs_leaf; eauto.
    - destruct n; [cbn in Hn; lia|]. eapply packs_leaf; try reflexivity.
    - destruct n; [cbn in Hn; lia|]. eapply packs_leaf; try reflexivity.
    - destruct n; [cbn in Hn; lia|]. eapply packs_leaf; try reflexivity.
    - cbn [mdepth] in Hn. destruct n; [lia|].
      destruct (packs_list srv n l Hsrv) with (st := st) as (st' & ws & tr & l' & P & B & H & R & A & S & U);
        [| lia | exact Hs | exact Ha |].
      { eapply Forall_impl; [|exact IH]. intros v Hv m st0. apply Hv. }
      exists st', (WArr ws), tr, (VList l'). rewrite pack_S. cbn [pack_native]. rewrite P. cbn [bind].
      repeat split; auto. { constructor; exact A. }
      intros srv2 st2 h Hh. rewrite unpack_arr, (U srv2 st2 h Hh). reflexivity.
    - cbn [mdepth] in Hn. destruct n as [|[|n]]; try lia.
      destruct (packs_list srv n l Hsrv) with (st := st) as (st' & ws & tr & l' & P & B & H & R & A & S & U);
        [| lia | exact Hs | exact Ha |].
      { eapply Forall_impl; [|exact IH]. intros v Hv m st0. apply Hv. }
      eexists st', _, tr, (VTuple l'). rewrite pack_tuple, P. cbn [bind].
      repeat split; auto. { constructor; exact A. }
      intros srv2 st2 h Hh. erewrite unpack_tuple by (apply (U srv2 st2 h Hh)). reflexivity.
    - cbn [mdepth] in Hn. destruct n; [lia|]. destruct Hs as [Hs Hnd].
      destruct (packs_dict srv n d Hsrv) with (st := st) as (st' & ws & tr & d' & P & B & H & R & K & A & S & U);
        [| lia | exact Hs | exact Hnd | exact Ha |].
      { eapply Forall_impl; [|exact IH]. intros [k v] [_ Hv] m st0. apply Hv. }
      exists st', (WMap ws), tr, (VDict d'). rewrite pack_S. cbn [pack_native]. rewrite P. cbn [bind].
      repeat split; auto. { constructor; assumption. }
      intros srv2 st2 h Hh. rewrite unpack_wmap, (U srv2 st2 h [] Hh) by (intros; intros []). cbn [bind app].
      rewrite decode_dict; [reflexivity|].
      rewrite map_map. cbn [fst]. change (map (fun x => fst x) d') with (map (@fst pyval pyval) d'). rewrite K.
      intro I. apply in_map_iff in I. destruct I as ([k v] & E1 & I). cbn in E1. subst k.
      pose proof (All_in _ _ _ Hs I) as [G _]. apply G. reflexivity.
    - cbn [mdepth] in Hn. destruct n as [|[|n]]; try lia. destruct Hs as (Hok & Hy & Htz). apply real_datetime_is in Hok.
      eapply packs_leaf; try reflexivity.
      + rewrite pack_S. cbn [pack_native]. unfold encode. rewrite (ge_types _ GE) by discriminate.
        unfold encode_value. cbn [base_of]. rewrite fields_1. reflexivity.
      + intros. rewrite unpack_wmap. cbn [unpack_map unpack bind map_item key_ok kset key_eqb].
        cbn. rewrite datetime_roundtrip by assumption. cbn. unfold strip_tz. destruct t; cbn in *. subst. reflexivity.
    - cbn [mdepth] in Hn. destruct n as [|[|n]]; try lia. destruct Hs as (Hok & Hy). apply real_date_is in Hok.
      eapply packs_leaf; try reflexivity.
      + rewrite pack_S. cbn [pack_native]. unfold encode. rewrite (ge_types _ GE) by discriminate.
        unfold encode_value. cbn [base_of]. rewrite fields_1. reflexivity.
      + intros. rewrite unpack_wmap. cbn. rewrite date_roundtrip by assumption. reflexivity.
    - cbn [mdepth] in Hn. destruct n as [|[|[|n]]]; try lia. destruct Hs as (Hdt & Har).
      destruct (pack_ints srv n st sh) as (ws & P & U); [lia|].
      eapply packs_leaf; try reflexivity.
      + rewrite pack_S. cbn [pack_native]. unfold encode. rewrite (ge_types _ GE) by discriminate.
        unfold encode_value. cbn [base_of fields map pack_native pack_pairs].
        pk. rewrite pack_tuple, P. pk. reflexivity.
      + intros. rewrite unpack_wmap. cbn [unpack_map unpack_key].
        rewrite (unpack_tuple _ _ _ _ (U srv2 st2)). cbn.
        unfold dtype_ok in Hdt. rewrite Hdt. cbn. apply make_array_ok. exact Har.
    - cbn [mdepth] in Hn. destruct n as [|[|[|n]]]; try lia. destruct Hs as (Hp & Hk).
      destruct (packs_pickled srv (S (S n)) st (VDtype d)) as (w & P & U);
        [lia | exact Hp | apply (ge_types _ GE); discriminate | reflexivity | reflexivity |].
      assert (Hval : exists vv wv, (match n0 with NBool b => Ok (VBool b) | NInt z => Ok (VInt z) | NFloat f => Ok (VFloat f) | NComplex => Err TypeError end) = Ok vv
                     /\ pack E (S (S n)) srv st vv = (st, Ok wv) /\ (forall srv2 st2, unpack E srv2 st2 wv = Ok vv)
                     /\ np_make d vv = Ok (VNp d n0)).
      { unfold scalar_ok in Hk. destruct n0; cbn in Hk.
        - eexists _, _. repeat split; try reflexivity. unfold np_make. rewrite Hk. reflexivity.
        - destruct (pack_int srv (S (S n)) st z) as (wv & P2 & U2); [pose proof (zdepth_le z); lia|].
          eexists _, _. repeat split; [exact P2|exact U2|]. unfold np_make. rewrite Hk. reflexivity.
        - eexists _, _. repeat split; try reflexivity. unfold np_make. rewrite Hk. reflexivity.
        - destruct Hk. }
      destruct Hval as (vv & wv & V1 & V2 & V3 & V4).
      eapply packs_leaf; try reflexivity.
      + rewrite pack_S. cbn [pack_native]. unfold encode. rewrite (ge_types _ GE) by discriminate.
        unfold encode_value. cbn [base_of]. rewrite V1. cbn [bind fields map pack_native pack_pairs].
        pk. rewrite P. pk. rewrite V2. pk. reflexivity.
      + intros. rewrite unpack_wmap. cbn [unpack_map]. rewrite U, V3. cbn. exact V4.
    - cbn [mdepth] in Hn. cbn [sendable] in Hs.
      destruct (packs_pickled srv n st (VDtype d)) as (w & P & U);
        [lia | exact Hs | apply (ge_types _ GE); discriminate | reflexivity | reflexivity |].
      eapply packs_leaf; eauto.
    - cbn [mdepth] in Hn. destruct n as [|n]; [destruct (p_attrs p); lia|].
      destruct (pack_proxy srv (S n) st p Hn) as (w & P & U). cbn [pred] in P.
      exists st, w, [], (VProxy p). repeat split; auto.
      + rewrite pack_S. cbn [pack_native]. unfold encode. rewrite (ge_types _ GE) by discriminate.
        unfold encode_value. cbn [base_of]. rewrite P. reflexivity.
      + constructor. reflexivity.
      + intros srv2 st2 h Hh. rewrite U. cbn [subst]. apply Hh. left. reflexivity.
    - cbn [mdepth] in Hn. destruct Hs as [Hc Hp].
      destruct (packs_pickled srv n st (VSub c v)) as (w & P & U);
        [lia | exact Hp | apply (ge_types _ GE); discriminate | reflexivity | |].
      { unfold encode_value, pickled_class in *. rewrite content_is in Hc. cbn [base_of] in *. destruct (base_of v); try destruct Hc; reflexivity. }
      eapply packs_leaf; eauto.
    - cbn [mdepth] in Hn. cbn [sendable] in Hs. destruct (ser_ok E (VObj o)) eqn:Hok.
      + destruct (packs_pickled srv n st (VObj o)) as (w & P & U);
          [lia | auto | exact Hok | reflexivity | reflexivity |].
        eapply packs_leaf; eauto. cbn. rewrite Hok. reflexivity.
      + assert (Ho : objs E (VObj o) = [o]) by (cbn; rewrite Hok; reflexivity).
        destruct Hsrv as [C| -> ]; [rewrite Ho in C; discriminate|].
        assert (Hl : dmem (addrs (hp (ss_o st))) o = true) by (apply Ha; rewrite Ho; left; reflexivity).
        destruct (proxy_value_obj E addr st o Hl) as (st' & oid & rid & P & B & H & R).
        destruct n as [|n]; [lia|].
        destruct (pack_proxy (Some addr) (S n) st' (mkP addr oid rid (type_str E (VObj o)) [])) as (w & Pw & U); [exact Hn|].
        cbn [pred] in Pw.
        eexists st', w, [(GetProxy o true, OProxy oid rid)], _. repeat split; auto.
        * rewrite pack_S. cbn [pack_native]. unfold encode. rewrite Hok, P. cbn [bind].
          unfold encode_value. cbn [base_of]. rewrite Pw. reflexivity.
        * cbn [map fst orun]. rewrite R. reflexivity.
        * apply arr_obj. exact Hok.
        * rewrite Ho. discriminate.
        * intros srv2 st2 h Hh. rewrite U. cbn [subst]. apply Hh. left. reflexivity.
  Qed.
End Sending.

(** ** Consequences for msgpack *)
Lemma pairs_eq {A B} (d d' : list (A * B)) : map fst d' = map fst d -> map snd d' = map snd d -> d' = d.
Proof.
  revert d'. induction d as [|[k v] r IH]; destruct d' as [|[k' v'] r']; cbn; try discriminate; [auto|].
  intros [= -> H1] [= -> H2]. f_equal. auto.
Qed.
Lemma flat_map_snd {A B C} (f : B -> list C) (d : list (A * B)) :
  flat_map (fun kv => f (snd kv)) d = flat_map f (map snd d).
Proof. induction d as [|[k v] r IH]; [reflexivity|]. cbn. rewrite IH. reflexivity. Qed.
Lemma All_snd {A B} (P : A -> Prop) (Q : B -> Prop) (d : list (A * B)) :
  All (fun kv => P (fst kv) /\ Q (snd kv)) d <-> All P (map fst d) /\ All Q (map snd d).
Proof. induction d as [|[k v] r IH]; cbn; [tauto|]. rewrite IH. tauto. Qed.
Lemma arrives_same E addr :
  (forall v tr v', arrives E addr v tr v' -> objs E v = [] -> v' = v /\ tr = []) /\
  (forall l tr l', arrive_all E addr l tr l' -> flat_map (objs E) l = [] -> l' = l /\ tr = []).
Proof.
  apply arrives_mutind; intros; auto.
  - exfalso. cbn in H0. rewrite H in H0. discriminate.
  - destruct (H0 H1) as [-> ->]. auto.
  - destruct (H0 H1) as [-> ->]. auto.
  - cbn [objs] in H2. rewrite flat_map_snd in H2. destruct (H1 H2) as [H3 ->].
    split; [|reflexivity]. f_equal. apply pairs_eq; assumption.
  - cbn in H3. apply app_eq_nil in H3. destruct H3 as [Ha Hb].
    destruct (H0 Ha) as [-> ->], (H2 Hb) as [-> ->]. auto.
Qed.

Lemma subst_id v : subst VProxy v = v.
Proof.
  induction v using pyval_ind'; cbn; auto; f_equal.
  - induction H; cbn; congruence.
  - induction H; cbn; congruence.
  - induction H as [|[k v] r [_ Hv] F IH]; cbn; [reflexivity|]. cbn in Hv. rewrite Hv, IH. reflexivity.
Qed.

Lemma alive_none E s v : objs E v = [] -> alive E s v.
Proof. intros H o I. rewrite H in I. destruct I. Qed.

Lemma home_foreign E srv2 st2 p : srv2 <> Some (p_addr p) -> home E srv2 st2 p = Ok (VProxy p).
Proof.
  intro H. unfold home. destruct srv2 as [a|]; [|reflexivity].
  destruct (String.eqb_spec (p_addr p) a); [congruence|reflexivity].
Qed.

Lemma msgpack_roundtrip E : good_env E -> forall srv n st v,
  sendable E v -> objs E v = [] -> (mdepth E v <= n)%nat ->
  exists w, pack E n srv st v = (st, Ok w) /\
    forall srv2 st2, (forall p, In p (proxies v) -> srv2 <> Some (p_addr p)) ->
      unpack E srv2 st2 w = Ok v.
Proof.
  intros GE srv n st v Hs Ho Hd.
  destruct (packs E GE "" v srv n st Hd Hs (alive_none _ _ _ Ho) (or_introl Ho))
    as (st' & w & tr & v' & P & _ & _ & _ & A & S & U).
  rewrite (S Ho) in P. destruct (proj1 (arrives_same E "") _ _ _ A Ho) as [-> _].
  exists w. split; [exact P|]. intros srv2 st2 Hf.
  rewrite (U srv2 st2 VProxy); [rewrite subst_id; reflexivity|].
  intros p I. apply home_foreign. apply Hf. exact I.
Qed.

Lemma msgpack_send E : good_env E -> forall addr n st v,
  sendable E v -> alive E (ss_o st) v -> (mdepth E v <= n)%nat ->
  exists st' w tr v',
    pack E n (Some addr) st v = (st', Ok w) /\
    orun (ss_o st) (map fst tr) = (ss_o st', tr) /\ ss_boxes st' = ss_boxes st /\
    arrives E addr v tr v' /\
    forall srv2 st2, (forall p, In p (proxies v') -> srv2 <> Some (p_addr p)) ->
      unpack E srv2 st2 w = Ok v'.
Proof.
  intros GE addr n st v Hs Ha Hd.
  destruct (packs E GE addr v (Some addr) n st Hd Hs Ha (or_intror eq_refl))
    as (st' & w & tr & v' & P & B & _ & R & A & _ & U).
  exists st', w, tr, v'. repeat split; auto. intros srv2 st2 Hf.
  rewrite (U srv2 st2 VProxy); [rewrite subst_id; reflexivity|].
  intros p I. apply home_foreign. apply Hf. exact I.
Qed.

(** the operations made are exactly one GetProxy per occurrence, in order *)
Lemma arrives_ops E addr :
  (forall v tr v', arrives E addr v tr v' -> map fst tr = map (fun o => GetProxy o true) (objs E v)) /\
  (forall l tr l', arrive_all E addr l tr l' -> map fst tr = map (fun o => GetProxy o true) (flat_map (objs E) l)).
Proof.
  apply arrives_mutind; intros; auto.
  - rewrite H. reflexivity.
  - cbn. rewrite H. reflexivity.
  - cbn [objs]. rewrite H1, flat_map_snd. reflexivity.
  - cbn. rewrite !map_app. congruence.
Qed.

(** ** Coming home *)
Lemma arrives_sendable E addr :
  (forall v tr v', arrives E addr v tr v' -> sendable E v -> sendable E v' /\ objs E v' = []) /\
  (forall l tr l', arrive_all E addr l tr l' -> All (sendable E) l -> All (sendable E) l' /\ flat_map (objs E) l' = []).
Proof.
  apply arrives_mutind; intros; auto; try (cbn; tauto).
  - destruct H2 as [Hk Hn]. cbn [sendable objs]. rewrite flat_map_snd.
    rewrite All_snd in Hk. rewrite All_snd, H. destruct Hk as [Hk Hv]. destruct (H1 Hv) as [H3 H4]. auto.
  - destruct H3 as [Ha Hb]. destruct (H0 Ha) as [S1 O1], (H2 Hb) as [S2 O2]. cbn. rewrite O1, O2. auto.
Qed.

Lemma arrives_depth E addr :
  (forall v tr v', arrives E addr v tr v' -> (mdepth E v' <= mdepth E v)%nat) /\
  (forall l tr l', arrive_all E addr l tr l' -> (lmax (map (mdepth E) l') <= lmax (map (mdepth E) l))%nat).
Proof.
  apply arrives_mutind; intros; cbn [mdepth p_attrs]; auto; try lia.
  - rewrite H. lia.
  - assert (G : forall d : list (pyval * pyval), map (fun kv => mdepth E (snd kv)) d = map (mdepth E) (map snd d)) by (intro; rewrite map_map; reflexivity).
    rewrite !G. lia.
  - cbn [map]. unfold lmax in *. cbn [fold_right]. lia.
Qed.

Lemma arrives_home E addr h :
  (forall v tr v', arrives E addr v tr v' ->
     (forall o oid rid, In (GetProxy o true, OProxy oid rid) tr -> h (mkP addr oid rid (type_str E (VObj o)) []) = VObj o) ->
     (forall p, In p (proxies v) -> h p = VProxy p) -> subst h v' = v) /\
  (forall l tr l', arrive_all E addr l tr l' ->
     (forall o oid rid, In (GetProxy o true, OProxy oid rid) tr -> h (mkP addr oid rid (type_str E (VObj o)) []) = VObj o) ->
     (forall p, In p (flat_map proxies l) -> h p = VProxy p) -> map (subst h) l' = l).
Proof.
  apply arrives_mutind.
  - intros v _ _ Hp. revert Hp. induction v using pyval_ind'; cbn; auto; intro Hp; f_equal.
    + induction H; cbn; [reflexivity|]. cbn in Hp. rewrite H, IHForall; auto; intros; apply Hp; apply in_or_app; auto.
    + induction H; cbn; [reflexivity|]. cbn in Hp. rewrite H, IHForall; auto; intros; apply Hp; apply in_or_app; auto.
    + induction H as [|[k v] r [_ Hv] F IH]; cbn; [reflexivity|]. cbn in *. rewrite Hv, IH; auto; intros; apply Hp; apply in_or_app; auto.
  - intros o oid rid _ Hh _. cbn [subst]. apply Hh. left. reflexivity.
  - intros l tr l' _ IH Hh Hp. cbn [subst]. rewrite IH; auto.
  - intros l tr l' _ IH Hh Hp. cbn [subst]. rewrite IH; auto.
  - intros d tr d' Hk _ IH Hh Hp. cbn [subst]. f_equal.
    apply pairs_eq; rewrite map_map; cbn [fst snd]; [exact Hk|].
    rewrite <- (map_map snd (subst h)). apply IH; [exact Hh|]. intros p I. apply Hp. cbn. rewrite flat_map_snd. exact I.
  - reflexivity.
  - intros v t v' l tr l' _ IH1 _ IH2 Hh Hp. cbn [map]. rewrite IH1, IH2; auto.
    + intros. apply Hh. apply in_or_app. auto.
    + intros. apply Hp. cbn. apply in_or_app. auto.
    + intros. apply Hh. apply in_or_app. auto.
    + intros. apply Hp. cbn. apply in_or_app. auto.
Qed.

Lemma arrives_proxies E addr :
  (forall v tr v', arrives E addr v tr v' -> forall p, In p (proxies v') -> In p (proxies v) \/
     exists o oid rid, In (GetProxy o true, OProxy oid rid) tr /\ p = mkP addr oid rid (type_str E (VObj o)) []) /\
  (forall l tr l', arrive_all E addr l tr l' -> forall p, In p (flat_map proxies l') -> In p (flat_map proxies l) \/
     exists o oid rid, In (GetProxy o true, OProxy oid rid) tr /\ p = mkP addr oid rid (type_str E (VObj o)) []).
Proof.
  apply arrives_mutind; intros; auto.
  - destruct H0 as [<-|[]]. right. exists o, oid, rid. cbn. auto.
  - cbn [proxies] in *. rewrite flat_map_snd in *. auto.
  - cbn in *. rewrite in_app_iff in *. destruct H3 as [I|I].
    + destruct (H0 p I) as [|(o & oid & rid & J & ->)]; [auto|]. right. exists o, oid, rid. rewrite in_app_iff. auto.
    + destruct (H2 p I) as [|(o & oid & rid & J & ->)]; [auto|]. right. exists o, oid, rid. rewrite in_app_iff. auto.
Qed.

(** at home every proxy of the value can be resolved *)
Lemma homes E addr v tr v' : arrives E addr v tr v' ->
  (forall p, In p (proxies v) -> p_addr p <> addr) ->
  forall st2 tr2, history (ss_o st2) tr2 ->
  (forall o, dget (ss_boxes st2) o = None) ->
  (forall o oid rid, In (GetProxy o true, OProxy oid rid) tr -> outstanding tr2 oid rid o) ->
  exists h,
    (forall p, In p (proxies v') -> home E (Some addr) st2 p = Ok (h p)) /\
    (forall o oid rid, In (GetProxy o true, OProxy oid rid) tr -> h (mkP addr oid rid (type_str E (VObj o)) []) = VObj o) /\
    (forall p, In p (proxies v) -> h p = VProxy p).
Proof.
  intros A Hf st2 tr2 Hh Hb Ho.
  assert (Hmine : forall o oid rid, In (GetProxy o true, OProxy oid rid) tr ->
            home E (Some addr) st2 (mkP addr oid rid (type_str E (VObj o)) []) = Ok (VObj o)).
  { intros o oid rid I. unfold home. cbn [p_addr]. rewrite String.eqb_refl. unfold unwrap_proxy. cbn [p_oid p_rid p_attrs].
    pose proof (outstanding_resolves _ _ _ _ _ Hh (Ho _ _ _ I)) as Hu. unfold outcome, ostep in Hu. cbn [snd] in Hu.
    destruct (lookup_oid (tab (ss_o st2)) oid rid) as [o'|e]; [|discriminate]. injection Hu as ->. cbn. unfold unbox. rewrite Hb. reflexivity. }
  assert (Hfor : forall p, In p (proxies v) -> home E (Some addr) st2 p = Ok (VProxy p)).
  { intros p I. apply home_foreign. intros [= C]. apply (Hf p I). congruence. }
  exists (fun p => match home E (Some addr) st2 p with Ok x => x | Err _ => VProxy p end).
  split; [|split].
  - intros p I. destruct (proj1 (arrives_proxies E addr) _ _ _ A p I) as [J|(o & oid & rid & J & ->)].
    + rewrite (Hfor p J). reflexivity.
    + rewrite (Hmine _ _ _ J). reflexivity.
  - intros o oid rid I. rewrite (Hmine _ _ _ I). reflexivity.
  - intros p I. rewrite (Hfor p I). reflexivity.
Qed.

Lemma msgpack_home E : good_env E -> forall addr v tr v' n,
  sendable E v -> (mdepth E v <= n)%nat -> arrives E addr v tr v' ->
  (forall p, In p (proxies v) -> p_addr p <> addr) ->
  forall srvc stc st2 tr2, history (ss_o st2) tr2 ->
  (forall o, dget (ss_boxes st2) o = None) ->
  (forall o oid rid, In (GetProxy o true, OProxy oid rid) tr -> outstanding tr2 oid rid o) ->
  exists w, pack E n srvc stc v' = (stc, Ok w) /\ unpack E (Some addr) st2 w = Ok v.
Proof.
  intros GE addr v tr v' n Hs Hd A Hf srvc stc st2 tr2 Hh Hb Ho.
  destruct (proj1 (arrives_sendable E addr) _ _ _ A Hs) as [Hs' Ho'].
  pose proof (proj1 (arrives_depth E addr) _ _ _ A) as Hd'.
  assert (Hd2 : (mdepth E v' <= n)%nat) by lia.
  destruct (packs E GE addr v' srvc n stc Hd2 Hs' (alive_none _ _ _ Ho') (or_introl Ho'))
    as (st' & w & tr' & v'' & P & _ & _ & _ & A' & S & U).
  rewrite (S Ho') in P. destruct (proj1 (arrives_same E addr) _ _ _ A' Ho') as [-> _].
  exists w. split; [exact P|].
  destruct (homes E addr v tr v' A Hf st2 tr2 Hh Hb Ho) as (h & H1 & H2 & H3).
  rewrite (U (Some addr) st2 h H1). f_equal. apply (proj1 (arrives_home E addr _) _ _ _ A); assumption.
Qed.
