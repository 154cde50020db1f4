From Verif Require Import Py ObjTableModel ObjTableSpec.

Record OInv (s : ostate) (tr : otrace) : Prop := {
  i_nd_prefs : NoDup (dkeys (prefs (tab s)));
  i_nd_idmap : NoDup (dkeys (idmap (tab s)));
  i_nd_heap : NoDup (dkeys (addrs (hp s)));
  i_heap_fresh : forall o a, dget (addrs (hp s)) o = Some a -> (o < fresh_obj (hp s))%nat;
  i_heap_inj : forall o1 o2 a, dget (addrs (hp s)) o1 = Some a ->
                 dget (addrs (hp s)) o2 = Some a -> o1 = o2;
  i_entry : forall oid o refs, dget (prefs (tab s)) oid = Some (o, refs) ->
              NoDup refs /\ refs <> [] /\
              exists a, dget (addrs (hp s)) o = Some a /\ dget (idmap (tab s)) a = Some oid;
  i_idmap_inj : forall a1 a2 oid, dget (idmap (tab s)) a1 = Some oid ->
                 dget (idmap (tab s)) a2 = Some oid -> a1 = a2;
  i_idmap_lt : forall a oid, dget (idmap (tab s)) a = Some oid -> oid < next_oid (tab s);
  i_refs : forall oid o refs, dget (prefs (tab s)) oid = Some (o, refs) ->
             forall rid, In rid refs <-> outstanding tr oid rid o;
  i_out : forall oid rid o, outstanding tr oid rid o ->
             exists refs, dget (prefs (tab s)) oid = Some (o, refs);
  i_rid_lt : forall oid rid o, issued tr oid rid o -> rid < next_rid (tab s);
  i_oid_lt : forall oid rid o, issued tr oid rid o -> oid < next_oid (tab s);
  i_gone : forall oid rid o, issued tr oid rid o -> dget (prefs (tab s)) oid = None ->
             forall a, dget (idmap (tab s)) a <> Some oid;
  i_oid_obj : forall oid r1 o1 r2 o2, issued tr oid r1 o1 -> issued tr oid r2 o2 -> o1 = o2;
  i_rel_iss : forall oid rid, released tr oid rid -> exists o, issued tr oid rid o;
  i_rid_uniq : forall rid oid1 o1 oid2 o2, issued tr oid1 rid o1 -> issued tr oid2 rid o2 ->
             oid1 = oid2 /\ o1 = o2
}.

Lemma OInv_init : OInv ostate_init [].
Proof.
  constructor; simpl; try (constructor; fail); try discriminate; try tauto.
  all: try (intros; unfold outstanding, issued, released in *; firstorder; fail).
Qed.

(* Events that neither issue nor release leave the spec predicates alone. *)
Definition neutral (e : oop * oout) : Prop :=
  (forall o ok oid rid, e <> (GetProxy o ok, OProxy oid rid)) /\
  (forall oid rid, e <> (Delete oid rid, ODeleted)).

Lemma issued_app tr e oid rid o :
  issued (tr ++ [e]) oid rid o <-> issued tr oid rid o \/ exists ok, e = (GetProxy o ok, OProxy oid rid).
Proof.
  unfold issued. split.
  - intros [ok I]. rewrite in_app_iff in I. simpl in I. destruct I as [I|[I|[]]]; [left | right]; eauto.
  - intros [[ok I]|[ok ->]]; exists ok; rewrite in_app_iff; simpl; auto.
Qed.
Lemma released_app tr e oid rid :
  released (tr ++ [e]) oid rid <-> released tr oid rid \/ e = (Delete oid rid, ODeleted).
Proof. unfold released. rewrite in_app_iff. simpl. intuition. Qed.

Lemma neutral_issued tr e oid rid o : neutral e -> (issued (tr ++ [e]) oid rid o <-> issued tr oid rid o).
Proof.
  intros [N _]. rewrite issued_app. split; [|auto]. intros [I|[ok ->]]; [exact I|].
  exfalso. eapply N. reflexivity.
Qed.
Lemma neutral_released tr e oid rid : neutral e -> (released (tr ++ [e]) oid rid <-> released tr oid rid).
Proof.
  intros [_ N]. rewrite released_app. split; [|auto]. intros [I| ->]; [exact I|].
  exfalso. eapply N. reflexivity.
Qed.
Lemma neutral_outstanding tr e oid rid o :
  neutral e -> (outstanding (tr ++ [e]) oid rid o <-> outstanding tr oid rid o).
Proof. intro N. unfold outstanding. rewrite neutral_issued, neutral_released by exact N. tauto. Qed.

Lemma OInv_neutral s tr e : neutral e -> OInv s tr -> OInv s (tr ++ [e]).
Proof.
  intros N I. destruct I. constructor; auto.
  - intros oid o refs G rid. rewrite neutral_outstanding by exact N. eauto.
  - intros oid rid o. rewrite neutral_outstanding by exact N. eauto.
  - intros oid rid o. rewrite neutral_issued by exact N. eauto.
  - intros oid rid o. rewrite neutral_issued by exact N. eauto.
  - intros oid rid o. rewrite neutral_issued by exact N. eauto.
  - intros oid r1 o1 r2 o2. rewrite !neutral_issued by exact N. eauto.
  - intros oid rid. rewrite neutral_released by exact N. intro R.
    destruct (i_rel_iss0 _ _ R) as [o Ho]. exists o. rewrite neutral_issued by exact N. exact Ho.
  - intros rid oid1 o1 oid2 o2. rewrite !neutral_issued by exact N. eauto.
Qed.

Lemma neutral_other op out :
  (forall o ok, op <> GetProxy o ok) -> (forall oid rid, op <> Delete oid rid) -> neutral (op, out).
Proof. intros A B. split; intros; intros [= -> _]; [eapply A | eapply B]; reflexivity. Qed.
Lemma neutral_err op e : neutral (op, OErr e).
Proof. split; intros; intros [=]. Qed.
Lemma neutral_nothing op : neutral (op, ONothing).
Proof. split; intros; intros [=]. Qed.

Lemma held_false t o : held t o = false ->
  forall oid o' refs, dget (prefs t) oid = Some (o', refs) -> o' <> o.
Proof.
  unfold held. intros Hf oid o' refs G E. subst o'.
  apply dget_In in G.
  assert (C : existsb (fun e : Z * (obj * list Z) => Nat.eqb (fst (snd e)) o) (prefs t) = true).
  { apply existsb_exists. exists (oid, (o, refs)). split; [exact G|]. simpl. apply Nat.eqb_refl. }
  pose proof (eq_trans (eq_sym C) Hf). discriminate.
Qed.

Lemma OInv_heap_change s tr h' :
  OInv s tr ->
  NoDup (dkeys (addrs h')) ->
  (forall o a, dget (addrs h') o = Some a -> (o < fresh_obj h')%nat) ->
  (forall o1 o2 a, dget (addrs h') o1 = Some a -> dget (addrs h') o2 = Some a -> o1 = o2) ->
  (forall oid o refs, dget (prefs (tab s)) oid = Some (o, refs) ->
      dget (addrs h') o = dget (addrs (hp s)) o) ->
  OInv (mkS (tab s) h') tr.
Proof.
  intros I A B C D. destruct I. constructor; simpl; eauto.
  intros oid o refs G. destruct (i_entry0 _ _ _ G) as (N & Ne & a & Ha & Hm).
  repeat split; auto. exists a. rewrite (D _ _ _ G). auto.
Qed.

Lemma id_in_live h o a : dget (addrs h) o = Some a -> id_in h o = a.
Proof. unfold id_in. intros ->. reflexivity. Qed.

Lemma OInv_alloc s tr a :
  existsb (fun e : obj * Z => Z.eqb (snd e) a) (addrs (hp s)) = false ->
  OInv s tr ->
  OInv (mkS (tab s) (mkH (dset (addrs (hp s)) (fresh_obj (hp s)) a) (S (fresh_obj (hp s))))) tr.
Proof.
  intros Ha I. pose proof I as I0. destruct I.
  assert (Hfree : forall o, dget (addrs (hp s)) o <> Some a).
  { intros o G. apply dget_In in G.
    assert (C : existsb (fun e : obj * Z => Z.eqb (snd e) a) (addrs (hp s)) = true).
    { apply existsb_exists. exists (o, a). split; [exact G|]. apply Z.eqb_refl. }
    pose proof (eq_trans (eq_sym C) Ha). discriminate. }
  assert (Hnew : dget (addrs (hp s)) (fresh_obj (hp s)) = None).
  { destruct (dget (addrs (hp s)) (fresh_obj (hp s))) eqn:E; [|reflexivity].
    apply i_heap_fresh0 in E. lia. }
  apply OInv_heap_change; simpl; auto.
  - apply NoDup_dset; auto.
  - intros o a'. rewrite dget_dset. destruct (eqb_reflect o (fresh_obj (hp s))) as [->|N].
    + intros _. lia.
    + intro G. apply i_heap_fresh0 in G. lia.
  - intros o1 o2 a'. rewrite !dget_dset.
    destruct (eqb_reflect o1 (fresh_obj (hp s))) as [->|N1];
    destruct (eqb_reflect o2 (fresh_obj (hp s))) as [->|N2]; auto.
    + intros [= <-] G. exfalso. eapply Hfree; eauto.
    + intros G [= <-]. exfalso. eapply Hfree; eauto.
    + eauto.
  - intros oid o refs G. destruct (i_entry0 _ _ _ G) as (_ & _ & a' & Ga & _).
    rewrite dget_dset. destruct (eqb_reflect o (fresh_obj (hp s))) as [->|N]; [congruence|reflexivity].
Qed.

Lemma OInv_free s tr o :
  held (tab s) o = false -> OInv s tr ->
  OInv (mkS (tab s) (mkH (ddel (addrs (hp s)) o) (fresh_obj (hp s)))) tr.
Proof.
  intros Hh I. pose proof I as I0. destruct I. apply OInv_heap_change; simpl; auto.
  - apply NoDup_ddel; auto.
  - intros o' a. rewrite dget_ddel by auto. destruct (eqb o' o); [discriminate|eauto].
  - intros o1 o2 a. rewrite !dget_ddel by auto.
    destruct (eqb o1 o); [discriminate|]. destruct (eqb o2 o); [discriminate|eauto].
  - intros oid o' refs G. apply dget_ddel_other. apply not_eq_sym. eapply held_false; eauto.
Qed.

(** ** get_proxy *)

(* object id lookup, characterised *)
Lemma get_object_id_spec idof t o t' oid :
  get_object_id idof t o = (t', oid) ->
  prefs t' = prefs t /\ next_rid t' = next_rid t /\
  ((dget (idmap t) (idof o) = Some oid /\ t' = t) \/
   (dget (idmap t) (idof o) = None /\ oid = next_oid t /\ next_oid t' = next_oid t + 1 /\
    idmap t' = dset (idmap t) (idof o) oid)).
Proof.
  unfold get_object_id. destruct (dget (idmap t) (idof o)) eqn:E; intros [= <- <-]; simpl; auto 10.
Qed.

Lemma OInv_taken s tr (ok : bool) o a t1 oid :
  OInv s tr ->
  dget (addrs (hp s)) o = Some a ->
  get_object_id (id_in (hp s)) (mkT (next_oid (tab s)) (next_rid (tab s) + 1) (prefs (tab s)) (idmap (tab s))) o = (t1, oid) ->
  OInv (mkS t1 (hp s)) tr /\ dget (idmap t1) a = Some oid /\ prefs t1 = prefs (tab s) /\
  next_rid t1 = next_rid (tab s) + 1 /\
  (forall refs o', dget (prefs (tab s)) oid = Some (o', refs) -> o' = o) /\
  (dget (prefs (tab s)) oid = None -> forall rid o', ~ issued tr oid rid o') /\
  oid < next_oid t1.
Proof.
  intros I Ha G. pose proof (id_in_live _ _ _ Ha) as Hid.
  apply get_object_id_spec in G. simpl in G. destruct G as (Gp & Gr & G). rewrite Hid in G.
  destruct I.
  destruct G as [[Gm Gt]|(Gm & Goid & Gn & Gmap)].
  - subst t1. simpl in *.
    assert (Hpub : dget (prefs (tab s)) oid = None -> forall rid o', ~ issued tr oid rid o').
    { intros Hn rid o' Hi. eapply i_gone0; eauto. }
    split; [|repeat split; auto].
    + constructor; simpl; eauto.
      intros oid0 rid0 o0 Hi. specialize (i_rid_lt0 _ _ _ Hi). lia.
    + intros refs o' Ge. destruct (i_entry0 _ _ _ Ge) as (_ & _ & a' & Ha' & Hm').
      assert (a' = a) by (eapply i_idmap_inj0; eauto). subst a'. eauto.
    + eauto.
  - subst oid.
    assert (Hnone : dget (prefs (tab s)) (next_oid (tab s)) = None).
    { destruct (dget (prefs (tab s)) (next_oid (tab s))) as [[o' refs]|] eqn:E; [|reflexivity].
      destruct (i_entry0 _ _ _ E) as (_ & _ & a' & _ & Hm'). apply i_idmap_lt0 in Hm'. lia. }
    assert (Hnopub : forall rid o', ~ issued tr (next_oid (tab s)) rid o').
    { intros rid o' Hi. apply i_oid_lt0 in Hi. lia. }
    split; [|repeat split; auto].
    + constructor; simpl; rewrite ?Gp, ?Gr, ?Gmap, ?Gn; eauto.
      * apply NoDup_dset; auto.
      * intros oid o' refs Ge. destruct (i_entry0 _ _ _ Ge) as (Nd & Ne & a' & Ha' & Hm').
        repeat split; auto. exists a'. split; [auto|]. rewrite dget_dset.
        destruct (eqb_reflect a' a) as [->|N]; [congruence | auto].
      * intros a1 a2 oid. rewrite !dget_dset.
        destruct (eqb_reflect a1 a) as [->|N1]; destruct (eqb_reflect a2 a) as [->|N2]; auto.
        -- intros [= <-] G2. apply i_idmap_lt0 in G2. lia.
        -- intros G1 [= <-]. apply i_idmap_lt0 in G1. lia.
        -- eauto.
      * intros a1 oid. rewrite dget_dset. destruct (eqb a1 a); [intros [= <-]; lia|].
        intro G1. apply i_idmap_lt0 in G1. lia.
      * intros oid rid o' Hi. apply i_rid_lt0 in Hi. lia.
      * intros oid rid o' Hi. apply i_oid_lt0 in Hi. lia.
      * intros oid rid o' Hi Hn a'. rewrite dget_dset. destruct (eqb_reflect a' a) as [->|N].
        -- intros [= E]. subst oid. eapply Hnopub; eauto.
        -- eauto.
    + rewrite Gmap, dget_dset_same. reflexivity.
    + intros refs o' Ge. congruence.
    + lia.
Qed.

Lemma OInv_get_proxy s tr ok o a :
  OInv s tr -> dget (addrs (hp s)) o = Some a ->
  let '(t', r) := get_proxy (id_in (hp s)) ok (tab s) o in
  OInv (mkS t' (hp s))
       (tr ++ [(GetProxy o ok, match r with Ok (oid, rid) => OProxy oid rid | Err e => OErr e end)]).
Proof.
  intros I Ha. unfold get_proxy.
  destruct (get_object_id (id_in (hp s))
             {| next_oid := next_oid (tab s); next_rid := next_rid (tab s) + 1;
                prefs := prefs (tab s); idmap := idmap (tab s) |} o) as [t1 oid] eqn:G.
  destruct (OInv_taken s tr ok o a t1 oid I Ha G) as (I1 & Hm & Hp & Hr & Hown & Hpub & Hlt).
  destruct ok.
  2:{ apply OInv_neutral; [apply neutral_err | exact I1]. }
  remember (next_rid (tab s)) as rid eqn:Erid.
  set (entry := match dget (prefs t1) oid with Some e => e | None => (o, []) end).
  assert (Hentry : fst entry = o /\ NoDup (snd entry) /\
                   forall r, In r (snd entry) <-> outstanding tr oid r o).
  { unfold entry. rewrite Hp. destruct (dget (prefs (tab s)) oid) as [[o' refs]|] eqn:E.
    - assert (o' = o) by eauto. subst o'. simpl.
      destruct I. destruct (i_entry0 _ _ _ E) as (Nd & _ & _).
      split; [reflexivity|]. split; [exact Nd|]. intro r. apply (i_refs0 _ _ _ E).
    - simpl. split; [reflexivity|]. split; [constructor|]. intro r. split; [tauto|].
      intros [Hi _]. eapply Hpub; eauto. }
  destruct Hentry as (He1 & He2 & He3). rewrite He1. clearbody entry.
  assert (Hridfresh : forall oid' o', ~ issued tr oid' rid o').
  { intros oid' o' Hi. destruct I. apply i_rid_lt0 in Hi. lia. }
  assert (Hrel : forall oid' r, released (tr ++ [(GetProxy o true, OProxy oid rid)]) oid' r <-> released tr oid' r).
  { intros. rewrite released_app. split; [intros [R|[=]]; auto | auto]. }
  assert (Hiss : forall oid' r o', issued (tr ++ [(GetProxy o true, OProxy oid rid)]) oid' r o' <->
                   issued tr oid' r o' \/ (oid' = oid /\ r = rid /\ o' = o)).
  { intros. rewrite issued_app. split.
    - intros [Hi|[ok E]]; [auto|]. right. injection E as E1 E2 E3 E4. auto.
    - intros [Hi|(-> & -> & ->)]; eauto. }
  assert (Hnorel : ~ released tr oid rid).
  { intro R. destruct I. destruct (i_rel_iss0 _ _ R) as [o' Ho']. eapply Hridfresh; eauto. }
  assert (Hout : forall oid' r o', outstanding (tr ++ [(GetProxy o true, OProxy oid rid)]) oid' r o' <->
                   outstanding tr oid' r o' \/ (oid' = oid /\ r = rid /\ o' = o)).
  { intros. unfold outstanding. rewrite Hiss, Hrel. split.
    - intros [[Hi|(-> & -> & ->)] Hn]; auto.
    - intros [[Hi Hn]|(-> & -> & ->)]; auto. }
  destruct I1. simpl in *. rewrite Hp in *.
  constructor; simpl; rewrite ?Hp; eauto.
  - apply NoDup_dset; auto.
  - intros oid' o' refs. rewrite dget_dset. destruct (eqb_reflect oid' oid) as [->|N]; [|eauto].
    intros [= <- <-]. split; [apply NoDup_sadd; auto|]. split.
    + intro C. assert (J : In rid (sadd rid (snd entry))) by (apply sadd_In; auto).
      rewrite C in J. destruct J.
    + exists a. auto.
  - intros oid' o' refs. rewrite dget_dset. destruct (eqb_reflect oid' oid) as [->|N].
    + intros [= <- <-] r. rewrite sadd_In, He3, Hout.
      split; [intros [E|H] | intros [H|(_ & E & _)]]; auto.
    + intros Ge r. rewrite Hout. rewrite (i_refs0 _ _ _ Ge r).
      split; [auto|]. intros [H|(E & _)]; [exact H | contradiction].
  - intros oid' r o'. rewrite Hout, dget_dset. destruct (eqb_reflect oid' oid) as [->|N].
    + intros [H|(_ & -> & ->)]; [|eauto].
      destruct (i_out0 _ _ _ H) as [refs Hr']. assert (o' = o) by eauto. subst. eauto.
    + intros [H|(E & _)]; [eauto | contradiction].
  - intros oid' r o'. rewrite Hiss. intros [H|(-> & -> & ->)]; [eauto|]. lia.
  - intros oid' r o'. rewrite Hiss. intros [H|(-> & -> & ->)]; eauto.
  - intros oid' r o'. rewrite Hiss, dget_dset. destruct (eqb_reflect oid' oid) as [->|N]; [discriminate|].
    intros [H|(E & _)]; [eauto | contradiction].
  - intros oid' r1 o1 r2 o2. rewrite !Hiss.
    assert (Hsame : forall r o', issued tr oid r o' -> o' = o).
    { intros r o' Hi. destruct (dget (prefs (tab s)) oid) as [[o0 refs]|] eqn:E.
      - assert (o0 = o) by eauto. subst o0.
        destruct (i_entry0 _ _ _ E) as (_ & Hne & _).
        destruct refs as [|r0 refs]; [congruence|].
        assert (H0 : In r0 (r0 :: refs)) by (left; reflexivity).
        apply (i_refs0 _ _ _ E) in H0. destruct H0 as [H0 _]. eauto.
      - exfalso. eapply Hpub; eauto. }
    intros [H1|(-> & -> & ->)] [H2|(E2 & -> & ->)]; subst; eauto. symmetry. eauto.
  - intros oid' r. rewrite Hrel. intro R. destruct (i_rel_iss0 _ _ R) as [o' Ho'].
    exists o'. rewrite Hiss. auto.
  - intros r oid1 o1 oid2 o2. rewrite !Hiss.
    intros [H1|(-> & -> & ->)] [H2|(-> & E2 & ->)]; subst; eauto; exfalso; eapply Hridfresh; eauto.
Qed.

(** ** delete *)
Lemma delete_cases s tr oid rid :
  OInv s tr ->
  (forall o, outstanding tr oid rid o ->
     exists refs a, dget (prefs (tab s)) oid = Some (o, refs) /\ In rid refs /\
                    dget (addrs (hp s)) o = Some a /\ dget (idmap (tab s)) a = Some oid) /\
  ((forall o, ~ outstanding tr oid rid o) ->
     delete_ref (id_in (hp s)) (tab s) oid rid = (tab s, Err KeyError)).
Proof.
  intro I. destruct I. split.
  - intros o Ho. destruct (i_out0 _ _ _ Ho) as [refs G].
    destruct (i_entry0 _ _ _ G) as (_ & _ & a & Ga & Gm).
    exists refs, a. repeat split; auto. apply (i_refs0 _ _ _ G). exact Ho.
  - intro Hn. unfold delete_ref. destruct (dget (prefs (tab s)) oid) as [[o refs]|] eqn:G; [|reflexivity].
    destruct (smem rid refs) eqn:M; [|reflexivity].
    apply smem_In in M. apply (i_refs0 _ _ _ G) in M. exfalso. eapply Hn; eauto.
Qed.

Lemma OInv_delete s tr oid rid :
  OInv s tr ->
  let '(t', r) := delete_ref (id_in (hp s)) (tab s) oid rid in
  OInv (mkS t' (hp s)) (tr ++ [(Delete oid rid, match r with Ok _ => ODeleted | Err e => OErr e end)])
  /\ ((exists o, outstanding tr oid rid o) -> r = Ok tt).
Proof.
  intro I. destruct (delete_cases s tr oid rid I) as [Hyes Hno].
  unfold delete_ref in *.
  destruct (dget (prefs (tab s)) oid) as [[o refs]|] eqn:G.
  2:{ split; [destruct s as [t h]; apply OInv_neutral; [apply neutral_err | exact I]|].
      intros [o Ho]. destruct (Hyes _ Ho) as (refs & a & E & _). discriminate. }
  destruct (smem rid refs) eqn:M.
  2:{ split; [destruct s as [t h]; apply OInv_neutral; [apply neutral_err | exact I]|].
      intros [o' Ho]. destruct (Hyes _ Ho) as (refs' & a & E & Hin & _).
      injection E as <- <-. apply smem_In in Hin. congruence. }
  apply smem_In in M.
  pose proof (proj1 (i_refs _ _ I _ _ _ G rid) M) as Hout0.
  destruct (Hyes _ Hout0) as (refs0 & a & E0 & _ & Ga & Gm). injection E0 as <-.
  assert (Hid : id_in (hp s) o = a) by (apply id_in_live; auto).
  set (e := (Delete oid rid, ODeleted)).
  assert (Hiss : forall oid' r o', issued (tr ++ [e]) oid' r o' <-> issued tr oid' r o').
  { intros. rewrite issued_app. split; [intros [H|[ok [=]]]; auto | auto]. }
  assert (Hrel : forall oid' r, released (tr ++ [e]) oid' r <-> released tr oid' r \/ (oid' = oid /\ r = rid)).
  { intros. rewrite released_app. split; [intros [H|E]; [auto | right; injection E as E1 E2; auto] | intros [H|[-> ->]]; auto]. }
  assert (Hout : forall oid' r o', outstanding (tr ++ [e]) oid' r o' <->
                   outstanding tr oid' r o' /\ ~ (oid' = oid /\ r = rid)).
  { intros. unfold outstanding. rewrite Hiss, Hrel. tauto. }
  pose proof I as I0. destruct I.
  destruct (i_entry0 _ _ _ G) as (Nd & Hne & _).
  destruct (srem rid refs) as [|r0 rs] eqn:Er.
  - (* last reference *)
    simpl. rewrite Hid.
    assert (Hmem : dmem (idmap (tab s)) a = true) by (unfold dmem; rewrite Gm; reflexivity).
    rewrite Hmem. simpl. split; [|auto].
    assert (Honly : forall r, In r refs -> r = rid).
    { intros r Hr. destruct (Z.eq_dec r rid) as [|N]; [assumption|].
      assert (J : In r (srem rid refs)) by (apply srem_In; auto). rewrite Er in J. destruct J. }
    fold e. clearbody e. constructor; simpl; eauto.
    + apply NoDup_ddel; auto.
    + apply NoDup_ddel; auto.
    + intros oid' o' refs'. rewrite dget_ddel by auto.
      destruct (eqb_reflect oid' oid) as [->|N]; [discriminate|]. intro G'.
      destruct (i_entry0 _ _ _ G') as (Nd' & Ne' & a' & Ga' & Gm').
      repeat split; auto. exists a'. split; [auto|]. rewrite dget_ddel by auto.
      destruct (eqb_reflect a' a) as [->|Na]; [congruence | auto].
    + intros a1 a2 oid'. rewrite !dget_ddel by auto.
      destruct (eqb a1 a); [discriminate|]. destruct (eqb a2 a); [discriminate|]. eauto.
    + intros a1 oid'. rewrite dget_ddel by auto. destruct (eqb a1 a); [discriminate|]. eauto.
    + intros oid' o' refs'. rewrite dget_ddel by auto.
      destruct (eqb_reflect oid' oid) as [->|N]; [discriminate|]. intros G' r.
      rewrite Hout, (i_refs0 _ _ _ G' r). tauto.
    + intros oid' r o'. rewrite Hout, dget_ddel by auto. intros [H Hn].
      destruct (eqb_reflect oid' oid) as [->|N]; [|eauto].
      destruct (i_out0 _ _ _ H) as [refs' G']. rewrite G in G'. injection G' as <- <-.
      exfalso. apply Hn. split; [reflexivity|]. apply Honly. apply (i_refs0 _ _ _ G). exact H.
    + intros oid' r o'. rewrite Hiss. eauto.
    + intros oid' r o'. rewrite Hiss. eauto.
    + intros oid' r o'. rewrite Hiss, dget_ddel by auto. intros H Hn a'.
      rewrite dget_ddel by auto. destruct (eqb_reflect a' a) as [->|Na]; [discriminate|].
      destruct (eqb_reflect oid' oid) as [->|N]; [|eauto].
      intro G'. apply Na. eapply i_idmap_inj0; eauto.
    + intros oid' r1 o1 r2 o2. rewrite !Hiss. eauto.
    + intros oid' r. rewrite Hrel. intros [R|[-> ->]].
      * destruct (i_rel_iss0 _ _ R) as [o' Ho']. exists o'. rewrite Hiss. exact Ho'.
      * exists o. rewrite Hiss. apply Hout0.
    + intros r oid1 o1 oid2 o2. rewrite !Hiss. eauto.
  - (* references remain *)
    simpl. split; [|auto].
    assert (Hrs : forall r, In r (r0 :: rs) <-> r <> rid /\ In r refs).
    { intro r. rewrite <- Er. apply srem_In; auto. }
    fold e. clearbody e. constructor; simpl; eauto.
    + apply NoDup_dset; auto.
    + intros oid' o' refs'. rewrite dget_dset. destruct (eqb_reflect oid' oid) as [->|N]; [|eauto].
      intros [= <- <-]. repeat split; [rewrite <- Er; apply NoDup_srem; auto | discriminate | eauto].
    + intros oid' o' refs'. rewrite dget_dset. destruct (eqb_reflect oid' oid) as [->|N].
      * intros [= <- <-] r. rewrite Hrs, (i_refs0 _ _ _ G r), Hout. intuition.
      * intros G' r. rewrite Hout, (i_refs0 _ _ _ G' r). intuition.
    + intros oid' r o'. rewrite Hout, dget_dset. intros [H Hn].
      destruct (eqb_reflect oid' oid) as [->|N]; [|eauto].
      destruct (i_out0 _ _ _ H) as [refs' G']. rewrite G in G'. injection G' as <- <-. eauto.
    + intros oid' r o'. rewrite Hiss. eauto.
    + intros oid' r o'. rewrite Hiss. eauto.
    + intros oid' r o'. rewrite Hiss, dget_dset. destruct (eqb_reflect oid' oid) as [->|N]; [discriminate|eauto].
    + intros oid' r1 o1 r2 o2. rewrite !Hiss. eauto.
    + intros oid' r. rewrite Hrel. intros [R|[-> ->]].
      * destruct (i_rel_iss0 _ _ R) as [o' Ho']. exists o'. rewrite Hiss. exact Ho'.
      * exists o. rewrite Hiss. apply Hout0.
    + intros r oid1 o1 oid2 o2. rewrite !Hiss. eauto.
Qed.

Lemma OInv_step s tr op : OInv s tr ->
  OInv (fst (ostep s op)) (tr ++ [(op, snd (ostep s op))]).
Proof.
  intro I. destruct op as [a|o|o ok|oid rid|oid]; unfold ostep.
  - destruct (existsb _ _) eqn:E; simpl.
    + apply OInv_neutral; [apply neutral_nothing | exact I].
    + apply OInv_neutral; [apply neutral_other; discriminate | apply OInv_alloc; assumption].
  - destruct (dmem (addrs (hp s)) o && negb (held (tab s) o)) eqn:E; simpl.
    + apply andb_true_iff in E. destruct E as [_ E]. apply negb_true_iff in E.
      apply OInv_neutral; [apply neutral_other; discriminate | apply OInv_free; assumption].
    + apply OInv_neutral; [apply neutral_nothing | exact I].
  - destruct (dmem (addrs (hp s)) o) eqn:E.
    + apply dmem_true in E. apply dkey_dget in E. destruct E as [a Ha].
      pose proof (OInv_get_proxy s tr ok o a I Ha) as H.
      destruct (get_proxy (id_in (hp s)) ok (tab s) o) as [t' r]. exact H.
    + simpl. apply OInv_neutral; [apply neutral_nothing | exact I].
  - pose proof (OInv_delete s tr oid rid I) as H.
    destruct (delete_ref (id_in (hp s)) (tab s) oid rid) as [t' r]. apply H.
  - simpl. apply OInv_neutral; [apply neutral_other; discriminate | exact I].
Qed.

Lemma orun_cons s op ops :
  orun s (op :: ops) =
  (fst (orun (fst (ostep s op)) ops),
   (op, snd (ostep s op)) :: snd (orun (fst (ostep s op)) ops)).
Proof.
  cbn [orun]. destruct (ostep s op) as [s1 out]. cbn [fst snd]. destruct (orun s1 ops) as [s2 tr2]. reflexivity.
Qed.

Lemma OInv_run ops : forall s tr, OInv s tr ->
  OInv (fst (orun s ops)) (tr ++ snd (orun s ops)).
Proof.
  induction ops as [|op ops IH]; intros s tr I.
  - simpl. rewrite app_nil_r. exact I.
  - rewrite orun_cons. cbn [fst snd].
    change ((op, snd (ostep s op)) :: snd (orun (fst (ostep s op)) ops))
      with ([(op, snd (ostep s op))] ++ snd (orun (fst (ostep s op)) ops)).
    rewrite app_assoc. apply IH. apply OInv_step. exact I.
Qed.

Lemma OInv_history s tr : history s tr -> OInv s tr.
Proof.
  intros [ops E]. pose proof (OInv_run ops _ _ OInv_init) as H. rewrite E in H. exact H.
Qed.

Lemma orun_app ops1 ops2 s :
  orun s (ops1 ++ ops2) =
  (fst (orun (fst (orun s ops1)) ops2), snd (orun s ops1) ++ snd (orun (fst (orun s ops1)) ops2)).
Proof.
  revert s. induction ops1 as [|op ops IH]; intro s.
  - simpl. destruct (orun s ops2); reflexivity.
  - rewrite <- app_comm_cons, orun_cons, IH, orun_cons. reflexivity.
Qed.

Lemma history_extend s tr ops s2 tr2 :
  history s tr -> orun s ops = (s2, tr2) -> history s2 (tr ++ tr2).
Proof.
  intros [ops0 E] E2. exists (ops0 ++ ops). rewrite orun_app, E. simpl. rewrite E2. reflexivity.
Qed.

(** ** Statements used by the property file *)

Lemma resolves_iff s tr : history s tr ->
  forall oid r o, outcome s (Use oid r) = OObj o <-> exists rid, outstanding tr oid rid o.
Proof.
  intro H. apply OInv_history in H. destruct H. intros oid r0 o. unfold outcome, ostep, lookup_oid. simpl.
  destruct (dget (prefs (tab s)) oid) as [[o' refs]|] eqn:G; simpl.
  - split.
    + intros [= <-]. destruct (i_entry0 _ _ _ G) as (_ & Hne & _).
      destruct refs as [|r rs]; [congruence|]. exists r. apply (i_refs0 _ _ _ G). left; reflexivity.
    + intros [rid Ho]. destruct (i_out0 _ _ _ Ho) as [refs' G']. congruence.
  - split; [discriminate|]. intros [rid Ho]. destruct (i_out0 _ _ _ Ho) as [refs' G']. congruence.
Qed.

Lemma use_outcomes s oid r : (exists o, outcome s (Use oid r) = OObj o) \/ outcome s (Use oid r) = OErr KeyError.
Proof.
  unfold outcome, ostep, lookup_oid. simpl.
  destruct (dget (prefs (tab s)) oid) as [[o refs]|]; simpl; eauto.
Qed.

Lemma outstanding_resolves s tr oid rid o :
  history s tr -> outstanding tr oid rid o -> outcome s (Use oid rid) = OObj o.
Proof. intros H Ho. apply (resolves_iff s tr H). eauto. Qed.

Lemma retained_iff s tr : history s tr ->
  forall o, dmem (addrs (hp s)) o = true ->
  (outcome s (Free o) = ONothing <-> exists oid rid, outstanding tr oid rid o).
Proof.
  intros H o Hlive. apply OInv_history in H. destruct H. unfold outcome, ostep. rewrite Hlive. simpl.
  destruct (held (tab s) o) eqn:E; simpl.
  - split; [intros _|reflexivity]. unfold held in E. apply existsb_exists in E.
    destruct E as [[oid [o' refs]] [Hin He]]. simpl in He. apply Nat.eqb_eq in He. subst o'.
    apply (In_dget _ _ _ i_nd_prefs0) in Hin.
    destruct (i_entry0 _ _ _ Hin) as (_ & Hne & _). destruct refs as [|r rs]; [congruence|].
    exists oid, r. apply (i_refs0 _ _ _ Hin). left; reflexivity.
  - split; [discriminate|]. intros (oid & rid & Ho). destruct (i_out0 _ _ _ Ho) as [refs G].
    exfalso. eapply held_false; eauto.
Qed.

Lemma outstanding_live s tr oid rid o : history s tr -> outstanding tr oid rid o ->
  dmem (addrs (hp s)) o = true.
Proof.
  intros H Ho. apply OInv_history in H. destruct H. destruct (i_out0 _ _ _ Ho) as [refs G].
  destruct (i_entry0 _ _ _ G) as (_ & _ & a & Ga & _). unfold dmem. rewrite Ga. reflexivity.
Qed.

Lemma step_gone s tr oid rid0 o0 op :
  OInv s tr -> issued tr oid rid0 o0 -> dget (prefs (tab s)) oid = None ->
  dget (prefs (tab (fst (ostep s op)))) oid = None.
Proof.
  intros I Hi Hn. pose proof (i_gone _ _ I _ _ _ Hi Hn) as Hg.
  destruct op as [a|o|o ok|oid' rid'|oid']; unfold ostep.
  - destruct (existsb _ _); simpl; auto.
  - destruct (dmem _ _ && negb _); simpl; auto.
  - destruct (dmem (addrs (hp s)) o) eqn:E; [|auto].
    apply dmem_true in E. apply dkey_dget in E. destruct E as [a Ha].
    unfold get_proxy.
    destruct (get_object_id _ _ o) as [t1 oid1] eqn:G.
    destruct (OInv_taken s tr ok o a t1 oid1 I Ha G) as (I1 & Hm & Hp & Hr & Hown & Hpub & Hlt).
    destruct ok; simpl; rewrite Hp; [|auto]. rewrite dget_dset.
    destruct (eqb_reflect oid oid1) as [->|N]; [|auto].
    exfalso. eapply Hpub; eauto.
  - unfold delete_ref. destruct (dget (prefs (tab s)) oid') as [[o refs]|] eqn:G; [|auto].
    destruct (smem rid' refs); [|auto].
    assert (Hne : oid' <> oid) by (intro; subst; congruence).
    destruct (srem rid' refs); simpl.
    + destruct (dmem (idmap (tab s)) (id_in (hp s) o)); simpl; rewrite dget_ddel_other by auto; auto.
    + rewrite dget_dset_other by auto. auto.
  - simpl. auto.
Qed.

Lemma gone_forever_aux oid rid0 o0 ops : forall s tr, OInv s tr -> issued tr oid rid0 o0 ->
  dget (prefs (tab s)) oid = None -> dget (prefs (tab (fst (orun s ops)))) oid = None.
Proof.
  induction ops as [|op ops IH]; intros s tr I Hi Hn; [exact Hn|].
  rewrite orun_cons. cbn [fst].
  apply IH with (tr := tr ++ [(op, snd (ostep s op))]).
  - apply OInv_step; exact I.
  - rewrite issued_app. left. exact Hi.
  - eapply step_gone; eauto.
Qed.

Lemma gone_forever s tr oid : history s tr ->
  (exists rid o, issued tr oid rid o) ->
  (forall rid o, issued tr oid rid o -> released tr oid rid) ->
  forall ops s2 tr2 r, orun s ops = (s2, tr2) -> outcome s2 (Use oid r) = OErr KeyError.
Proof.
  intros H [rid [o Hi]] Hall ops s2 tr2 r0 E. apply OInv_history in H.
  assert (Hn : dget (prefs (tab s)) oid = None).
  { destruct (dget (prefs (tab s)) oid) as [[o' refs]|] eqn:G; [|reflexivity].
    destruct (i_entry _ _ H _ _ _ G) as (_ & Hne & _). destruct refs as [|r rs]; [congruence|].
    assert (Ho : outstanding tr oid r o') by (apply (i_refs _ _ H _ _ _ G); left; reflexivity).
    destruct Ho as [Ho1 Ho2]. exfalso. apply Ho2. eapply Hall; eauto. }
  pose proof (gone_forever_aux oid rid o ops s tr H Hi Hn) as Hn2. rewrite E in Hn2. simpl in Hn2.
  unfold outcome, ostep, lookup_oid. simpl. rewrite Hn2. reflexivity.
Qed.

Lemma same_id_same_object s tr oid r1 o1 r2 o2 :
  history s tr -> issued tr oid r1 o1 -> issued tr oid r2 o2 -> o1 = o2.
Proof. intro H. apply OInv_history in H. apply (i_oid_obj _ _ H). Qed.

Lemma same_object_same_id s tr oid1 r1 o ok s2 oid2 r2 :
  history s tr -> outstanding tr oid1 r1 o ->
  ostep s (GetProxy o ok) = (s2, OProxy oid2 r2) -> oid2 = oid1.
Proof.
  intros H Ho E. apply OInv_history in H.
  destruct (i_out _ _ H _ _ _ Ho) as [refs G].
  destruct (i_entry _ _ H _ _ _ G) as (_ & _ & a & Ga & Gm).
  unfold ostep in E. unfold dmem in E. rewrite Ga in E.
  unfold get_proxy in E. destruct (get_object_id _ _ o) as [t1 oid] eqn:G1.
  apply get_object_id_spec in G1. simpl in G1. rewrite (id_in_live _ _ _ Ga) in G1.
  destruct G1 as (_ & _ & [[Gx _]|[Gx _]]); [|congruence].
  destruct ok; [|discriminate]. injection E as _ <- _. congruence.
Qed.

Lemma outstanding_objects_ids s tr oid1 r1 oid2 r2 o :
  history s tr -> outstanding tr oid1 r1 o -> outstanding tr oid2 r2 o -> oid1 = oid2.
Proof.
  intros H O1 O2. apply OInv_history in H.
  destruct (i_out _ _ H _ _ _ O1) as [refs1 G1]. destruct (i_out _ _ H _ _ _ O2) as [refs2 G2].
  destruct (i_entry _ _ H _ _ _ G1) as (_ & _ & a1 & Ga1 & Gm1).
  destruct (i_entry _ _ H _ _ _ G2) as (_ & _ & a2 & Ga2 & Gm2). congruence.
Qed.

Lemma In_split_last {A} (x : A) l : In x l -> exists l1 l2, l = l1 ++ x :: l2.
Proof. apply in_split. Qed.

Lemma rid_ne_later ops : forall s tr, OInv s tr ->
  forall oid1 rid o1, issued tr oid1 rid o1 ->
  forall oid2 o2, ~ issued (snd (orun s ops)) oid2 rid o2.
Proof.
  induction ops as [|op ops IH]; intros s tr I oid1 rid o1 Hi oid2 o2 [ok C].
  - destruct C.
  - rewrite orun_cons in C. cbn [snd] in C. destruct C as [C|C].
    + (* issued by this very step *)
      assert (Hop : op = GetProxy o2 ok) by congruence.
      assert (Hout : snd (ostep s op) = OProxy oid2 rid) by congruence. subst op.
      unfold ostep in Hout. destruct (dmem (addrs (hp s)) o2); [|discriminate].
      unfold get_proxy in Hout. destruct (get_object_id _ _ o2) as [t1 oid].
      destruct ok; simpl in Hout; [|discriminate]. injection Hout as _ E2.
      apply (i_rid_lt _ _ I) in Hi. lia.
    + eapply (IH _ _ (OInv_step _ _ op I) oid1 rid o1); [|exists ok; exact C].
      rewrite issued_app. left. exact Hi.
Qed.

Lemma rids_distinct s tr t1 t2 t3 oA okA oidA ridA oB okB oidB ridB :
  history s tr ->
  tr = t1 ++ (GetProxy oA okA, OProxy oidA ridA) :: t2 ++ (GetProxy oB okB, OProxy oidB ridB) :: t3 ->
  ridA <> ridB.
Proof.
  intros [ops E] Etr <-.
  assert (Hlen : forall ops s, List.length (snd (orun s ops)) = List.length ops).
  { clear. induction ops as [|op ops IH]; intro s; [reflexivity|]. rewrite orun_cons. cbn [snd List.length]. rewrite IH. reflexivity. }
  assert (L : List.length tr = List.length ops).
  { pose proof (Hlen ops ostate_init) as L. rewrite E in L. exact L. }
  remember (S (List.length t1)) as n eqn:En.
  assert (Hs : ops = firstn n ops ++ skipn n ops) by (symmetry; apply firstn_skipn).
  rewrite Hs, orun_app in E. apply (f_equal snd) in E. cbn [snd] in E. rewrite Etr in E.
  assert (Hl : List.length (snd (orun ostate_init (firstn n ops))) = n).
  { rewrite Hlen. apply firstn_length_le.
    rewrite <- L, Etr, app_length. simpl. lia. }
  set (trA := snd (orun ostate_init (firstn n ops))) in *.
  set (trB := snd (orun (fst (orun ostate_init (firstn n ops))) (skipn n ops))) in *.
  assert (HA : trA = t1 ++ [(GetProxy oA okA, OProxy oidA ridA)]).
  { assert (F : firstn n (trA ++ trB) = firstn n (t1 ++ (GetProxy oA okA, OProxy oidA ridA)
         :: t2 ++ (GetProxy oB okB, OProxy oidB ridA) :: t3)) by (rewrite E; reflexivity).
    rewrite firstn_app, Hl, Nat.sub_diag in F. simpl in F. rewrite app_nil_r in F.
    rewrite <- Hl in F at 1. rewrite firstn_all in F. rewrite F.
    rewrite En, firstn_app.
    rewrite firstn_all2 by lia. replace (S (List.length t1) - List.length t1)%nat with 1%nat by lia. reflexivity. }
  assert (HB : In (GetProxy oB okB, OProxy oidB ridA) trB).
  { rewrite HA in E. rewrite <- app_assoc in E. apply app_inv_head in E. simpl in E.
    injection E as E. rewrite E. apply in_or_app. right. left. reflexivity. }
  pose proof (OInv_run (firstn n ops) _ _ OInv_init) as I. simpl in I. fold trA in I.
  eapply (rid_ne_later (skipn n ops) _ _ I oidA ridA oA).
  - exists okA. rewrite HA. apply in_or_app. right. left. reflexivity.
  - exists okB. exact HB.
Qed.

Lemma delete_outstanding s tr oid rid o : history s tr -> outstanding tr oid rid o ->
  outcome s (Delete oid rid) = ODeleted.
Proof.
  intros H Ho. apply OInv_history in H. pose proof (OInv_delete s tr oid rid H) as D.
  unfold outcome, ostep. destruct (delete_ref _ _ _ _) as [t' r]. destruct D as [_ D].
  rewrite (D (ex_intro _ o Ho)). reflexivity.
Qed.

Lemma delete_other s tr oid rid : history s tr -> (forall o, ~ outstanding tr oid rid o) ->
  outcome s (Delete oid rid) = OErr KeyError /\ after s (Delete oid rid) = s.
Proof.
  intros H Hn. apply OInv_history in H. destruct (delete_cases s tr oid rid H) as [_ D].
  unfold outcome, after, ostep. rewrite (D Hn). destruct s; auto.
Qed.

Lemma delete_leaves_others s tr oid rid oid' rid' o' :
  history s tr -> outstanding tr oid' rid' o' -> (oid', rid') <> (oid, rid) ->
  outcome (after s (Delete oid rid)) (Use oid' rid') = OObj o'.
Proof.
  intros H Ho Hne.
  assert (H2 : history (after s (Delete oid rid)) (tr ++ [(Delete oid rid, outcome s (Delete oid rid))])).
  { apply (history_extend s tr [Delete oid rid]); [exact H|]. rewrite orun_cons. reflexivity. }
  apply (outstanding_resolves _ _ oid' rid' o' H2). destruct Ho as [Hi Hr]. split.
  - rewrite issued_app. auto.
  - rewrite released_app. intros [R|[= -> -> _]]; [auto | apply Hne; reflexivity].
Qed.

Lemma use_after_delete s tr oid rid :
  history s tr -> released tr oid rid ->
  ((exists o, outcome s (Use oid rid) = OObj o) <-> exists rid' o, rid' <> rid /\ outstanding tr oid rid' o).
Proof.
  intros H R. split.
  - intros [o Ho]. apply (resolves_iff s tr H) in Ho. destruct Ho as [rid' Ho].
    exists rid', o. split; [|exact Ho]. intros ->. destruct Ho as [_ Ho]. contradiction.
  - intros (rid' & o & _ & Ho). exists o. apply (resolves_iff s tr H). eauto.
Qed.
