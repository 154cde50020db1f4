From Verif Require Import Py RegistryModel RegistrySpec.
Local Open Scope nat_scope.

Record RInv (s : reg) : Prop := {
  ri_kc : NoDup (dkeys (g_clients s));
  ri_kl : NoDup (dkeys (g_live s));
  ri_inj : forall h h' i, dget (g_live s) h = Some i -> dget (g_live s) h' = Some i -> h = h';
  ri_obj : forall i a c, dget (g_clients s) (i, a) = Some c ->
             exists o, dget (g_objs s) c = Some o /\ co_addr o = a /\ co_ident o = i;
  ri_mk : forall c o i, dget (g_objs s) c = Some o -> dget (g_live s) (co_maker o) = Some i -> co_ident o = i;
  ri_lt : forall c o, dget (g_objs s) c = Some o -> c < g_nobj s
}.

Lemma rinv0 : RInv reg0.
Proof. constructor; cbn; try easy; constructor. Qed.

Lemma key_eq (i j : nat) (a b : string) : eqb (i, a) (j, b) = true <-> i = j /\ a = b.
Proof. rewrite eqb_true. split; [intros [= -> ->]|intros [-> ->]]; auto. Qed.

Lemma live_free (l : list (nat * nat)) i h : existsb (fun '(_, j) => Nat.eqb j i) l = false -> dget l h <> Some i.
Proof.
  intros E H. apply dget_In in H.
  enough (existsb (fun '(_, j) => Nat.eqb j i) l = true) by congruence.
  apply existsb_exists. exists (h, i). split; auto. apply Nat.eqb_refl.
Qed.
Lemma objs_free (l : list (nat * cobj)) c o h :
  existsb (fun '(_, o) => Nat.eqb (co_maker o) h) l = false -> dget l c = Some o -> co_maker o <> h.
Proof.
  intros E H X. apply dget_In in H.
  enough (existsb (fun '(_, o) => Nat.eqb (co_maker o) h) l = true) by congruence.
  apply existsb_exists. exists (c, o). split; auto. now apply Nat.eqb_eq.
Qed.

Lemma obj_new s c o o' : dget (g_objs s) c = Some o -> RInv s ->
  co_addr o' = co_addr o -> co_ident o' = co_ident o -> co_maker o' = co_maker o ->
  forall c2 o2, dget (dset (g_objs s) c o') c2 = Some o2 ->
  exists o1, dget (g_objs s) c2 = Some o1 /\ co_addr o2 = co_addr o1 /\ co_ident o2 = co_ident o1 /\ co_maker o2 = co_maker o1.
Proof.
  intros H I A B C c2 o2. rewrite dget_dset. destruct (eqb_reflect c2 c) as [->|N]; eauto.
  intros [= <-]. eauto.
Qed.

Lemma rinv_upd s c o o' ks :
  RInv s -> dget (g_objs s) c = Some o -> NoDup (dkeys ks) -> (forall k x, dget ks k = Some x -> dget (g_clients s) k = Some x) ->
  co_addr o' = co_addr o -> co_ident o' = co_ident o -> co_maker o' = co_maker o ->
  RInv (mkReg ks (dset (g_objs s) c o') (g_nobj s) (g_live s) (g_lserver s)).
Proof.
  intros I G N S A B C. constructor; cbn; auto; try apply I.
  - intros i a c0 H. apply S in H. destruct (ri_obj _ I _ _ _ H) as (o1 & H1 & H2 & H3).
    rewrite dget_dset. destruct (eqb_reflect c0 c) as [->|X]; [|eauto].
    exists o'. rewrite H1 in G. injection G as ->. rewrite A, B. auto.
  - intros c0 o0 i H L. destruct (obj_new _ _ _ _ G I A B C _ _ H) as (o1 & H1 & E1 & E2 & E3).
    rewrite E2. rewrite E3 in L. eapply ri_mk; eauto.
  - intros c0 o0 H. destruct (obj_new _ _ _ _ G I A B C _ _ H) as (o1 & H1 & _). eapply ri_lt; eauto.
Qed.

Lemma del_sub (d : dict (nat * string) nat) k : NoDup (dkeys d) ->
  forall k' x, dget (ddel d k) k' = Some x -> dget d k' = Some x.
Proof.
  intros N k' x. destruct (eqb_reflect k k') as [<-|E].
  - now rewrite dget_ddel_same.
  - now rewrite dget_ddel_other.
Qed.

Lemma rev_inv s e s' a : RInv s -> rev_step s e = Some (s', a) -> RInv s'.
Proof.
  intros I H. destruct e as [h i|h|h ad|h ad lo|h c ok|h c|c]; cbn in H.
  - destruct (dget (g_live s) h) eqn:L; [easy|].
    destruct (existsb _ (g_live s)) eqn:E1; [easy|]. destruct (existsb _ (g_objs s)) eqn:E2; [easy|].
    injection H as <- <-. constructor; cbn; try apply I.
    + apply NoDup_dset, I.
    + intros h1 h2 j. rewrite !dget_dset. destruct (eqb_reflect h1 h), (eqb_reflect h2 h); subst; auto.
      * intros [= <-] H. now apply live_free with (h := h2) in E1.
      * intros H [= <-]. now apply live_free with (h := h1) in E1.
      * apply I.
    + intros c o j Ho. rewrite dget_dset. destruct (eqb_reflect (co_maker o) h) as [X|X].
      * eapply objs_free in E2; eauto. easy.
      * eapply ri_mk; eauto.
  - destruct (dget (g_live s) h) eqn:L; [|easy]. injection H as <- <-. constructor; cbn; try apply I.
    + apply NoDup_ddel, I.
    + assert (S : forall x j, dget (ddel (g_live s) h) x = Some j -> dget (g_live s) x = Some j).
      { intros x j. destruct (eqb_reflect h x) as [<-|E]; [rewrite dget_ddel_same by apply I; easy|].
        now rewrite dget_ddel_other. }
      intros h1 h2 j A B. eapply ri_inj; eauto.
    + intros c o j Ho Hl. eapply ri_mk; eauto.
      destruct (eqb_reflect h (co_maker o)) as [E|E].
      * rewrite <- E, dget_ddel_same in Hl by apply I. easy.
      * now rewrite dget_ddel_other in Hl.
  - destruct (dget (g_live s) h); [|easy]. now injection H as <- <-.
  - destruct (dget (g_live s) h) as [i|] eqn:L; [|easy].
    destruct (dget (g_clients s) (i, ad)) as [c|] eqn:G; injection H as <- <-.
    { constructor; cbn; apply I. }
    constructor; cbn; try apply I.
    + apply NoDup_dset, I.
    + intros j b c. rewrite dget_dset. destruct (eqb_reflect (j, b) (i, ad)) as [[= -> ->]|X].
      * intros [= <-]. eexists. rewrite dget_dset_same. split; [reflexivity|auto].
      * intros H. destruct (ri_obj _ I _ _ _ H) as (o & H1 & H2). exists o. rewrite dget_dset.
        destruct (eqb_reflect c (g_nobj s)) as [->|]; auto. apply (ri_lt _ I) in H1. lia.
    + intros c o j. rewrite dget_dset. destruct (eqb_reflect c (g_nobj s)) as [->|].
      * intros [= <-]. cbn. congruence.
      * apply I.
    + intros c o. rewrite dget_dset. destruct (eqb_reflect c (g_nobj s)) as [->|]; [lia|].
      intros H. apply (ri_lt _ I) in H. lia.
  - destruct (dget (g_live s) h) as [i|] eqn:L; [|easy].
    destruct (dget (g_objs s) c) as [o|] eqn:G; [|easy].
    destruct (_ && _); [|easy]. destruct ok; injection H as <- <-; eapply rinv_upd; eauto; try apply I.
    + apply NoDup_ddel, I.
    + apply del_sub, I.
  - destruct (dget (g_live s) h) as [i|] eqn:L; [|easy].
    destruct (dget (g_objs s) c) as [o|] eqn:G; [|easy]. injection H as <- <-.
    eapply rinv_upd; eauto; [apply NoDup_ddel, I|apply del_sub, I].
  - destruct (dget (g_objs s) c); [|easy]. now injection H as <- <-.
Qed.

Lemma rev_run_inv es : forall s s' l, RInv s -> rev_run s es = Some (s', l) -> RInv s'.
Proof.
  induction es as [|e es IH]; cbn; intros s s' l I H.
  - now injection H as <- <-.
  - destruct (rev_step s e) as [[s1 a]|] eqn:E; [|easy].
    destruct (rev_run s1 es) as [[s2 l2]|] eqn:R; [|easy]. injection H as <- <-.
    apply (IH s1 s2 l2 (rev_inv _ _ _ _ I E) R).
Qed.

(** objects keep their addresses *)
Lemma addr_kept s e s' a c o : RInv s -> rev_step s e = Some (s', a) -> dget (g_objs s) c = Some o ->
  exists o', dget (g_objs s') c = Some o' /\ co_addr o' = co_addr o /\ co_maker o' = co_maker o /\ co_ident o' = co_ident o.
Proof.
  intros I H G. destruct e as [h i|h|h ad|h ad lo|h c' ok|h c'|c']; cbn in H.
  - destruct (dget (g_live s) h); [easy|]. destruct (_ || _); [easy|]. injection H as <- <-. eauto.
  - destruct (dget (g_live s) h); [|easy]. injection H as <- <-. eauto.
  - destruct (dget (g_live s) h); [|easy]. injection H as <- <-. eauto.
  - destruct (dget (g_live s) h) as [i|]; [|easy].
    destruct (dget (g_clients s) (i, ad)); injection H as <- <-; [eauto|].
    exists o. cbn. rewrite dget_dset. destruct (eqb_reflect c (g_nobj s)) as [->|]; auto.
    apply (ri_lt _ I) in G. lia.
  - destruct (dget (g_live s) h) as [i|]; [|easy]. destruct (dget (g_objs s) c') as [o'|] eqn:G'; [|easy].
    destruct (_ && _); [|easy].
    destruct ok; injection H as <- <-; cbn; rewrite dget_dset; destruct (eqb_reflect c c') as [->|];
      try (eexists; split; [eassumption|auto]);
      (eexists; split; [reflexivity|]; cbn; rewrite G in G'; injection G' as ->; auto).
  - destruct (dget (g_live s) h) as [i|]; [|easy]. destruct (dget (g_objs s) c') as [o'|] eqn:G'; [|easy].
    injection H as <- <-; cbn; rewrite dget_dset; destruct (eqb_reflect c c') as [->|];
      try (eexists; split; [eassumption|auto]);
      (eexists; split; [reflexivity|]; cbn; rewrite G in G'; injection G' as ->; auto).
  - destruct (dget (g_objs s) c'); [|easy]. injection H as <- <-. eauto.
Qed.
Lemma addr_kept_run es : forall s s' l c o, RInv s -> rev_run s es = Some (s', l) -> dget (g_objs s) c = Some o ->
  exists o', dget (g_objs s') c = Some o' /\ co_addr o' = co_addr o /\ co_maker o' = co_maker o /\ co_ident o' = co_ident o.
Proof.
  induction es as [|e es IH]; cbn; intros s s' l c o I H G.
  - injection H as <- <-. eauto.
  - destruct (rev_step s e) as [[s1 a]|] eqn:E; [|easy].
    destruct (rev_run s1 es) as [[s2 l2]|] eqn:R; [|easy]. injection H as <- <-.
    destruct (addr_kept _ _ _ _ _ _ I E G) as (o1 & G1 & A1 & M1 & J1).
    destruct (IH _ _ _ _ _ (rev_inv _ _ _ _ I E) R G1) as (o2 & G2 & A2 & M2 & J2).
    exists o2. repeat split; congruence.
Qed.

(** *** the same client as long as nobody in the thread closes it *)
Definition lets_go (h : nat) (e : rev) (c : nat) : Prop := e = CloseC h c \/ e = EndC h c false.

Lemma step_keeps s e s' x h i a c : RInv s -> rev_step s e = Some (s', x) ->
  dget (g_live s) h = Some i -> dget (g_clients s) (i, a) = Some c -> e <> TEnd h ->
  (forall c' o, lets_go h e c' -> dget (g_objs s) c' = Some o -> co_addr o <> a) ->
  dget (g_live s') h = Some i /\ dget (g_clients s') (i, a) = Some c.
Proof.
  intros I H L G NE NL. destruct e as [h1 i1|h1|h1 ad|h1 ad lo|h1 c' ok|h1 c'|c']; cbn in H.
  - destruct (dget (g_live s) h1) eqn:L1; [easy|]. destruct (_ || _); [easy|]. injection H as <- <-. cbn.
    split; auto. rewrite dget_dset. destruct (eqb_reflect h h1) as [->|]; congruence.
  - destruct (dget (g_live s) h1); [|easy]. injection H as <- <-. cbn. split; auto.
    rewrite dget_ddel_other; congruence.
  - destruct (dget (g_live s) h1); [|easy]. injection H as <- <-. auto.
  - destruct (dget (g_live s) h1) as [i1|]; [|easy].
    destruct (dget (g_clients s) (i1, ad)) eqn:G1; injection H as <- <-; [auto|]. cbn. split; auto.
    rewrite dget_dset. destruct (eqb_reflect (i, a) (i1, ad)) as [[= -> ->]|]; congruence.
  - destruct (dget (g_live s) h1) as [i1|] eqn:L1; [|easy]. destruct (dget (g_objs s) c') as [o'|] eqn:G'; [|easy].
    destruct (_ && _); [|easy].
    destruct ok; injection H as <- <-; cbn; [auto|]. split; auto.
    rewrite dget_ddel_other; [exact G|]. intros [= -> <-]. assert (h1 = h) as -> by (eapply ri_inj; eauto).
    eapply NL; eauto. now right.
  - destruct (dget (g_live s) h1) as [i1|] eqn:L1; [|easy]. destruct (dget (g_objs s) c') as [o'|] eqn:G'; [|easy].
    injection H as <- <-; cbn. split; auto.
    rewrite dget_ddel_other; [exact G|]. intros [= -> <-]. assert (h1 = h) as -> by (eapply ri_inj; eauto).
    eapply NL; eauto. now left.
  - destruct (dget (g_objs s) c'); [|easy]. injection H as <- <-. auto.
Qed.

Lemma run_keeps es : forall s s' l h i a c, RInv s -> rev_run s es = Some (s', l) ->
  dget (g_live s) h = Some i -> dget (g_clients s) (i, a) = Some c -> ~ In (TEnd h) es ->
  (forall e c' o, In e es -> lets_go h e c' -> dget (g_objs s') c' = Some o -> co_addr o <> a) ->
  dget (g_live s') h = Some i /\ dget (g_clients s') (i, a) = Some c.
Proof.
  induction es as [|e es IH]; cbn [rev_run]; intros s s' l h i a c I H L G NE NL.
  - injection H as <- <-. auto.
  - destruct (rev_step s e) as [[s1 x]|] eqn:E; [|easy].
    destruct (rev_run s1 es) as [[s2 l2]|] eqn:R; [|easy]. injection H as <- <-.
    destruct (step_keeps _ _ _ _ h i a c I E L G) as [L1 G1].
    + intros ->. apply NE. now left.
    + intros c' o Hl Ho. destruct (addr_kept _ _ _ _ _ _ I E Ho) as (o1 & Ho1 & A1 & _).
      destruct (addr_kept_run _ _ _ _ _ _ (rev_inv _ _ _ _ I E) R Ho1) as (o2 & Ho2 & A2 & _).
      rewrite <- A1, <- A2. apply (NL e c'); auto. now left.
    + apply (IH s1 s2 l2 h i a c (rev_inv _ _ _ _ I E) R L1 G1).
      * intros C. apply NE. now right.
      * intros e' c' o He. apply NL. now right.
Qed.

Theorem same_client es0 s0 l0 h a c es s l :
  rev_run reg0 es0 = Some (s0, l0) -> rev_step s0 (GetC h a) = Some (s0, AClient c) ->
  rev_run s0 es = Some (s, l) -> ~ In (TEnd h) es ->
  (forall e c' o, In e es -> lets_go h e c' -> dget (g_objs s) c' = Some o -> co_addr o <> a) ->
  rev_step s (GetC h a) = Some (s, AClient c).
Proof.
  intros R0 G R NE NL. assert (I := rev_run_inv _ _ _ _ rinv0 R0). cbn in G |- *.
  destruct (dget (g_live s0) h) as [i|] eqn:L; [|easy].
  destruct (dget (g_clients s0) (i, a)) as [c0|] eqn:C; [|easy]. injection G as ->.
  destruct (run_keeps _ _ _ _ _ _ _ _ I R L C NE NL) as [L' C']. now rewrite L', C'.
Qed.

(** the client handed out is one for that address, made in a thread with that ident *)
Theorem right_client es s l h a c :
  rev_run reg0 es = Some (s, l) -> rev_step s (GetC h a) = Some (s, AClient c) ->
  exists o, dget (g_objs s) c = Some o /\ co_addr o = a /\ dget (g_live s) h = Some (co_ident o).
Proof.
  intros R G. assert (I := rev_run_inv _ _ _ _ rinv0 R). cbn in G.
  destruct (dget (g_live s) h) as [i|] eqn:L; [|easy].
  destruct (dget (g_clients s) (i, a)) as [c0|] eqn:C; [|easy]. injection G as ->.
  destruct (ri_obj _ I _ _ _ C) as (o & H1 & H2 & H3). exists o. subst. auto.
Qed.

Theorem second_refused s h a c local :
  rev_step s (GetC h a) = Some (s, AClient c) ->
  exists s', rev_step s (NewC h a local) = Some (s', AExn KeyError) /\
    g_clients s' = g_clients s /\ g_objs s' = g_objs s.
Proof.
  cbn. destruct (dget (g_live s) h) as [i|]; [|easy].
  destruct (dget (g_clients s) (i, a)) as [c0|]; [|easy]. intros _. eexists. cbn. split; [reflexivity|auto].
Qed.
Theorem first_accepted s h a local :
  rev_step s (GetC h a) = Some (s, AMissing) ->
  exists s', rev_step s (NewC h a local) = Some (s', AClient (g_nobj s)) /\
    rev_step s' (GetC h a) = Some (s', AClient (g_nobj s)).
Proof.
  cbn. destruct (dget (g_live s) h) as [i|] eqn:L; [|easy].
  destruct (dget (g_clients s) (i, a)) as [c0|]; [easy|]. intros _. eexists. split; [reflexivity|]. cbn [g_live g_clients].
  now rewrite L, dget_dset_same.
Qed.

Lemma gone s i a c o ks : RInv s -> dget (g_objs s) c = Some o -> co_ident o = i -> co_addr o = a ->
  ks = ddel (g_clients s) (i, a) ->
  (forall k, dget ks k <> Some c) /\ dget ks (i, a) = None /\ (forall k, k <> (i, a) -> dget ks k = dget (g_clients s) k).
Proof.
  intros I G <- <- ->. repeat split.
  - intros [j b] C. apply del_sub in C as C'; [|apply I].
    destruct (ri_obj _ I _ _ _ C') as (o1 & H1 & H2 & H3). rewrite G in H1. injection H1 as <-. subst.
    rewrite dget_ddel_same in C by apply I. easy.
  - apply dget_ddel_same, I.
  - intros k N. apply dget_ddel_other. congruence.
Qed.

Theorem failure_no_trace es s l h c s' x :
  rev_run reg0 es = Some (s, l) -> rev_step s (EndC h c false) = Some (s', x) ->
  exists o e, dget (g_objs s) c = Some o /\ x = AExn e /\
    (forall k, dget (g_clients s') k <> Some c) /\ rev_step s' (GetC h (co_addr o)) = Some (s', AMissing) /\
    (forall k, k <> (co_ident o, co_addr o) -> dget (g_clients s') k = dget (g_clients s) k).
Proof.
  intros R H. assert (I := rev_run_inv _ _ _ _ rinv0 R). cbn in H.
  destruct (dget (g_live s) h) as [i|] eqn:L; [|easy]. destruct (dget (g_objs s) c) as [o|] eqn:G; [|easy].
  destruct (Nat.eqb_spec (co_maker o) h) as [M|]; [|easy]. destruct (co_done o); [easy|]. cbn in H. injection H as <- <-.
  assert (Ei : co_ident o = i) by (eapply ri_mk; eauto; now rewrite M).
  destruct (gone s i (co_addr o) c o _ I G Ei eq_refl eq_refl) as (N & N1 & N2).
  exists o, TimeoutError. cbn [g_clients rev_step g_live]. rewrite L, N1, Ei. auto.
Qed.

Theorem close_forgets es s l h c o s' x :
  rev_run reg0 es = Some (s, l) -> dget (g_objs s) c = Some o -> co_maker o = h ->
  rev_step s (CloseC h c) = Some (s', x) ->
  (forall k, dget (g_clients s') k <> Some c) /\ rev_step s' (GetC h (co_addr o)) = Some (s', AMissing) /\
  (forall k, k <> (co_ident o, co_addr o) -> dget (g_clients s') k = dget (g_clients s) k).
Proof.
  intros R G M H. assert (I := rev_run_inv _ _ _ _ rinv0 R). cbn in H.
  destruct (dget (g_live s) h) as [i|] eqn:L; [|easy]. rewrite G in H. injection H as <- <-.
  assert (Ei : co_ident o = i) by (eapply ri_mk; eauto; now rewrite M).
  destruct (gone s i (co_addr o) c o _ I G Ei eq_refl eq_refl) as (N & N1 & N2).
  cbn [g_clients rev_step g_live]. rewrite L, N1, Ei. auto.
Qed.

(** *** clients and the threads they belong to *)

(** idents of the makers, as long as none is used twice *)
Record MInv (used : list nat) (s : reg) : Prop := {
  mi_used : forall h i, dget (g_live s) h = Some i -> In i used;
  mi_cid : forall c o, dget (g_objs s) c = Some o -> In (co_ident o) used;
  mi_own : forall c o h, dget (g_objs s) c = Some o -> dget (g_live s) h = Some (co_ident o) -> co_maker o = h
}.
Lemma mstep used s e s' x : RInv s -> MInv used s -> NoDup (used ++ started [e]) -> rev_step s e = Some (s', x) ->
  MInv (used ++ started [e]) s'.
Proof.
  intros I M ND H. destruct e as [h i|h|h ad|h ad lo|h c ok|h c|c]; cbn in H |- *; cbn in ND; rewrite ?app_nil_r in *.
  - destruct (dget (g_live s) h) eqn:L; [easy|]. destruct (existsb _ (g_live s)) eqn:E1; [easy|].
    destruct (existsb _ (g_objs s)) eqn:E2; [easy|]. injection H as <- <-.
    assert (Ni : ~ In i used) by (intros C; apply NoDup_remove_2 in ND; rewrite app_nil_r in ND; auto).
    constructor; cbn.
    + intros h1 j. rewrite dget_dset. destruct (eqb_reflect h1 h).
      * intros [= <-]. apply in_or_app. cbn. auto.
      * intros H. apply in_or_app. left. eapply mi_used; eauto.
    + intros c o H. apply in_or_app. left. eapply mi_cid; eauto.
    + intros c o h1 Ho. rewrite dget_dset. destruct (eqb_reflect h1 h) as [->|].
      * intros [= Ei]. exfalso. apply Ni. rewrite Ei. eapply mi_cid; eauto.
      * intros H. eapply mi_own; eauto.
  - destruct (dget (g_live s) h) eqn:L; [|easy]. injection H as <- <-.
    assert (S : forall x j, dget (ddel (g_live s) h) x = Some j -> dget (g_live s) x = Some j).
    { intros y j. destruct (eqb_reflect h y) as [<-|E]; [rewrite dget_ddel_same by apply I; easy|].
      now rewrite dget_ddel_other. }
    constructor; cbn; intros.
    + eapply mi_used; eauto.
    + eapply mi_cid; eauto.
    + eapply mi_own; eauto.
  - destruct (dget (g_live s) h); [|easy]. now injection H as <- <-.
  - destruct (dget (g_live s) h) as [i|] eqn:L; [|easy].
    destruct (dget (g_clients s) (i, ad)) eqn:G; injection H as <- <-; constructor; cbn; try apply (mi_used _ _ M); try apply (mi_cid _ _ M); try apply (mi_own _ _ M).
    + intros c o. rewrite dget_dset. destruct (eqb_reflect c (g_nobj s)); [|apply (mi_cid _ _ M)]. intros [= <-]. cbn. eapply mi_used; eauto.
    + intros c o h1. rewrite dget_dset. destruct (eqb_reflect c (g_nobj s)); [|apply (mi_own _ _ M)]. intros [= <-]. cbn.
      intros H. eapply ri_inj; eauto.
  - destruct (dget (g_live s) h) as [i|] eqn:L; [|easy]. destruct (dget (g_objs s) c) as [o|] eqn:G; [|easy].
    destruct (_ && _); [|easy].
    assert (X : forall c2 o2, dget (dset (g_objs s) c (mkC (co_addr o) (co_ident o) (co_maker o) true (co_open o))) c2 = Some o2 ->
      exists o1, dget (g_objs s) c2 = Some o1 /\ co_addr o2 = co_addr o1 /\ co_ident o2 = co_ident o1 /\ co_maker o2 = co_maker o1)
      by (eapply obj_new; eauto).
    destruct ok; injection H as <- <-; constructor; cbn; try apply (mi_used _ _ M);
      (intros c2 o2 H2; destruct (X _ _ H2) as (o1 & H1 & E1 & E2 & E3)) ||
      (intros c2 o2 h2 H2; destruct (X _ _ H2) as (o1 & H1 & E1 & E2 & E3)); rewrite ?E2, ?E3; intros; first [eapply mi_own; eauto; fail|eapply mi_cid; eauto].
  - destruct (dget (g_live s) h) as [i|] eqn:L; [|easy]. destruct (dget (g_objs s) c) as [o|] eqn:G; [|easy].
    assert (X : forall c2 o2, dget (dset (g_objs s) c (mkC (co_addr o) (co_ident o) (co_maker o) (co_done o) false)) c2 = Some o2 ->
      exists o1, dget (g_objs s) c2 = Some o1 /\ co_addr o2 = co_addr o1 /\ co_ident o2 = co_ident o1 /\ co_maker o2 = co_maker o1)
      by (eapply obj_new; eauto).
    injection H as <- <-; constructor; cbn; try apply (mi_used _ _ M);
      (intros c2 o2 H2; destruct (X _ _ H2) as (o1 & H1 & E1 & E2 & E3)) ||
      (intros c2 o2 h2 H2; destruct (X _ _ H2) as (o1 & H1 & E1 & E2 & E3)); rewrite ?E2, ?E3; intros; first [eapply mi_own; eauto; fail|eapply mi_cid; eauto].
  - destruct (dget (g_objs s) c); [|easy]. now injection H as <- <-.
Qed.

Lemma mrun es : forall used s s' l, RInv s -> MInv used s -> NoDup (used ++ started es) -> rev_run s es = Some (s', l) ->
  MInv (used ++ started es) s'.
Proof.
  induction es as [|e es IH]; cbn [rev_run]; intros used s s' l I M ND H.
  - injection H as <- <-. cbn. now rewrite app_nil_r.
  - destruct (rev_step s e) as [[s1 x]|] eqn:E; [|easy].
    destruct (rev_run s1 es) as [[s2 l2]|] eqn:R; [|easy]. injection H as <- <-.
    replace (started (e :: es)) with (started [e] ++ started es) in * by (cbn; now rewrite app_nil_r).
    rewrite app_assoc in *. apply (IH _ s1 s2 l2 (rev_inv _ _ _ _ I E)); auto.
    eapply mstep; eauto. revert ND. generalize (started es) as t. generalize (used ++ started [e]) as u.
    intros u t. induction u as [|y u IHu]; cbn; intros ND; [constructor|]. inversion ND; subst. constructor; auto.
    intros C. apply H1. apply in_or_app. auto.
Qed.

Theorem own_client es s l h a c :
  rev_run reg0 es = Some (s, l) -> NoDup (started es) -> rev_step s (GetC h a) = Some (s, AClient c) ->
  exists o, dget (g_objs s) c = Some o /\ co_maker o = h.
Proof.
  intros R ND G. destruct (right_client _ _ _ _ _ _ R G) as (o & H1 & H2 & H3). exists o. split; auto.
  assert (M : MInv ([] ++ started es) s).
  { eapply mrun; eauto; [apply rinv0|]. constructor; cbn; easy. }
  eapply mi_own; eauto.
Qed.

(** *** servers *)
Theorem never_replaced s e s' x i v : NoDup (dkeys (v_dict s)) ->
  sev_step s e = Some (s', x) -> dget (v_dict s) i = Some v ->
  dget (v_dict s') i = Some v \/ (e = Unreg v i /\ dget (v_dict s') i = None).
Proof.
  intros ND H D. destruct e as [j w|j w|j w|w k|j]; cbn in H; [| | | |now injection H as <- <-; auto].
  - destruct (dget (v_pend s) (j, w)); [easy|]. destruct (dget (v_thread s) w) as [t|].
    + destruct (t =? j); injection H as <- <-; auto.
    + injection H as <- <-; auto.
  - destruct (dget (v_pend s) (j, w)) as [[|]|]; try easy. destruct (dget (v_dict s) j) eqn:Dj; injection H as <- <-; auto.
    cbn. left. rewrite dget_dset. destruct (eqb_reflect i j) as [->|]; congruence.
  - destruct (dget (v_pend s) (j, w)) as [[|]|]; try easy. injection H as <- <-; auto.
  - destruct (dget (v_dict s) k) as [u|] eqn:Dk.
    + destruct (Nat.eqb_spec u w) as [->|]; injection H as <- <-; auto. cbn.
      destruct (Nat.eq_dec k i) as [->|].
      * right. rewrite Dk in D. injection D as ->. split; auto. now apply dget_ddel_same.
      * left. now rewrite dget_ddel_other.
    + injection H as <- <-; auto.
Qed.

Lemma sev_nodup s e s' x : NoDup (dkeys (v_dict s)) -> sev_step s e = Some (s', x) -> NoDup (dkeys (v_dict s')).
Proof.
  intros ND H. destruct e as [j w|j w|j w|w k|j]; cbn in H; [| | | |now injection H as <- <-; auto].
  - destruct (dget (v_pend s) (j, w)); [easy|]. destruct (dget (v_thread s) w) as [t|].
    + destruct (t =? j); injection H as <- <-; auto.
    + injection H as <- <-; auto.
  - destruct (dget (v_pend s) (j, w)) as [[|]|]; try easy. destruct (dget (v_dict s) j) eqn:Dj; injection H as <- <-; auto.
    cbn. now apply NoDup_dset.
  - destruct (dget (v_pend s) (j, w)) as [[|]|]; try easy. injection H as <- <-; auto.
  - destruct (dget (v_dict s) k) as [u|] eqn:Dk; [|injection H as <- <-; auto].
    destruct (u =? w); injection H as <- <-; auto. now apply NoDup_ddel.
Qed.
Lemma sev_run_nodup es : forall s s' l, NoDup (dkeys (v_dict s)) -> sev_run s es = Some (s', l) -> NoDup (dkeys (v_dict s')).
Proof.
  induction es as [|e es IH]; cbn; intros s s' l N H.
  - now injection H as <- <-.
  - destruct (sev_step s e) as [[s1 a]|] eqn:E; [|easy].
    destruct (sev_run s1 es) as [[s2 l2]|] eqn:R; [|easy]. injection H as <- <-.
    apply (IH s1 s2 l2 (sev_nodup _ _ _ _ N E) R).
Qed.

Theorem not_replaced es s l e s' x i v :
  sev_run sreg0 es = Some (s, l) -> sev_step s e = Some (s', x) -> dget (v_dict s) i = Some v ->
  dget (v_dict s') i = Some v \/ (e = Unreg v i /\ dget (v_dict s') i = None).
Proof.
  intros R. apply never_replaced. eapply sev_run_nodup; eauto. constructor.
Qed.

Theorem second_server_refused s i v w : dget (v_pend s) (i, v) = Some PLock -> dget (v_dict s) i = Some w ->
  exists s', sev_step s (RLock i v) = Some (s', SErr KeyError) /\ v_dict s' = v_dict s /\ v_thread s' = v_thread s.
Proof. intros P D. cbn. rewrite P, D. eexists. split; [reflexivity|auto]. Qed.
Theorem first_server_accepted s i v : dget (v_pend s) (i, v) = Some PLock -> dget (v_dict s) i = None ->
  exists s', sev_step s (RLock i v) = Some (s', SMore) /\ dget (v_dict s') i = Some v.
Proof. intros P D. cbn. rewrite P, D. eexists. split; [reflexivity|]. cbn. apply dget_dset_same. Qed.
Theorem second_thread_refused s i v j : dget (v_pend s) (i, v) = None -> dget (v_thread s) v = Some j -> j <> i ->
  sev_step s (RCheck i v) = Some (s, SErr AssertionError).
Proof. intros P D N. cbn. rewrite P, D. apply Nat.eqb_neq in N. now rewrite N. Qed.

Theorem unregister_exact es s l v k s' x : sev_run sreg0 es = Some (s, l) -> sev_step s (Unreg v k) = Some (s', x) ->
  (x = SOk /\ dget (v_dict s) k = Some v /\ dget (v_dict s') k = None /\
   forall i, i <> k -> dget (v_dict s') i = dget (v_dict s) i) \/
  (exists e, x = SErr e /\ dget (v_dict s) k <> Some v /\ s' = s).
Proof.
  intros R H. assert (ND : NoDup (dkeys (v_dict s))) by (eapply sev_run_nodup; eauto; constructor).
  cbn in H. destruct (dget (v_dict s) k) as [w|] eqn:D.
  - destruct (Nat.eqb_spec w v) as [->|N]; injection H as <- <-.
    + left. cbn. repeat split; auto; [now apply dget_ddel_same|]. intros i Hi. apply dget_ddel_other. congruence.
    + right. eexists. repeat split. congruence.
  - injection H as <- <-. right. eexists. repeat split. congruence.
Qed.

Record SInv (s : sreg) : Prop := {
  si_nd : NoDup (dkeys (v_dict s));
  si_np : NoDup (dkeys (v_pend s));
  si_d : forall i v, dget (v_dict s) i = Some v -> dget (v_thread s) v = Some i \/ dget (v_pend s) (i, v) = Some PSet;
  si_p : forall i v p, dget (v_pend s) (i, v) = Some p -> dget (v_thread s) v = None;
  si_1 : forall i j v p q, dget (v_pend s) (i, v) = Some p -> dget (v_pend s) (j, v) = Some q -> i = j
}.
Lemma sinv_step s e s' x : SInv s -> (match e with RCheck i v => forall j, dget (v_pend s) (j, v) = None | _ => True end) ->
  sev_step s e = Some (s', x) -> SInv s'.
Proof.
  intros [ND NP D P U] A H.
  assert (ND' := sev_nodup _ _ _ _ ND H).
  destruct e as [j w|j w|j w|w k|j]; cbn in H; [| | | |now injection H as <- <-; auto].
  - destruct (dget (v_pend s) (j, w)) eqn:Pj; [easy|]. destruct (dget (v_thread s) w) as [t|] eqn:T.
    + destruct (t =? j); injection H as <- <-; now constructor.
    + injection H as <- <-. constructor; cbn in *; auto.
      * now apply NoDup_dset.
      * intros i v Hi. destruct (D i v Hi); auto. right. rewrite dget_dset_other; auto. congruence.
      * intros i v p. rewrite dget_dset. destruct (eqb_reflect (i, v) (j, w)) as [[= -> ->]|]; auto. apply P.
      * intros i1 i2 v p q. rewrite !dget_dset.
        destruct (eqb_reflect (i1, v) (j, w)) as [E1|E1], (eqb_reflect (i2, v) (j, w)) as [E2|E2]; intros H1 H2;
          [congruence|injection E1 as -> ->; rewrite A in H2; easy|injection E2 as -> ->; rewrite A in H1; easy|eapply U; eauto].
  - destruct (dget (v_pend s) (j, w)) as [[|]|] eqn:Pj; try easy.
    destruct (dget (v_dict s) j) eqn:Dj; injection H as <- <-; constructor; cbn in *; auto.
    + now apply NoDup_ddel.
    + intros i v Hi. destruct (D i v Hi); auto. right. rewrite dget_ddel_other; auto. congruence.
    + intros i v p. destruct (eqb_reflect (j, w) (i, v)) as [<-|]; [rewrite dget_ddel_same; easy|].
      rewrite dget_ddel_other by auto. apply P.
    + intros i1 i2 v p q.
      destruct (eqb_reflect (j, w) (i1, v)) as [<-|]; [rewrite dget_ddel_same; easy|].
      destruct (eqb_reflect (j, w) (i2, v)) as [<-|]; [rewrite dget_ddel_same; easy|].
      rewrite !dget_ddel_other by auto. apply U.
    + now apply NoDup_dset.
    + intros i v. rewrite dget_dset. destruct (eqb_reflect i j) as [->|].
      * intros [= <-]. right. apply dget_dset_same.
      * intros Hi. destruct (D i v Hi); auto. right. rewrite dget_dset_other; auto. congruence.
    + intros i v p. rewrite dget_dset. destruct (eqb_reflect (i, v) (j, w)) as [[= -> ->]|]; [|apply P].
      intros _. eapply P; eauto.
    + intros i1 i2 v p q. rewrite !dget_dset.
      destruct (eqb_reflect (i1, v) (j, w)) as [E1|E1], (eqb_reflect (i2, v) (j, w)) as [E2|E2]; intros H1 H2;
        [congruence|injection E1 as -> ->; eapply U; eauto|injection E2 as -> ->; eapply U; eauto|eapply U; eauto].
  - destruct (dget (v_pend s) (j, w)) as [[|]|] eqn:Pj; try easy.
    injection H as <- <-; constructor; cbn in *; auto.
    + now apply NoDup_ddel.
    + intros i v Hi. rewrite dget_dset. destruct (eqb_reflect v w) as [->|].
      * destruct (D i w Hi) as [T|Q]; [rewrite (P j w PSet Pj) in T; easy|].
        left. f_equal. eapply U; eauto.
      * destruct (D i v Hi) as [T|Q]; auto. right. rewrite dget_ddel_other; auto. congruence.
    + intros i v p. destruct (eqb_reflect (j, w) (i, v)) as [<-|Nij]; [rewrite dget_ddel_same; easy|].
      rewrite dget_ddel_other by auto. intros Q. rewrite dget_dset. destruct (eqb_reflect v w) as [->|]; [|eapply P; eauto].
      exfalso. apply Nij. f_equal. eapply U; eauto.
    + intros i1 i2 v p q.
      destruct (eqb_reflect (j, w) (i1, v)) as [<-|]; [rewrite dget_ddel_same; easy|].
      destruct (eqb_reflect (j, w) (i2, v)) as [<-|]; [rewrite dget_ddel_same; easy|].
      rewrite !dget_ddel_other by auto. apply U.
  - destruct (dget (v_dict s) k) as [u|] eqn:Dk; [|injection H as <- <-; now constructor].
    destruct (u =? w); injection H as <- <-; constructor; cbn in *; auto.
    intros i v. destruct (Nat.eq_dec k i) as [->|]; [rewrite dget_ddel_same; easy|].
    rewrite dget_ddel_other by auto. apply D.
Qed.

Theorem one_thread es s l i j v :
  sev_run sreg0 es = Some (s, l) -> apart sreg0 es ->
  dget (v_dict s) i = Some v -> dget (v_dict s) j = Some v -> i = j.
Proof.
  assert (X : forall es s0 s l, SInv s0 -> sev_run s0 es = Some (s, l) -> apart s0 es -> SInv s).
  { clear. intros es. induction es as [|e es IH]; cbn; intros s0 s l I H A.
    - now injection H as <- <-.
    - destruct (sev_step s0 e) as [[s1 a]|] eqn:E; [|easy].
      destruct (sev_run s1 es) as [[s2 l2]|] eqn:R; [|easy]. injection H as <- <-.
      destruct A as [A1 A2]. apply (IH s1 s2 l2 (sinv_step _ _ _ _ I A1 E) R A2). }
  intros R A Di Dj. assert (I : SInv s).
  { eapply X; eauto. constructor; cbn; try easy; constructor. }
  destruct (si_d _ I _ _ Di) as [T|P], (si_d _ I _ _ Dj) as [T'|P'].
  - congruence.
  - rewrite (si_p _ I _ _ _ P') in T. easy.
  - rewrite (si_p _ I _ _ _ P) in T'. easy.
  - eapply si_1; eauto.
Qed.
