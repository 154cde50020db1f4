(** Proofs about proxies and threads (C131). *)
From Verif Require Import Py PxThreadModel PxThreadSpec.
Local Open Scope nat_scope.
Local Open Scope list_scope.

Lemma nth_snoc {A} (l : list A) x i y : nth_error (l ++ [x]) i = Some y -> (i < List.length l /\ nth_error l i = Some y) \/ (i = List.length l /\ y = x).
Proof.
  intros H. destruct (Nat.lt_ge_cases i (List.length l)) as [L|L].
  - left. rewrite nth_error_app1 in H by exact L. auto.
  - right. rewrite nth_error_app2 in H by exact L. destruct (i - List.length l) as [|n] eqn:E; cbn in H; [|destruct n; discriminate].
    injection H as <-. split; [lia|reflexivity].
Qed.
Lemma nth_old {A} (l r : list A) i y : nth_error l i = Some y -> nth_error (l ++ r) i = Some y.
Proof. intros H. rewrite nth_error_app1; [exact H|]. apply nth_error_Some. congruence. Qed.
Lemma nth_end {A} (l : list A) x : nth_error (l ++ [x]) (List.length l) = Some x.
Proof. rewrite nth_error_app2 by lia. now rewrite Nat.sub_diag. Qed.
Lemma put_same {A} (l : list A) : forall i x y, nth_error l i = Some y -> nth_error (put l i x) i = Some x.
Proof. induction l as [|z l IH]; intros [|i] x y H; cbn in *; try discriminate; eauto. Qed.
Lemma put_other {A} (l : list A) : forall i j x, i <> j -> nth_error (put l i x) j = nth_error l j.
Proof. induction l as [|z l IH]; intros [|i] [|j] x H; cbn; auto; try congruence. Qed.
Lemma put_length {A} (l : list A) : forall i x, List.length (put l i x) = List.length l.
Proof. induction l as [|z l IH]; intros [|i] x; cbn; auto. Qed.

(** clients keep their threads and addresses *)
Definition kept (st st' : xst) : Prop :=
  forall c k, nth_error (xs_cl st) c = Some k -> exists k', nth_error (xs_cl st') c = Some k' /\ xc_thread k' = xc_thread k /\ xc_addr k' = xc_addr k.
Lemma kept_refl st : kept st st.
Proof. intros c k H. eauto. Qed.
Lemma kept_made st st' c t : kept st st' -> made_in st c t -> made_in st' c t.
Proof. intros K (k & H & E). destruct (K c k H) as (k' & H' & E' & _). exists k'. split; [exact H'|congruence]. Qed.

(** the registry leads to clients of the thread *)
Definition reg (st : xst) : Prop := NoDup (dkeys (xs_keys st)) /\
  forall t a c, dget (xs_keys st) (t, a) = Some c -> exists k, nth_error (xs_cl st) c = Some k /\ xc_thread k = t /\ xc_addr k = a.
(** and they are open *)
Definition reg_open (st : xst) : Prop :=
  forall t a c k, dget (xs_keys st) (t, a) = Some c -> nth_error (xs_cl st) c = Some k -> xc_open k = true.

Lemma get_client_ok st t a st1 c : reg st -> get_client st t a = (st1, c) ->
  reg st1 /\ kept st st1 /\ made_in st1 c t /\ xs_px st1 = xs_px st /\ xs_log st1 = xs_log st /\
  (reg_open st -> reg_open st1 /\ exists k, nth_error (xs_cl st1) c = Some k /\ xc_open k = true).
Proof.
  intros [ND R] H. unfold get_client in H. destruct (dget (xs_keys st) (t, a)) as [c0|] eqn:E; inversion H; subst; clear H.
  - destruct (R _ _ _ E) as (k & A & B & C). split; [split; auto|]. split; [apply kept_refl|]. split; [exists k; auto|]. split; [reflexivity|]. split; [reflexivity|].
    intros O. split; [exact O|]. exists k. split; [exact A|]. exact (O _ _ _ _ E A).
  - split; [split|split; [|split; [|split; [reflexivity|split; [reflexivity|]]]]]; cbn [xs_keys xs_cl].
    + apply NoDup_dset, ND.
    + intros t' a' c. rewrite dget_dset. destruct (eqb_reflect (t', a') (t, a)) as [Q|Q].
      * intros X. injection X as <-. injection Q as -> ->. exists (mkXc t a true). split; [apply nth_end|auto].
      * intros X. destruct (R _ _ _ X) as (k & A & B). exists k. split; [apply nth_old, A|exact B].
    + intros c k A. exists k. split; [apply nth_old, A|auto].
    + exists (mkXc t a true). split; [apply nth_end|reflexivity].
    + intros O. split.
      * intros t' a' c k X Y. cbn [xs_keys xs_cl] in X, Y. rewrite dget_dset in X. destruct (eqb_reflect (t', a') (t, a)) as [Q|Q].
        -- injection X as <-. rewrite nth_end in Y. injection Y as <-. reflexivity.
        -- destruct (R _ _ _ X) as (k0 & A & _). rewrite (nth_old _ _ _ _ A) in Y. injection Y as <-. exact (O _ _ _ _ X A).
      * exists (mkXc t a true). split; [apply nth_end|reflexivity].
Qed.

Record inv (os : list xop) (st : xst) : Prop := {
  i_reg : reg st;
  i_cache : forall i p c, nth_error (xs_px st) i = Some p -> xp_client p = Some c -> exists t, In (XUse t i) os /\ made_in st c t;
  i_log : forall e, In e (xs_log st) -> (xe_proxy e = None -> made_in st (xe_client e) (xe_thread e)) /\
     forall i, xe_proxy e = Some i -> In (XUse (xe_thread e) i) os /\ exists t, In (XUse t i) os /\ made_in st (xe_client e) t
}.
Lemma inv_step os st o : inv os st -> inv (os ++ [o]) (xstep st o).
Proof.
  intros [R C L].
  assert (Old : forall t i, In (XUse t i) os -> In (XUse t i) (os ++ [o])) by (intros; apply in_or_app; auto).
  assert (Lk : forall st', kept st st' -> xs_log st' = xs_log st -> forall e, In e (xs_log st') ->
    (xe_proxy e = None -> made_in st' (xe_client e) (xe_thread e)) /\
     forall i, xe_proxy e = Some i -> In (XUse (xe_thread e) i) (os ++ [o]) /\ exists t, In (XUse t i) (os ++ [o]) /\ made_in st' (xe_client e) t).
  { intros st' K E e X. rewrite E in X. destruct (L e X) as [L1 L2]. split; [intros Y; exact (kept_made _ _ _ _ K (L1 Y))|].
    intros i Y. destruct (L2 i Y) as (L3 & t & L4 & L5). split; [auto|]. exists t. split; [auto|exact (kept_made _ _ _ _ K L5)]. }
  assert (Same : inv (os ++ [o]) st).
  { constructor; [exact R| |exact (Lk st (kept_refl st) eq_refl)]. intros i p c A B. destruct (C i p c A B) as (t & D & E). eauto. }
  assert (New : forall a b, inv (os ++ [o]) (mkXs (xs_px st ++ [mkXp a b None]) (xs_cl st) (xs_keys st) (xs_log st))).
  { intros a b. constructor; [exact R| |exact (Lk (mkXs _ _ _ _) (kept_refl st) eq_refl)].
    cbn [xs_px]. intros i p c A B. apply nth_snoc in A. destruct A as [[_ A]|[_ ->]]; [|discriminate B]. destruct (C i p c A B) as (t & D & E). eauto. }
  destruct o as [a|i|i|t i|t i|t c]; cbn [xstep].
  - apply New.
  - destruct (nth_error (xs_px st) i); [apply New|exact Same].
  - destruct (nth_error (xs_px st) i) as [p|]; [destruct (xp_attr p); [exact Same|apply New]|exact Same].
  - unfold use. destruct (nth_error (xs_px st) i) as [p|] eqn:P; [|exact Same].
    assert (Me : In (XUse t i) (os ++ [XUse t i])) by (apply in_or_app; right; left; reflexivity).
    destruct (xp_client p) as [c|] eqn:Pc.
    + constructor; [exact R| |].
      * cbn [given_to xs_px]. intros j q c' A B. destruct (C j q c' A B) as (t0 & D & E). exists t0. split; [auto|exact E].
      * cbn [given_to xs_log]. intros e X. apply in_app_or in X. destruct X as [X|[X|[]]]; [exact (Lk (given_to st t (Some i) c) (kept_refl st) eq_refl e X) || (destruct (Lk st (kept_refl st) eq_refl e X) as [L1 L2]; split; [exact L1|exact L2])|].
        subst e. cbn [xe_proxy xe_client xe_thread]. split; [discriminate|]. intros j Y. injection Y as <-. split; [exact Me|].
        destruct (C i p c P Pc) as (t0 & D & E). exists t0. split; [auto|exact E].
    + destruct (get_client st t (xp_addr p)) as [st1 c] eqn:G. destruct (get_client_ok _ _ _ _ _ R G) as (R1 & K & M & Px & Lo & _).
      constructor; [exact R1| |].
      * cbn [given_to xs_px]. rewrite Px. intros j q c' A B. destruct (Nat.eq_dec i j) as [<-|N].
        -- rewrite (put_same _ _ _ _ P) in A. injection A as <-. cbn in B. injection B as <-. exists t. split; [exact Me|exact M].
        -- rewrite put_other in A by exact N. destruct (C j q c' A B) as (t0 & D & E). exists t0. split; [auto|exact (kept_made _ _ _ _ K E)].
      * cbn [given_to xs_log]. intros e X. apply in_app_or in X. destruct X as [X|[X|[]]].
        -- exact (Lk st1 K Lo e X).
        -- subst e. cbn [xe_proxy xe_client xe_thread]. split; [discriminate|]. intros j Y. injection Y as <-. split; [exact Me|]. exists t. split; [exact Me|exact M].
  - destruct (nth_error (xs_px st) i) as [p|] eqn:P; [|exact Same].
    destruct (get_client st t (xp_addr p)) as [st1 c] eqn:G. destruct (get_client_ok _ _ _ _ _ R G) as (R1 & K & M & Px & Lo & _).
    constructor; [exact R1| |].
    + cbn [given_to xs_px]. rewrite Px. intros j q c' A B. destruct (C j q c' A B) as (t0 & D & E). exists t0. split; [auto|exact (kept_made _ _ _ _ K E)].
    + cbn [given_to xs_log]. intros e X. apply in_app_or in X. destruct X as [X|[X|[]]]; [exact (Lk st1 K Lo e X)|].
      subst e. cbn [xe_proxy xe_client xe_thread]. split; [intros _; exact M|discriminate].
  - destruct (nth_error (xs_cl st) c) as [k|] eqn:Kc; [|exact Same]. set (st' := mkXs _ _ _ _).
    assert (K : kept st st').
    { intros c' k' A. cbn. destruct (Nat.eq_dec c c') as [<-|N].
      - rewrite (put_same _ _ _ _ Kc). assert (k' = k) by congruence. subst k'. eexists. split; [reflexivity|auto].
      - rewrite put_other by exact N. eauto. }
    constructor; [|intros i p c' A B; destruct (C i p c' A B) as (t0 & D & E); exists t0; split; [auto|exact (kept_made _ _ _ _ K E)]|exact (Lk st' K eq_refl)].
    destruct R as [ND R]. split; [apply NoDup_ddel, ND|]. cbn [st' xs_keys]. intros t' a' c' X.
    rewrite dget_ddel in X by exact ND. destruct (eqb (t', a') (t, xc_addr k)); [discriminate|].
    destruct (R _ _ _ X) as (k0 & A & B & D). destruct (K c' k0 A) as (k1 & A1 & B1 & D1). exists k1. split; [exact A1|]. split; congruence.
Qed.
Lemma inv_run os : inv os (xrun os).
Proof.
  induction os as [|o os IH] using rev_ind.
  - constructor; cbn; [split; [constructor|intros t a c X; discriminate X]|intros [|i] p c X; discriminate X|contradiction].
  - unfold xrun. rewrite fold_left_app. apply inv_step. exact IH.
Qed.

Lemma own_client os : one_thread_each os -> forall e, requested (xrun os) e -> made_in (xrun os) (xe_client e) (xe_thread e).
Proof.
  intros O e X. destruct (i_log _ _ (inv_run os) e X) as [A B]. destruct (xe_proxy e) as [i|] eqn:P; [|auto].
  destruct (B i eq_refl) as (U & t & T & M). rewrite (O i _ _ U T). exact M.
Qed.
Lemma operators_own os e : requested (xrun os) e -> xe_proxy e = None -> made_in (xrun os) (xe_client e) (xe_thread e).
Proof. intros X. exact (proj1 (i_log _ _ (inv_run os) e X)). Qed.

(** open clients *)
Definition oinv (st : xst) : Prop := reg st /\ reg_open st.
Lemma oinv_step st o : oinv st -> match o with XClose t c => made_in st c t | _ => True end -> oinv (xstep st o).
Proof.
  intros [R O] W. destruct o as [a|i|i|t i|t i|t c]; cbn [xstep].
  - exact (conj R O).
  - destruct (nth_error (xs_px st) i); exact (conj R O).
  - destruct (nth_error (xs_px st) i) as [p|]; [destruct (xp_attr p)|]; exact (conj R O).
  - unfold use. destruct (nth_error (xs_px st) i) as [p|]; [|exact (conj R O)]. destruct (xp_client p); [exact (conj R O)|].
    destruct (get_client st t (xp_addr p)) as [st1 c] eqn:G. destruct (get_client_ok _ _ _ _ _ R G) as (R1 & _ & _ & _ & _ & Oo). exact (conj R1 (proj1 (Oo O))).
  - destruct (nth_error (xs_px st) i) as [p|]; [|exact (conj R O)].
    destruct (get_client st t (xp_addr p)) as [st1 c] eqn:G. destruct (get_client_ok _ _ _ _ _ R G) as (R1 & _ & _ & _ & _ & Oo). exact (conj R1 (proj1 (Oo O))).
  - destruct (nth_error (xs_cl st) c) as [k|] eqn:Kc; [|exact (conj R O)]. destruct W as (k0 & A0 & B0). assert (k0 = k) by congruence. subst k0.
    destruct R as [ND R]. split; [split; [apply NoDup_ddel, ND|]|]; cbn [xs_keys xs_cl]; intros t' a' c'.
    + intros X. rewrite dget_ddel in X by exact ND. destruct (eqb (t', a') (t, xc_addr k)) eqn:Q; [discriminate|].
      destruct (R _ _ _ X) as (k0 & A & B & D). destruct (Nat.eq_dec c c') as [<-|N].
      * rewrite (put_same _ _ _ _ Kc). assert (k0 = k) by congruence. subst k0. eexists. split; [reflexivity|auto].
      * rewrite put_other by exact N. eauto.
    + intros k' X Y. cbn [xs_keys xs_cl] in X, Y. rewrite dget_ddel in X by exact ND. destruct (eqb_reflect (t', a') (t, xc_addr k)) as [Q|Q]; [discriminate|].
      destruct (R _ _ _ X) as (k0 & A & B & D). destruct (Nat.eq_dec c c') as [<-|N].
      * assert (k0 = k) by congruence. subst k0. destruct Q. congruence.
      * rewrite put_other in Y by exact N. exact (O _ _ _ _ X Y).
Qed.
Definition fine (st : xst) : Prop := oinv st /\ forall e, In e (xs_log st) -> xe_proxy e = None -> xe_ok e = true.
Lemma fine_step st o : fine st -> match o with XClose t c => made_in st c t | _ => True end -> fine (xstep st o).
Proof.
  intros [OI L] W. split; [exact (oinv_step _ _ OI W)|]. destruct OI as [R O].
  destruct o as [a|i|i|t i|t i|t c]; cbn [xstep].
  - exact L.
  - destruct (nth_error (xs_px st) i); exact L.
  - destruct (nth_error (xs_px st) i) as [p|]; [destruct (xp_attr p)|]; exact L.
  - unfold use. destruct (nth_error (xs_px st) i) as [p|]; [|exact L]. destruct (xp_client p).
    + cbn. intros e X. apply in_app_or in X. destruct X as [X|[<-|[]]]; [auto|discriminate].
    + destruct (get_client st t (xp_addr p)) as [st1 c] eqn:G. destruct (get_client_ok _ _ _ _ _ R G) as (_ & _ & _ & _ & Lo & _). cbn. rewrite Lo.
      intros e X. apply in_app_or in X. destruct X as [X|[<-|[]]]; [auto|discriminate].
  - destruct (nth_error (xs_px st) i) as [p|]; [|exact L].
    destruct (get_client st t (xp_addr p)) as [st1 c] eqn:G. destruct (get_client_ok _ _ _ _ _ R G) as (_ & _ & _ & _ & Lo & Oo). destruct (Oo O) as (_ & k & A & B).
    cbn. rewrite Lo. intros e X. apply in_app_or in X. destruct X as [X|[<-|[]]]; [auto|]. intros _. cbn. now rewrite A.
  - destruct (nth_error (xs_cl st) c); exact L.
Qed.
Lemma fine_run : forall os st, fine st -> own_closing st os -> fine (fold_left xstep os st).
Proof. induction os as [|o os IH]; intros st F W; [exact F|]. destruct W as [W1 W2]. cbn [fold_left]. apply IH; [exact (fine_step _ _ F W1)|exact W2]. Qed.
Lemma fine0 : fine xst0.
Proof. split; [split; [split; [constructor|intros t a c X; discriminate X]|intros t a c k X; discriminate X]|intros e []]. Qed.
Lemma operators_work os e : own_closing xst0 os -> requested (xrun os) e -> xe_proxy e = None -> xe_ok e = true.
Proof. intros W. exact (proj2 (fine_run os xst0 fine0 W) e). Qed.

Lemma xrun_app a b : xrun (a ++ b) = fold_left xstep b (xrun a).
Proof. apply fold_left_app. Qed.

Lemma foreign os a t t' : t <> t' -> let i := List.length (xs_px (xrun os)) in
  let st := xrun (os ++ [XReceive a; XUse t i; XUse t' i]) in
  exists e, requested st e /\ xe_thread e = t' /\ made_in st (xe_client e) t /\ ~ made_in st (xe_client e) t'.
Proof.
  intros N i st. subst st.
  set (s0 := mkXs (xs_px (xrun os) ++ [mkXp a false None]) (xs_cl (xrun os)) (xs_keys (xrun os)) (xs_log (xrun os))).
  assert (R0 : reg s0) by exact (i_reg _ _ (inv_run os)).
  assert (P0 : nth_error (xs_px s0) i = Some (mkXp a false None)) by apply nth_end.
  destruct (get_client s0 t a) as [s1 c] eqn:G. destruct (get_client_ok _ _ _ _ _ R0 G) as (_ & _ & M & Px & _ & _).
  set (s2 := given_to (mkXs (put (xs_px s1) i (mkXp a false (Some c))) (xs_cl s1) (xs_keys s1) (xs_log s1)) t (Some i) c).
  assert (E2 : xstep s0 (XUse t i) = s2). { cbn [xstep]. unfold use. rewrite P0. cbn [xp_client xp_addr xp_attr]. rewrite G. reflexivity. }
  assert (P2 : nth_error (xs_px s2) i = Some (mkXp a false (Some c))). { cbn [s2 given_to xs_px]. rewrite Px. eapply put_same. exact P0. }
  assert (E3 : xstep s2 (XUse t' i) = given_to s2 t' (Some i) c). { cbn [xstep]. unfold use. rewrite P2. reflexivity. }
  rewrite xrun_app. cbn [fold_left]. change (xstep (xrun os) (XReceive a)) with s0. rewrite E2, E3.
  eexists. split; [apply in_or_app; right; left; reflexivity|]. cbn [xe_thread xe_client]. split; [reflexivity|]. split; [exact M|].
  intros (k & A & B). destruct M as (k' & A' & B'). cbn [given_to s2 xs_cl] in A. congruence.
Qed.

Lemma after_closing os a t : own_closing xst0 os -> let i := List.length (xs_px (xrun os)) in
  exists c c', xs_log (xrun (os ++ [XReceive a; XUse t i; XClose t c; XUse t i; XOperate t i])) =
    xs_log (xrun os) ++ [mkXe t (Some i) c true; mkXe t (Some i) c false; mkXe t None c' true].
Proof.
  intros W i. pose proof (fine_run os xst0 fine0 W) as [[R O] _]. change (fold_left xstep os xst0) with (xrun os) in *.
  set (s0 := mkXs (xs_px (xrun os) ++ [mkXp a false None]) (xs_cl (xrun os)) (xs_keys (xrun os)) (xs_log (xrun os))).
  assert (R0 : reg s0) by exact R. assert (O0 : reg_open s0) by exact O.
  assert (P0 : nth_error (xs_px s0) i = Some (mkXp a false None)) by apply nth_end.
  destruct (get_client s0 t a) as [s1 c] eqn:G. destruct (get_client_ok _ _ _ _ _ R0 G) as (R1 & _ & M & Px & Lo & Oo). destruct (Oo O0) as (O1 & k & A & B).
  exists c.
  set (s2 := given_to (mkXs (put (xs_px s1) i (mkXp a false (Some c))) (xs_cl s1) (xs_keys s1) (xs_log s1)) t (Some i) c).
  assert (E2 : xstep s0 (XUse t i) = s2). { cbn [xstep]. unfold use. rewrite P0. cbn [xp_client xp_addr xp_attr]. rewrite G. reflexivity. }
  set (s3 := mkXs (xs_px s2) (put (xs_cl s2) c (mkXc (xc_thread k) (xc_addr k) false)) (ddel (xs_keys s2) (t, xc_addr k)) (xs_log s2)).
  assert (E3 : xstep s2 (XClose t c) = s3). { cbn [xstep]. change (xs_cl s2) with (xs_cl s1) at 1. rewrite A. reflexivity. }
  assert (I3 : oinv s3). { rewrite <- E3. apply oinv_step; [split; [exact R1|exact O1]|]. exact M. }
  assert (P3 : nth_error (xs_px s3) i = Some (mkXp a false (Some c))). { cbn [s3 s2 given_to xs_px]. rewrite Px. eapply put_same. exact P0. }
  assert (C3 : nth_error (xs_cl s3) c = Some (mkXc (xc_thread k) (xc_addr k) false)). { cbn [s3 s2 given_to xs_cl]. eapply put_same. exact A. }
  set (s4 := given_to s3 t (Some i) c).
  assert (E4 : xstep s3 (XUse t i) = s4). { cbn [xstep]. unfold use. rewrite P3. reflexivity. }
  destruct (get_client s4 t a) as [s5 c'] eqn:G5. destruct (get_client_ok s4 t a s5 c' (proj1 I3) G5) as (_ & _ & _ & _ & Lo5 & Oo5).
  destruct (Oo5 (proj2 I3)) as (_ & k' & A' & B').
  exists c'. rewrite xrun_app. cbn [fold_left]. change (xstep (xrun os) (XReceive a)) with s0. rewrite E2, E3, E4. cbn [xstep].
  change (xs_px s4) with (xs_px s3). rewrite P3. cbn [xp_addr]. rewrite G5. cbn [given_to xs_log]. rewrite Lo5, A', B'.
  cbn [s4 s3 s2 given_to xs_log xs_cl]. rewrite Lo. cbn [s0 xs_log]. rewrite A, B, (put_same _ _ _ _ A). cbn [xc_open]. now rewrite <- !app_assoc.
Qed.
