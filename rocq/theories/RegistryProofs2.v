From Verif Require Import Py RegistryModel RegistrySpec RegistryProofs.
Local Open Scope nat_scope.

Lemma run_len es : forall s s' l, rev_run s es = Some (s', l) -> List.length l = List.length es.
Proof.
  induction es as [|e es IH]; cbn; intros s s' l H; [now injection H as <- <-|].
  destruct (rev_step s e) as [[s1 a]|]; [|easy]. destruct (rev_run s1 es) as [[s2 l2]|] eqn:R; [|easy].
  injection H as <- <-. cbn. f_equal. eapply IH; eauto.
Qed.
Lemma run_app es1 : forall es2 s s' l, rev_run s (es1 ++ es2) = Some (s', l) <->
  exists s1 l1 l2, rev_run s es1 = Some (s1, l1) /\ rev_run s1 es2 = Some (s', l2) /\ l = l1 ++ l2.
Proof.
  induction es1 as [|e es IH]; cbn; intros es2 s s' l.
  - split; [intro H; exists s, [], l; auto|intros (s1 & l1 & l2 & [= <- <-] & H & ->); exact H].
  - destruct (rev_step s e) as [[s1 a]|]; [|split; [easy|intros (? & ? & ? & [=] & _)]]. split.
    + destruct (rev_run s1 (es ++ es2)) as [[s2 l2]|] eqn:R; [|easy]. intros [= <- <-].
      apply IH in R. destruct R as (s3 & l3 & l4 & R3 & R4 & ->). rewrite R3. exists s3, (a :: l3), l4. auto.
    + intros (s3 & l3 & l4 & H & R4 & ->). destruct (rev_run s1 es) as [[s5 l5]|] eqn:R; [|easy]. injection H as -> <-.
      assert (X : rev_run s1 (es ++ es2) = Some (s', l5 ++ l4)) by (apply IH; exists s3, l5, l4; auto). rewrite X. reflexivity.
Qed.
Lemma combine_app {A B} (a1 a2 : list A) : forall (b1 b2 : list B), List.length b1 = List.length a1 ->
  combine (a1 ++ a2) (b1 ++ b2) = combine a1 b1 ++ combine a2 b2.
Proof.
  induction a1 as [|x a1 IH]; intros [|y b1] b2 L; try discriminate L; [reflexivity|]. cbn. f_equal. apply IH. now injection L.
Qed.
Lemma happened_nil : happened [] reg0.
Proof. exists [], []. auto. Qed.
Lemma happened_snoc tr s e s' x : happened tr s -> rev_step s e = Some (s', x) -> happened (tr ++ [(e, x)]) s'.
Proof.
  intros (es & l & R & ->) H. exists (es ++ [e]), (l ++ [x]). split.
  - apply run_app. exists s, l, [x]. cbn. rewrite H. auto.
  - rewrite combine_app by (eapply run_len; eauto). reflexivity.
Qed.
Lemma happened_run tr s es s' l : happened tr s -> rev_run s es = Some (s', l) -> happened (tr ++ combine es l) s'.
Proof.
  intros (es0 & l0 & R & ->) H. exists (es0 ++ es), (l0 ++ l). split.
  - apply run_app. exists s, l0, l. auto.
  - rewrite combine_app by (eapply run_len; eauto). reflexivity.
Qed.
Lemma happened_ind (P : list (rev * rans) -> reg -> Prop) : P [] reg0 ->
  (forall tr s e s' x, happened tr s -> P tr s -> rev_step s e = Some (s', x) -> P (tr ++ [(e, x)]) s') ->
  forall tr s, happened tr s -> P tr s.
Proof.
  intros P0 PS tr s (es & l & R & ->). revert s l R. induction es as [|e es IH] using List.rev_ind; intros s l R.
  - injection R as <- <-. exact P0.
  - apply run_app in R. destruct R as (s1 & l1 & l2 & R1 & R2 & ->). cbn in R2.
    destruct (rev_step s1 e) as [[s2 x]|] eqn:E; [|easy]. injection R2 as <- <-.
    rewrite combine_app by (eapply run_len; eauto). apply (PS _ s1); [exists es, l1; auto|eauto|exact E].
Qed.
Lemma happened_inv tr s : happened tr s -> RInv s.
Proof. intros (es & l & R & _). exact (rev_run_inv _ _ _ _ rinv0 R). Qed.

Lemma ident_snoc tr e x h : ident (tr ++ [(e, x)]) h =
  match e with
  | TStart h' i => if Nat.eqb h' h then Some i else ident tr h
  | TEnd h' => if Nat.eqb h' h then None else ident tr h
  | _ => ident tr h
  end.
Proof. unfold ident. rewrite fold_left_app. reflexivity. Qed.
Lemma made_snoc tr e x h c a i : made (tr ++ [(e, x)]) h c a i <->
  made tr h c a i \/ (exists local, e = NewC h a local /\ x = AClient c /\ ident tr h = Some i).
Proof.
  split.
  - intro M. inversion M as [t h' a' l' c' i' D E|t z h' c' a' i' M' E]; apply app_inj_tail in E; destruct E as [-> E]; subst; auto.
    injection E as <- <-. right. eauto.
  - intros [M|(l & -> & -> & D)]; [now apply made_before|now apply made_now].
Qed.
Lemma reg_snoc tr e x i a c : registered (tr ++ [(e, x)]) i a c <->
  (registered tr i a c /\ ~ forgets tr e i a) \/ (exists h local, e = NewC h a local /\ x = AClient c /\ ident tr h = Some i).
Proof.
  split.
  - intro R. inversion R as [t h a' l' c' i' D E|t e' x' i' a' c' R' N E]; apply app_inj_tail in E; destruct E as [-> E]; injection E as <- <-; subst.
    + right. eauto.
    + auto.
  - intros [[R N]|(h & l & -> & -> & D)]; [now apply reg_before|eapply reg_now; eauto].
Qed.
Lemma reg_nil i a c : ~ registered [] i a c.
Proof. intro R. inversion R as [? ? ? ? ? ? ? E|? ? ? ? ? ? ? ? E]; symmetry in E; now apply app_cons_not_nil in E. Qed.
Lemma made_nil h c a i : ~ made [] h c a i.
Proof. intro R. inversion R as [? ? ? ? ? ? ? E|? ? ? ? ? ? ? E]; symmetry in E; now apply app_cons_not_nil in E. Qed.

Record JInv (tr : list (rev * rans)) (s : reg) : Prop := {
  j_ident : forall h, ident tr h = dget (g_live s) h;
  j_made : forall h c a i, made tr h c a i <-> exists o, dget (g_objs s) c = Some o /\ co_maker o = h /\ co_addr o = a /\ co_ident o = i;
  j_reg : forall i a c, registered tr i a c <-> dget (g_clients s) (i, a) = Some c;
  j_done : forall c o, dget (g_objs s) c = Some o -> (co_done o = true <-> exists h ok x, In (EndC h c ok, x) tr);
  j_end : forall h c ok x, In (EndC h c ok, x) tr -> exists o, dget (g_objs s) c = Some o
}.

Lemma in_snoc {A} (x : A) l y : In x (l ++ [y]) <-> In x l \/ x = y.
Proof. rewrite in_app_iff. cbn. intuition. Qed.

Ltac idt J := intro; rewrite ident_snoc; cbn [g_live]; apply (j_ident _ _ J).
Lemma jstep tr s e s' x : happened tr s -> JInv tr s -> rev_step s e = Some (s', x) -> JInv (tr ++ [(e, x)]) s'.
Proof.
  intros Hp J H. pose proof (happened_inv _ _ Hp) as I.
  assert (Quiet : s'.(g_objs) = s.(g_objs) -> s'.(g_clients) = s.(g_clients) ->
    (forall h a l, e = NewC h a l -> forall c, x <> AClient c) -> (forall h c, e <> CloseC h c) -> (forall h c ok, e <> EndC h c ok) ->
    (forall h, ident (tr ++ [(e, x)]) h = dget (g_live s') h) -> JInv (tr ++ [(e, x)]) s').
  { intros E1 E2 N1 N2 N3 Id. constructor; rewrite ?E1, ?E2.
    - exact Id.
    - intros h c a i. rewrite made_snoc, (j_made _ _ J). split; [intros [M|(l & -> & -> & _)]; [exact M|]|auto]. destruct (N1 _ _ _ eq_refl c eq_refl).
    - intros i a c. rewrite reg_snoc, (j_reg _ _ J). split.
      + intros [[R _]|(h & l & -> & -> & _)]; [exact R|]. destruct (N1 _ _ _ eq_refl c eq_refl).
      + intro R. left. split; [exact R|]. intros (h & c' & [->| ->] & _); [eapply N2; eauto|eapply N3; eauto].
    - intros c o G. rewrite (j_done _ _ J c o G). split; intros (h & ok & y & Q).
      + exists h, ok, y. apply in_snoc. auto.
      + apply in_snoc in Q. destruct Q as [Q|Q]; [eauto|]. injection Q as Q _. destruct (N3 h c ok). auto.
    - intros h c ok y Q. apply in_snoc in Q. destruct Q as [Q|Q]; [eapply (j_end _ _ J); eauto|]. injection Q as Q _. destruct (N3 h c ok). auto. }
  destruct e as [h i|h|h ad|h ad lo|h c ok|h c|c]; cbn in H.
  - destruct (dget (g_live s) h) eqn:L; [easy|]. destruct (_ || _); [easy|]. injection H as <- <-.
    apply Quiet; auto; try discriminate. intro h'. rewrite ident_snoc. cbn [g_live]. rewrite dget_dset, (j_ident _ _ J).
    destruct (eqb_reflect h' h) as [->|N]; [now rewrite Nat.eqb_refl|]. destruct (Nat.eqb_spec h h'); congruence.
  - destruct (dget (g_live s) h) eqn:L; [|easy]. injection H as <- <-.
    apply Quiet; auto; try discriminate. intro h'. rewrite ident_snoc. cbn [g_live]. rewrite (j_ident _ _ J).
    destruct (Nat.eqb_spec h h') as [<-|N]; [now rewrite dget_ddel_same by apply I|now rewrite dget_ddel_other].
  - destruct (dget (g_live s) h) eqn:L; [|easy]. injection H as <- <-. apply Quiet; auto; try discriminate. idt J.
  - destruct (dget (g_live s) h) as [i|] eqn:L; [|easy].
    destruct (dget (g_clients s) (i, ad)) as [c0|] eqn:G; injection H as <- <-.
    { apply Quiet; auto; try discriminate. idt J. }
    assert (Fr : dget (g_objs s) (g_nobj s) = None).
    { destruct (dget (g_objs s) (g_nobj s)) eqn:E; [|reflexivity]. apply (ri_lt _ I) in E. lia. }
    constructor; cbn [g_objs g_clients g_live].
    + idt J.
    + intros h' c a j. rewrite made_snoc, (j_made _ _ J), dget_dset. destruct (eqb_reflect c (g_nobj s)) as [->|N]; split.
      * intros [(o & X & _)|(l & [= <- <- <-] & _ & D)]; [congruence|]. eexists. split; [reflexivity|]. cbn. rewrite (j_ident _ _ J) in D. repeat split; congruence.
      * intros (o & [= <-] & <- & <- & <-). cbn. right. exists lo. rewrite (j_ident _ _ J). auto.
      * intros [M|(l & _ & E & _)]; [exact M|congruence].
      * auto.
    + intros j a c. rewrite reg_snoc, (j_reg _ _ J), dget_dset. destruct (eqb_reflect (j, a) (i, ad)) as [[= -> ->]|N]; split.
      * intros [[R _]|(h' & l & _ & [= <-] & _)]; [congruence|reflexivity].
      * intros [= <-]. right. exists h, lo. rewrite (j_ident _ _ J). auto.
      * intros [[R _]|(h' & l & [= <- <- <-] & _ & D)]; [exact R|]. rewrite (j_ident _ _ J) in D. congruence.
      * intro R. left. split; [exact R|]. intros (h' & c' & [E|E] & _); discriminate E.
    + intros c o. rewrite dget_dset. destruct (eqb_reflect c (g_nobj s)) as [->|N].
      * intros [= <-]. cbn. split; [discriminate|]. intros (h' & ok & y & Q). apply in_snoc in Q. destruct Q as [Q|Q]; [|discriminate Q].
        destruct (j_end _ _ J _ _ _ _ Q) as [o Q']. congruence.
      * intro Q. rewrite (j_done _ _ J c o Q). split; intros (h' & ok & y & Q'); exists h', ok, y; rewrite in_snoc in *; [auto|].
        destruct Q' as [Q'|Q']; [exact Q'|discriminate Q'].
    + intros h' c ok y Q. apply in_snoc in Q. destruct Q as [Q|Q]; [|discriminate Q]. rewrite dget_dset.
      destruct (eqb_reflect c (g_nobj s)); [eauto|]. eapply (j_end _ _ J); eauto.
  - destruct (dget (g_live s) h) as [i|] eqn:L; [|easy]. destruct (dget (g_objs s) c) as [o|] eqn:G; [|easy].
    destruct (Nat.eqb_spec (co_maker o) h) as [Mk|]; [|easy]. destruct (co_done o) eqn:Dn; [easy|]. cbn in H.
    set (o' := mkC (co_addr o) (co_ident o) (co_maker o) true (co_open o)) in H.
    assert (Madded : forall y h' c' a j, made (tr ++ [(EndC h c ok, y)]) h' c' a j <->
      exists o1, dget (dset (g_objs s) c o') c' = Some o1 /\ co_maker o1 = h' /\ co_addr o1 = a /\ co_ident o1 = j).
    { intros y h' c' a j. rewrite made_snoc, (j_made _ _ J), dget_dset. destruct (eqb_reflect c' c) as [->|N]; split.
      - intros [(o1 & X & Y)|(l & [=] & _)]. assert (o1 = o) by congruence. subst o1. exists o'. split; [reflexivity|exact Y].
      - intros (o1 & [= <-] & Y). left. exists o. split; [exact G|exact Y].
      - intros [X|(l & [=] & _)]. exact X.
      - auto. }
    assert (Dadded : forall y c' o1, dget (dset (g_objs s) c o') c' = Some o1 ->
      (co_done o1 = true <-> exists h' ok' y', In (EndC h' c' ok', y') (tr ++ [(EndC h c ok, y)]))).
    { intros y c' o1. rewrite dget_dset. destruct (eqb_reflect c' c) as [->|N].
      - intros [= <-]. cbn. split; [|reflexivity]. intros _. exists h, ok, y. apply in_snoc. auto.
      - intro Q. rewrite (j_done _ _ J c' o1 Q). split; intros (h' & ok' & y' & Q'); exists h', ok', y'; rewrite in_snoc in *; [auto|].
        destruct Q' as [Q'|Q']; [exact Q'|congruence]. }
    assert (Eadded : forall y h' c' ok' y', In (EndC h' c' ok', y') (tr ++ [(EndC h c ok, y)]) -> exists o1, dget (dset (g_objs s) c o') c' = Some o1).
    { intros y h' c' ok' y' Q. rewrite dget_dset. destruct (eqb_reflect c' c); [eauto|]. apply in_snoc in Q. destruct Q as [Q|Q]; [eapply (j_end _ _ J); eauto|congruence]. }
    destruct ok; injection H as <- <-; constructor; cbn [g_objs g_clients g_live]; try (exact (Madded _)); try (exact (Dadded _)); try (exact (Eadded _)).
    + idt J.
    + intros j a c'. rewrite reg_snoc, (j_reg _ _ J). split; [intros [[R _]|(h' & l & [=] & _)]; exact R|].
      intro R. left. split; [exact R|]. intros (h' & c2 & [E|E] & _); discriminate E.
    + idt J.
    + intros j a c'. rewrite reg_snoc, (j_reg _ _ J). destruct (eqb_reflect (i, co_addr o) (j, a)) as [[= <- <-]|N].
      * rewrite dget_ddel_same by apply I. split; [|discriminate]. intros [[R F]|(h' & l & [=] & _)]. exfalso. apply F.
        exists h, c. rewrite (j_ident _ _ J). split; [auto|]. split; [exact L|]. exists (co_maker o), (co_ident o). apply (j_made _ _ J). eauto.
      * rewrite dget_ddel_other by exact N. split; [intros [[R _]|(h' & l & [=] & _)]; exact R|]. intro R. left. split; [exact R|].
        intros (h' & c2 & [[=]|[= <- <-]] & Di & h0 & j0 & M). rewrite (j_ident _ _ J) in Di. apply (j_made _ _ J) in M.
        destruct M as (o1 & X & _ & Y & _). apply N. congruence.
  - destruct (dget (g_live s) h) as [i|] eqn:L; [|easy]. destruct (dget (g_objs s) c) as [o|] eqn:G; [|easy].
    injection H as <- <-. set (o' := mkC _ _ _ _ _). constructor; cbn [g_objs g_clients g_live].
    + idt J.
    + intros h' c' a j. rewrite made_snoc, (j_made _ _ J), dget_dset. destruct (eqb_reflect c' c) as [->|N]; split.
      * intros [(o1 & X & Y)|(l & [=] & _)]. assert (o1 = o) by congruence. subst o1. exists o'. split; [reflexivity|exact Y].
      * intros (o1 & [= <-] & Y). left. exists o. split; [exact G|exact Y].
      * intros [X|(l & [=] & _)]. exact X.
      * auto.
    + intros j a c'. rewrite reg_snoc, (j_reg _ _ J). destruct (eqb_reflect (i, co_addr o) (j, a)) as [[= <- <-]|N].
      * rewrite dget_ddel_same by apply I. split; [|discriminate]. intros [[R F]|(h' & l & [=] & _)]. exfalso. apply F.
        exists h, c. rewrite (j_ident _ _ J). split; [auto|]. split; [exact L|]. exists (co_maker o), (co_ident o). apply (j_made _ _ J). eauto.
      * rewrite dget_ddel_other by exact N. split; [intros [[R _]|(h' & l & [=] & _)]; exact R|]. intro R. left. split; [exact R|].
        intros (h' & c2 & [[= <- <-]|[=]] & Di & h0 & j0 & M). rewrite (j_ident _ _ J) in Di. apply (j_made _ _ J) in M.
        destruct M as (o1 & X & _ & Y & _). apply N. congruence.
    + intros c' o1. rewrite dget_dset. destruct (eqb_reflect c' c) as [->|N].
      * intros [= <-]. cbn. rewrite (j_done _ _ J c o G). split; intros (h' & ok' & y' & Q'); exists h', ok', y'; rewrite in_snoc in *; [auto|].
        destruct Q' as [Q'|Q']; [exact Q'|discriminate Q'].
      * intro Q. rewrite (j_done _ _ J c' o1 Q). split; intros (h' & ok' & y' & Q'); exists h', ok', y'; rewrite in_snoc in *; [auto|].
        destruct Q' as [Q'|Q']; [exact Q'|discriminate Q'].
    + intros h' c' ok' y' Q. apply in_snoc in Q. destruct Q as [Q|Q]; [|discriminate Q]. rewrite dget_dset.
      destruct (eqb_reflect c' c); [eauto|]. eapply (j_end _ _ J); eauto.
  - destruct (dget (g_objs s) c) eqn:G; [|easy]. injection H as <- <-. apply Quiet; auto; try discriminate. idt J.
Qed.
Lemma jinv tr s : happened tr s -> JInv tr s.
Proof.
  intro H. induction H using happened_ind; [|eapply jstep; eauto]. constructor; cbn; try easy.
  - intros. split; [intro M; now apply made_nil in M|intros (o & [=] & _)].
  - intros. split; [intro M; now apply reg_nil in M|discriminate].
Qed.

(** *** C28 *)
Theorem get_client_finds tr s h i a : happened tr s -> ident tr h = Some i ->
  exists r, rev_step s (GetC h a) = Some (s, r) /\
    (forall c, r = AClient c <-> registered tr i a c) /\ (r = AMissing <-> forall c, ~ registered tr i a c).
Proof.
  intros Hp D. pose proof (jinv _ _ Hp) as J. rewrite (j_ident _ _ J) in D. cbn [rev_step]. rewrite D. eexists. split; [reflexivity|].
  destruct (dget (g_clients s) (i, a)) as [c0|] eqn:G; split.
  - intro c. rewrite (j_reg _ _ J), G. split; congruence.
  - split; [discriminate|]. intro N. exfalso. apply (N c0). now apply (j_reg _ _ J).
  - intro c. rewrite (j_reg _ _ J), G. split; discriminate.
  - split; [|auto]. intros _ c R. apply (j_reg _ _ J) in R. congruence.
Qed.
Theorem create tr s h i a local : happened tr s -> ident tr h = Some i ->
  exists s' r, rev_step s (NewC h a local) = Some (s', r) /\
    ((exists c, registered tr i a c) -> r = AExn KeyError) /\
    ((forall c, ~ registered tr i a c) -> exists c, r = AClient c /\ forall h0 b j, ~ made tr h0 c b j).
Proof.
  intros Hp D. pose proof (jinv _ _ Hp) as J. pose proof (happened_inv _ _ Hp) as I. rewrite (j_ident _ _ J) in D. cbn [rev_step]. rewrite D.
  destruct (dget (g_clients s) (i, a)) as [c0|] eqn:G; do 2 eexists; (split; [reflexivity|]); split.
  - reflexivity.
  - intro N. exfalso. apply (N c0). now apply (j_reg _ _ J).
  - intros (c & R). apply (j_reg _ _ J) in R. congruence.
  - intros _. eexists. split; [reflexivity|]. intros h0 b j M. apply (j_made _ _ J) in M. destruct M as (o & X & _). apply (ri_lt _ I) in X. lia.
Qed.
Theorem construction_ends tr s h i c a : happened tr s -> ident tr h = Some i -> made tr h c a i ->
  (forall h' ok x, ~ In (EndC h' c ok, x) tr) ->
  (exists s', rev_step s (EndC h c true) = Some (s', AClient c)) /\
  (exists s' e, rev_step s (EndC h c false) = Some (s', AExn e)).
Proof.
  intros Hp D M N. pose proof (jinv _ _ Hp) as J. rewrite (j_ident _ _ J) in D. apply (j_made _ _ J) in M.
  destruct M as (o & X & Mk & _). cbn [rev_step]. rewrite D, X. subst h. rewrite Nat.eqb_refl.
  assert (E : co_done o = false).
  { destruct (co_done o) eqn:E; [|reflexivity]. apply (j_done _ _ J c o X) in E. destruct E as (h' & ok & y & E). destruct (N _ _ _ E). }
  rewrite E. cbn. split; [eexists; reflexivity|do 2 eexists; reflexivity].
Qed.
Theorem close_possible tr s h i h0 c a j : happened tr s -> ident tr h = Some i -> made tr h0 c a j ->
  exists s', rev_step s (CloseC h c) = Some (s', ANone).
Proof.
  intros Hp D M. pose proof (jinv _ _ Hp) as J. rewrite (j_ident _ _ J) in D. apply (j_made _ _ J) in M.
  destruct M as (o & X & _). cbn [rev_step]. rewrite D, X. eexists. reflexivity.
Qed.
Theorem same_client2 tr s h a c es s' l : happened tr s -> rev_step s (GetC h a) = Some (s, AClient c) ->
  rev_run s es = Some (s', l) -> ~ In (TEnd h) es ->
  (forall c', In (CloseC h c') es \/ In (EndC h c' false) es -> forall h0 j, ~ made (tr ++ combine es l) h0 c' a j) ->
  rev_step s' (GetC h a) = Some (s', AClient c).
Proof.
  intros Hp G R NE NL. pose proof (jinv _ _ (happened_run _ _ _ _ _ Hp R)) as J. destruct Hp as (es0 & l0 & R0 & E).
  eapply same_client; eauto. intros e c' o Hin [-> | ->] Ho A.
  - apply (NL c' (or_introl Hin) (co_maker o) (co_ident o)). apply (j_made _ _ J). exists o. auto.
  - apply (NL c' (or_intror Hin) (co_maker o) (co_ident o)). apply (j_made _ _ J). exists o. auto.
Qed.
Lemma made_mono tr z h c a i : made tr h c a i -> made (tr ++ [z]) h c a i.
Proof. apply made_before. Qed.
Lemma no_trace tr s e s' x h c : happened tr s -> rev_step s e = Some (s', x) ->
  e = EndC h c false \/ (e = CloseC h c /\ exists a i, made tr h c a i) ->
  forall i a, ~ registered (tr ++ [(e, x)]) i a c.
Proof.
  intros Hp H E i a R. pose proof (jinv _ _ (happened_snoc _ _ _ _ _ Hp H)) as J'. apply (j_reg _ _ J') in R. clear J'.
  pose proof (jinv _ _ Hp) as J. pose proof (happened_inv _ _ Hp) as I.
  destruct E as [-> |[-> (a0 & i0 & M)]]; cbn in H.
  - destruct (dget (g_live s) h) as [i1|] eqn:L; [|easy]. destruct (dget (g_objs s) c) as [o|] eqn:G; [|easy].
    destruct (Nat.eqb_spec (co_maker o) h) as [Mk|]; [|easy]. destruct (co_done o); [easy|]. injection H as <- <-. cbn in R.
    assert (Ei : co_ident o = i1) by (eapply ri_mk; eauto; now rewrite Mk).
    destruct (gone s i1 (co_addr o) c o _ I G Ei eq_refl eq_refl) as (N & _). exact (N _ R).
  - destruct (dget (g_live s) h) as [i1|] eqn:L; [|easy]. destruct (dget (g_objs s) c) as [o|] eqn:G; [|easy].
    injection H as <- <-. cbn in R. apply (j_made _ _ J) in M. destruct M as (o1 & X & Mk & _). assert (o1 = o) by congruence. subst o1.
    assert (Ei : co_ident o = i1) by (eapply ri_mk; eauto; now rewrite Mk).
    destruct (gone s i1 (co_addr o) c o _ I G Ei eq_refl eq_refl) as (N & _). exact (N _ R).
Qed.

(** *** C66 *)
Theorem own_client2 tr s h a c : happened tr s -> NoDup (started (map fst tr)) -> rev_step s (GetC h a) = Some (s, AClient c) ->
  exists b i, made tr h c b i.
Proof.
  intros Hp ND G. pose proof (jinv _ _ Hp) as J. destruct Hp as (es & l & R & ->).
  assert (E : map fst (combine es l) = es).
  { pose proof (run_len _ _ _ _ R) as L. clear - L. revert l L. induction es as [|e es IH]; intros [|x l] L; try discriminate L; [reflexivity|].
    cbn. f_equal. apply IH. now injection L. }
  rewrite E in ND. destruct (own_client _ _ _ _ _ _ R ND G) as (o & Ho & Mk). exists (co_addr o), (co_ident o).
  apply (j_made _ _ J). exists o. auto.
Qed.

(** *** C108 *)
Theorem open_if_makers_close tr s : happened tr s ->
  (forall h' c' x, In (CloseC h' c', x) tr -> exists a i, made tr h' c' a i) ->
  forall i a c, registered tr i a c -> forall h' x, ~ In (CloseC h' c, x) tr.
Proof.
  intro Hp. induction Hp as [|tr s e s' x Hp IH H] using happened_ind; [auto|]. intros Own i a c R h' y Q.
  pose proof (jinv _ _ Hp) as J.
  assert (Own' : forall h' c' x, In (CloseC h' c', x) tr -> exists a i, made tr h' c' a i).
  { intros h1 c1 y1 Q1. destruct (Own h1 c1 y1) as (a1 & i1 & M); [apply in_snoc; auto|]. apply made_snoc in M.
    destruct M as [M|(l & -> & -> & D)]; [eauto|]. exfalso.
    assert (X : forall tr s, happened tr s -> forall h c x, In (CloseC h c, x) tr -> exists o, dget (g_objs s) c = Some o).
    { clear. intros tr s Hp. induction Hp as [|tr s e s' x Hp IH H] using happened_ind; [easy|]. intros h c y Q. apply in_snoc in Q.
      destruct Q as [Q|Q].
      - destruct (IH _ _ _ Q) as [o G]. destruct (addr_kept _ _ _ _ _ _ (happened_inv _ _ Hp) H G) as (o' & G' & _). eauto.
      - injection Q as <- <-. cbn in H. destruct (dget (g_live s) h); [|easy]. destruct (dget (g_objs s) c) as [o|] eqn:G; [|easy].
        injection H as <- _. cbn. rewrite dget_dset_same. eauto. }
    destruct (X _ _ Hp _ _ _ Q1) as [o G]. cbn in H. destruct (dget (g_live s) h1); [|easy]. destruct (dget (g_clients s) _); [easy|].
    injection H as _ <-. apply (ri_lt _ (happened_inv _ _ Hp)) in G. lia. }
  apply in_snoc in Q. destruct Q as [Q|Q].
  - apply reg_snoc in R. destruct R as [[R _]|(h & l & -> & -> & D)]; [exact (IH Own' _ _ _ R _ _ Q)|].
    destruct (Own' _ _ _ Q) as (a1 & i1 & M). apply (j_made _ _ J) in M. destruct M as (o & G & _). cbn in H.
    destruct (dget (g_live s) h); [|easy]. destruct (dget (g_clients s) _); [easy|]. injection H as _ <-.
    apply (ri_lt _ (happened_inv _ _ Hp)) in G. lia.
  - injection Q as <- <-. destruct (Own h' c y) as (a1 & i1 & M); [apply in_snoc; auto|].
    apply made_snoc in M. destruct M as [M|(l & [=] & _)].
    refine (no_trace _ _ _ _ _ h' c Hp H (or_intror (conj eq_refl _)) i a R). eauto.
Qed.

(** *** C109 *)
Theorem close_own_only tr s h i a c : happened tr s -> ident tr h = Some i -> registered tr i a c ->
  exists s', rev_step s (CloseC h c) = Some (s', ANone) /\
    forall h' a' c', c' <> c -> rev_step s (GetC h' a') = Some (s, AClient c') -> rev_step s' (GetC h' a') = Some (s', AClient c').
Proof.
  intros Hp D R. pose proof (jinv _ _ Hp) as J. pose proof (happened_inv _ _ Hp) as I. rewrite (j_ident _ _ J) in D. apply (j_reg _ _ J) in R.
  destruct (ri_obj _ I _ _ _ R) as (o & G & A & Ii). subst a. cbn [rev_step]. rewrite D, G. eexists. split; [reflexivity|].
  intros h' a' c' N. cbn [g_live g_clients]. destruct (dget (g_live s) h') as [i'|]; [|discriminate].
  destruct (eqb_reflect (i, co_addr o) (i', a')) as [[= <- <-]|X].
  - rewrite R. intros [= ->]. congruence.
  - rewrite dget_ddel_other by exact X. destruct (dget (g_clients s) (i', a')); [|discriminate]. intros [= ->]. reflexivity.
Qed.

(** The same in terms of what get_client answers *)
Lemma found_registered tr s h a c : happened tr s -> rev_step s (GetC h a) = Some (s, AClient c) ->
  exists i, ident tr h = Some i /\ registered tr i a c.
Proof.
  intros Hh G. destruct (ident tr h) as [i|] eqn:I.
  - exists i. split; [reflexivity|]. destruct (get_client_finds _ _ h i a Hh I) as (r & G' & F & _).
    rewrite G in G'. injection G' as <-. apply F. reflexivity.
  - pose proof (jinv _ _ Hh) as J. rewrite (j_ident _ _ J) in I. cbn [rev_step] in G. rewrite I in G. discriminate G.
Qed.
Theorem no_trace_found tr s e s' x h c : happened tr s -> rev_step s e = Some (s', x) ->
  e = EndC h c false \/ (e = CloseC h c /\ exists a i, made tr h c a i) ->
  forall h' a, rev_step s' (GetC h' a) <> Some (s', AClient c).
Proof.
  intros Hh E Hc h' a G. destruct (found_registered _ _ _ _ _ (happened_snoc tr s e s' x Hh E) G) as (i & _ & R).
  exact (no_trace tr s e s' x h c Hh E Hc i a R).
Qed.
Theorem open_found tr s : happened tr s ->
  (forall h' c' x, In (CloseC h' c', x) tr -> exists a i, made tr h' c' a i) ->
  forall h a c, rev_step s (GetC h a) = Some (s, AClient c) -> forall h' x, ~ In (CloseC h' c, x) tr.
Proof.
  intros Hh Own h a c G. destruct (found_registered _ _ _ _ _ Hh G) as (i & _ & R). exact (open_if_makers_close tr s Hh Own i a c R).
Qed.
Theorem close_found tr s h a c : happened tr s -> rev_step s (GetC h a) = Some (s, AClient c) ->
  exists s', rev_step s (CloseC h c) = Some (s', ANone) /\
    forall h' a' c', c' <> c -> rev_step s (GetC h' a') = Some (s, AClient c') -> rev_step s' (GetC h' a') = Some (s', AClient c').
Proof.
  intros Hh G. destruct (found_registered _ _ _ _ _ Hh G) as (i & I & R). exact (close_own_only tr s h i a c Hh I R).
Qed.
