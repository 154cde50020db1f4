(** Lemmas about thread names. *)
From Verif Require Import Py TnameModel TnameSpec.
Local Open Scope nat_scope.

Definition nlogs (os : list top) : nat := List.length (filter (fun o => match o with TLog _ => true | _ => false end) os).
Lemma nlogs_app a b : nlogs (a ++ b) = nlogs a + nlogs b.
Proof. unfold nlogs. now rewrite filter_app, app_length. Qed.
Section T.
  Variable ident : nat -> nat.
  Notation run := (trun ident tst0).
  Lemma trun_snoc os o : run (os ++ [o]) = tstep ident (run os) o.
  Proof. unfold trun. now rewrite fold_left_app. Qed.
  Lemma trun_app a b : run (a ++ b) = trun ident (run a) b.
  Proof. unfold trun. now rewrite fold_left_app. Qed.
  Lemma logged_more os k t l o : logged os k t l -> logged (os ++ [o]) k t l.
  Proof. intros (r & -> & K). exists (r ++ [o])%list. split; [now rewrite <- app_assoc|auto]. Qed.
  Lemma acts_more os o t : acts os t -> acts (os ++ [o]) t.
  Proof. intros [I|(n & I)]; [left|right; exists n]; apply in_or_app; auto. Qed.
  Lemma own_less os o : own_idents ident (os ++ [o]) -> own_idents ident os.
  Proof. intros W t u A B. apply W; now apply acts_more. Qed.
  Lemma first_less os o : named_first (os ++ [o]) -> named_first os.
  Proof.
    intros U l c m v r ->. apply (U l c m v (r ++ [o])%list). rewrite <- !app_assoc. cbn. do 2 f_equal. rewrite <- app_assoc. reflexivity.
  Qed.
  Lemma called_snoc t os o x : called t os x -> (forall n, o <> TName t n) -> called t (os ++ [o]) x.
  Proof.
    intros C N. destruct C as [os H|l n r H].
    - constructor. intros n I. apply in_app_or in I. destruct I as [I|[I|[]]]; [eapply H; eauto|eapply N; eauto].
    - rewrite <- app_assoc. cbn. constructor. intros m I. apply in_app_or in I. destruct I as [I|[I|[]]]; [eapply H; eauto|eapply N; eauto].
  Qed.
  Lemma called_fun t os x : called t os x -> forall y, called t os y -> x = y.
  Proof.
    induction os as [|o os IH] using rev_ind; intros A y B.
    - inversion A; [|destruct l; discriminate]. inversion B; [reflexivity|destruct l; discriminate].
    - assert (Q : forall z, called t (os ++ [o]) z -> (exists n, o = TName t n /\ z = Some n) \/ ((forall n, o <> TName t n) /\ called t os z)).
      { intros z C. inversion C as [os' H E|l n r H E]; subst.
        - right. split; [intros n ->; apply (H n), in_or_app; right; left; reflexivity|]. constructor. intros n I. apply (H n), in_or_app. auto.
        - destruct r as [|o' r _] using rev_ind.
          + apply app_inj_tail in E. destruct E as (<- & <-). left. eauto.
          + change (l ++ TName t n :: r ++ [o'])%list with (l ++ (TName t n :: r) ++ [o'])%list in E. rewrite app_assoc in E.
            apply app_inj_tail in E. destruct E as (<- & <-). right. split.
            * intros m ->. apply (H m), in_or_app. right. left. reflexivity.
            * constructor. intros m I. apply (H m), in_or_app. auto. }
      destruct (Q _ A) as [(n & -> & ->)|(N & A')], (Q _ B) as [(m & E & ->)|(M & B')].
      + congruence.
      + exfalso. eapply M; reflexivity.
      + exfalso. eapply N; eauto.
      + auto.
  Qed.
  Record tinv (os : list top) (s : tst) : Prop := {
    i_names : forall t, acts os t -> called t os (name_of (t_names s) (ident t));
    i_known : forall i n, In (i, n) (t_names s) -> exists t, In (TName t n) os /\ ident t = i;
    i_next : t_next s = nlogs os;
    i_queue : forall k i, In (k, i) (t_queue s) -> exists t l, ident t = i /\ logged os k t l /\ called t l (name_of (t_names s) i);
    i_out : forall k x, In (k, x) (t_out s) -> exists t l, logged os k t l /\ called t l x
  }.
  Lemma name_in ns i n : name_of ns i = Some n -> In (i, n) ns.
  Proof. induction ns as [|[j m] ns IH]; cbn; [discriminate|]. destruct (Nat.eqb_spec i j) as [->|]; [intros [= ->]|]; auto. Qed.
  Lemma inv_all os : own_idents ident os -> named_first os -> tinv os (run os).
  Proof.
    induction os as [|o os IH] using rev_ind; intros W U.
    - constructor; cbn; try contradiction; [|reflexivity]. intros t _. constructor. intros n [].
    - specialize (IH (own_less _ _ W) (first_less _ _ U)). rewrite trun_snoc. destruct IH as [H1 H2 H3 H4 H5]. set (s := run os) in *.
      assert (F : forall t, ~ acts os t -> (exists n, o = TName t n) \/ (forall n, o <> TName t n)).
      { intros t _. destruct o as [u n|u|]; try (right; discriminate). destruct (Nat.eq_dec u t) as [->|N]; [left; eauto|right; congruence]. }
      assert (Hno : forall t, acts (os ++ [o]) t -> ~ acts os t -> name_of (t_names s) (ident t) = None).
      { intros t A N. destruct (name_of (t_names s) (ident t)) as [n|] eqn:E; [|reflexivity]. exfalso. apply name_in in E.
        destruct (H2 _ _ E) as (u & I & J). apply N. assert (u = t) as <-; [apply W; auto; apply acts_more; right; eauto|right; eauto]. }
      assert (Keep : (forall u n, o <> TName u n) -> forall t, acts (os ++ [o]) t -> called t (os ++ [o]) (name_of (t_names s) (ident t))).
      { intros N t A. destruct o as [u n|u|].
        - exfalso. eapply N; reflexivity.
        - destruct (Nat.eq_dec u t) as [->|D].
          + destruct (name_of (t_names s) (ident t)) as [n|] eqn:E.
            * apply called_snoc; [|discriminate]. rewrite <- E. apply H1. apply name_in in E. destruct (H2 _ _ E) as (v & I & J). right. exists n.
              assert (v = t) as <-; [|exact I]. apply W; auto. apply acts_more. right; eauto.
            * constructor. intros n I. apply in_app_or in I. destruct I as [I|[I|[]]]; [|discriminate].
              assert (C : called t os (name_of (t_names s) (ident t))) by (apply H1; right; eauto). rewrite E in C. inversion C as [? H|]; subst. eapply H; eauto.
          + apply called_snoc; [|discriminate]. apply H1. destruct A as [I|(n & I)]; apply in_app_or in I; destruct I as [I|[I|[]]]; try congruence; [left|right]; eauto.
        - apply called_snoc; [|discriminate]. apply H1. destruct A as [I|(n & I)]; apply in_app_or in I; destruct I as [I|[I|[]]]; try congruence; [left|right]; eauto. }
      destruct o as [u n|u|]; cbn [tstep].
      + constructor; cbn [t_names t_queue t_next t_out].
        * intros t A. cbn [name_of]. destruct (Nat.eqb_spec (ident t) (ident u)) as [E|E].
          -- assert (t = u) as ->. { apply W; auto. right. exists n. apply in_or_app. right. left. reflexivity. }
             apply called_last. intros m [].
          -- assert (D : u <> t) by congruence. apply called_snoc; [|congruence]. apply H1. destruct A as [I|(m & I)]; apply in_app_or in I; destruct I as [I|[I|[]]]; try congruence; [left|right]; eauto.
        * intros i m [[= <- <-]|I]; [exists u; split; auto; apply in_or_app; right; left; reflexivity|]. destruct (H2 _ _ I) as (t & J & K). exists t. split; auto. apply in_or_app; auto.
        * rewrite nlogs_app, H3. cbn. lia.
        * intros k i J. destruct (H4 k i J) as (t & l & E & L & C). exists t, l. split; [exact E|]. split; [now apply logged_more|]. cbn [name_of].
          destruct (Nat.eqb_spec i (ident u)) as [E'|]; [|exact C]. exfalso. destruct L as (r & -> & _).
          assert (t = u) as ->.
          { apply W; [left| |congruence]. { apply in_or_app. left. apply in_or_app. right. left. reflexivity. } right. exists n. apply in_or_app. right. left. reflexivity. }
          apply (U l u r n []). rewrite <- app_assoc. reflexivity.
        * intros k x J. destruct (H5 k x J) as (t & l & L & C). exists t, l. split; [now apply logged_more|exact C].
      + constructor; cbn [t_names t_queue t_next t_out].
        * intros t A. apply Keep; [discriminate|exact A].
        * intros i m I. destruct (H2 _ _ I) as (t & J & K). exists t. split; auto. apply in_or_app; auto.
        * rewrite nlogs_app, H3. cbn. lia.
        * intros k i J. apply in_app_or in J. destruct J as [J|[[= <- <-]|[]]].
          -- destruct (H4 k i J) as (t & l & E & L & C). exists t, l. split; [exact E|]. split; [now apply logged_more|exact C].
          -- exists u, os. split; [reflexivity|]. split; [exists []; split; [reflexivity|exact H3]|].
             assert (A : acts (os ++ [TLog u]) u) by (left; apply in_or_app; right; left; reflexivity).
             assert (C : called u (os ++ [TLog u]) (name_of (t_names s) (ident u))) by (apply Keep; [discriminate|exact A]).
             destruct (name_of (t_names s) (ident u)) as [n|] eqn:E.
             ++ apply name_in in E as I. destruct (H2 _ _ I) as (v & I' & J'). rewrite <- E. apply H1. right. exists n. assert (v = u) as <-; [|exact I']. apply W; auto. apply acts_more; right; eauto.
             ++ constructor. intros n I. assert (C' : called u os (name_of (t_names s) (ident u))) by (apply H1; right; eauto). rewrite E in C'. inversion C' as [? H|]; subst. eapply H; eauto.
        * intros k x J. destruct (H5 k x J) as (t & l & L & C). exists t, l. split; [now apply logged_more|exact C].
      + destruct (t_queue s) as [|[k0 i0] q] eqn:Q; constructor; cbn [t_names t_queue t_next t_out]; try rewrite Q;
          try (intros t A; apply Keep; [discriminate|exact A]);
          try (intros i m I; destruct (H2 _ _ I) as (t & J & K); exists t; split; auto; apply in_or_app; auto);
          try (rewrite nlogs_app, H3; cbn; lia).
        * intros ? ? [].
        * intros k x J. destruct (H5 k x J) as (t & l & L & C). exists t, l. split; [now apply logged_more|exact C].
        * intros k i J. destruct (H4 k i (or_intror J)) as (t & l & E & L & C). exists t, l. split; [exact E|]. split; [now apply logged_more|exact C].
        * intros k x J. apply in_app_or in J. destruct J as [J|[[= <- <-]|[]]].
          -- destruct (H5 k x J) as (t & l & L & C). exists t, l. split; [now apply logged_more|exact C].
          -- destruct (H4 k0 i0 (or_introl eq_refl)) as (t & l & E & L & C). exists t, l. split; [now apply logged_more|exact C].
  Qed.
  Lemma own_names os k x : own_idents ident os -> named_first os -> In (k, x) (t_out (run os)) -> exists t l, logged os k t l /\ called t l x.
  Proof. intros W U. apply (i_out _ _ (inv_all os W U)). Qed.

  Lemma tnext os : t_next (run os) = nlogs os.
  Proof.
    induction os as [|o os IH] using rev_ind; [reflexivity|]. rewrite trun_snoc, nlogs_app. unfold nlogs at 2.
    destruct o; cbn; rewrite <- ?IH; try lia. destruct (t_queue (run os)) as [|[]]; cbn; lia.
  Qed.
  Lemma twrites q : forall s, t_queue s = q ->
    t_out (trun ident s (repeat TWrite (List.length q))) = (t_out s ++ map (fun x => (fst x, name_of (t_names s) (snd x))) q)%list.
  Proof.
    induction q as [|[i a] q IH]; intros s Q; [cbn; now rewrite app_nil_r|].
    cbn [List.length repeat]. change (trun ident s (TWrite :: repeat TWrite (List.length q))) with (trun ident (tstep ident s TWrite) (repeat TWrite (List.length q))).
    rewrite (IH (tstep ident s TWrite)) by (cbn; now rewrite Q). cbn. rewrite Q. cbn. now rewrite <- app_assoc.
  Qed.
  Lemma shown os k i : In (k, i) (t_queue (run os)) -> exists w, In (k, name_of (t_names (run os)) i) (t_out (run (os ++ repeat TWrite w))).
  Proof.
    intro I. exists (List.length (t_queue (run os))). rewrite trun_app. rewrite twrites by reflexivity.
    apply in_or_app. right. apply in_map_iff. exists (k, i). auto.
  Qed.
  Lemma logged_here os t : logged (os ++ [TLog t]) (nlogs os) t os.
  Proof. exists []. auto. Qed.
  Lemma taken os t u n : ident t = ident u -> t <> u -> ~ acts os u ->
    exists w k, let h := (os ++ [TName t n; TLog u])%list in
      logged h k u (os ++ [TName t n]) /\ called u (os ++ [TName t n]) None /\ In (k, Some n) (t_out (run (h ++ repeat TWrite w))).
  Proof.
    intros E N A. cbv zeta. set (h := (os ++ [TName t n; TLog u])%list).
    assert (Hh : h = ((os ++ [TName t n]) ++ [TLog u])%list) by (unfold h; now rewrite <- app_assoc).
    destruct (shown h (nlogs (os ++ [TName t n])) (ident u)) as (w & I).
    { rewrite Hh, trun_snoc. cbn [tstep t_queue]. apply in_or_app. right. left. now rewrite tnext. }
    exists w, (nlogs (os ++ [TName t n])). split; [rewrite Hh; apply logged_here|]. split.
    - constructor. intros m J. apply in_app_or in J. destruct J as [J|[J|[]]]; [apply A; right; eauto|congruence].
    - assert (R : t_names (run h) = (ident t, n) :: t_names (run os)) by (rewrite Hh, !trun_snoc; reflexivity). rewrite R in I. cbn [name_of] in I. rewrite E, Nat.eqb_refl in I. exact I.
  Qed.
  Lemma renamed os t n : ~ called t os (Some n) ->
    exists w k, let h := (os ++ [TLog t; TName t n])%list in
      logged h k t os /\ In (k, Some n) (t_out (run (h ++ repeat TWrite w))).
  Proof.
    intros _. cbv zeta. set (h := (os ++ [TLog t; TName t n])%list).
    assert (Hh : h = ((os ++ [TLog t]) ++ [TName t n])%list) by (unfold h; now rewrite <- app_assoc).
    destruct (shown h (nlogs os) (ident t)) as (w & I).
    { rewrite Hh, !trun_snoc. cbn [tstep t_queue]. apply in_or_app. right. left. now rewrite tnext. }
    exists w, (nlogs os). split; [rewrite Hh; apply logged_more, logged_here|].
    assert (R : t_names (run h) = (ident t, n) :: t_names (run os)) by (rewrite Hh, !trun_snoc; reflexivity). rewrite R in I. cbn [name_of] in I. rewrite Nat.eqb_refl in I. exact I.
  Qed.
End T.
