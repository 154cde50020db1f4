From Verif Require Import Py TimerModel TimerSpec.

Record gh := mkG { g_base : option Z; g_open : option Z; g_run : bool; g_since : Z }.
Definition g0 : gh := mkG None None false 0.
Definition gstep (g : gh) (e : tev) : gh :=
  match e with
  | EStart => mkG None (g_open g) true 0
  | EStop | EDead => mkG (g_base g) (g_open g) false (g_since g)
  | EDecide t => mkG (Some t) (Some t) (g_run g) (g_since g)
  | EBegin _ => mkG (g_base g) None (g_run g) (g_since g + 1)
  | _ => g
  end.
Definition gof (l : list tev) : gh := fold_left gstep l g0.

Section T.
  Variable iv : Z.
  Variable lim : option Z.

  Definition cond (g : gh) (e : tev) : Prop :=
    match e with
    | EDecide t => g_open g = None /\ g_run g = true /\ forall b, g_base g = Some b -> b + iv <= t
    | EBegin t => exists d, g_open g = Some d /\ d <= t
    | _ => True
    end.
  Fixpoint okfrom (g : gh) (l : list tev) : Prop :=
    match l with [] => True | e :: r => cond g e /\ okfrom (gstep g e) r end.
  Lemma ok_app l1 l2 : forall g, okfrom g (l1 ++ l2) <-> okfrom g l1 /\ okfrom (fold_left gstep l1 g) l2.
  Proof. induction l1 as [|e l1 IH]; intros g; cbn; [tauto|]. rewrite IH. tauto. Qed.
  Lemma ok_app0 l1 l2 : okfrom g0 (l1 ++ l2) <-> okfrom g0 l1 /\ okfrom (gof l1) l2.
  Proof. apply ok_app. Qed.
  Lemma gof_app l1 l2 : gof (l1 ++ l2) = fold_left gstep l2 (gof l1).
  Proof. unfold gof. now rewrite fold_left_app. Qed.

  Definition pcok (s : timer) : Prop :=
    match t_th s with
    | At (PLast c) => c <= t_now s
    | At (PDoze w) => forall b, t_last s = Some b -> b + iv <= t_now s + w
    | At (PSleep u) => forall b, t_last s = Some b -> b + iv <= u
    | At PTake => forall b, t_last s = Some b -> b + iv <= t_now s
    | _ => True
    end.
  Record TI (s : timer) : Prop := {
    i_ok : okfrom g0 (t_log s);
    i_last : t_last s = g_base (gof (t_log s));
    i_run : t_running s = g_run (gof (t_log s));
    i_open : match t_th s with At PBegin => exists d, g_open (gof (t_log s)) = Some d /\ d <= t_now s | _ => g_open (gof (t_log s)) = None end;
    i_pc : pcok s }.

  Lemma TI0 : TI timer0.
  Proof. constructor; cbn; auto. Qed.

  Ltac fin := cbn [t_now t_running t_last t_count t_th t_calls t_log gstep g_base g_open g_run cond okfrom fold_left at_pc log] in *;
              try rewrite gof_app; try rewrite ok_app0; cbn [gstep fold_left g_base g_open g_run okfrom cond]; auto.
  Lemma TI_run s e : TI s -> TI (run_step iv lim s e).
  Proof.
    intros [Ok La Ru Op Pc]. unfold run_step, pcok in *. destruct (t_th s) as [|p|] eqn:Th; [constructor; unfold pcok; rewrite ?Th; auto| |constructor; unfold pcok; rewrite ?Th; auto].
    unfold at_pc, log. rewrite ?app_nil_r.
    destruct p.
    - destruct e; constructor; unfold pcok; fin; rewrite ?app_nil_r; auto.
    - destruct (t_last s) eqn:L; constructor; unfold pcok; fin; rewrite ?app_nil_r; auto; try congruence.
    - constructor; unfold pcok; fin; rewrite ?app_nil_r; auto. lia.
    - destruct (t_last s) as [b|] eqn:L.
      + constructor; unfold pcok; fin; rewrite ?app_nil_r; auto.
        * destruct (0 <? _); auto.
        * destruct (Z.ltb_spec 0 (iv - (c - b))); intros b' [= <-]; lia.
      + constructor; unfold pcok; fin. 
    - constructor; unfold pcok; fin; rewrite ?app_nil_r; auto.
    - destruct (Z.leb_spec u (t_now s)); constructor; unfold pcok; fin; rewrite ?app_nil_r, ?Th; auto.
      intros b E. specialize (Pc b E). lia.
    - destruct (t_running s) eqn:R; constructor; unfold pcok; fin; rewrite ?app_nil_r; auto.
      + split; auto. split; auto. split; auto. split; [congruence|]. intros b E. apply Pc. rewrite La. exact E.
      + exists (t_now s). split; auto. lia.
    - destruct Op as (d & Od & Ld). constructor; unfold pcok; fin. split; auto. split; auto. eauto.
    - destruct e; constructor; unfold pcok; fin; rewrite ?app_nil_r; auto.
    - constructor; unfold pcok; fin.
      + destruct lim as [m|]; [destruct (m <=? _)|]; auto.
      + destruct lim as [m|]; [destruct (m <=? _)|]; auto.
    - constructor; unfold pcok; fin.
  Qed.
  Lemma TI_step s l : TI s -> TI (tstep iv lim s l).
  Proof.
    intros I. destruct l as [d|i|i|i| |e]; cbn [tstep]; [| | | | |now apply TI_run]; destruct I as [Ok La Ru Op Pc]; unfold pcok in *.
    - destruct (Z.leb_spec 0 d); constructor; unfold pcok; fin.
      + destruct (t_th s) as [|p|]; auto. destruct p; auto. destruct Op as (x & ? & ?). exists x. split; auto. lia.
      + destruct (t_th s) as [|p|]; auto. destruct p; auto; try lia; intros b E; specialize (Pc b E); lia.
    - destruct (dget (t_calls s) i); constructor; unfold pcok; fin.
      destruct (t_th s) as [|p|]; auto; destruct p; auto; discriminate.
    - destruct (dget (t_calls s) i) as [[|]|]; [|constructor; auto|constructor; auto].
      destruct (t_th s) as [|p|] eqn:Th; constructor; unfold pcok; fin.
    - destruct (dget (t_calls s) i) as [[|]|]; [constructor; auto| |constructor; auto].
      destruct (t_th s) as [|p|] eqn:Th; constructor; unfold pcok; fin.
    - constructor; unfold pcok; fin.
  Qed.
  Lemma TI_trun ls : forall s, TI s -> TI (trun iv lim s ls).
  Proof. induction ls as [|l ls IH]; cbn; auto. intros s I. apply IH. now apply TI_step. Qed.

  (** *** spacing *)
  Lemma begins_cons e l : begins (e :: l) = (if is_begin e then 1 else 0) + begins l.
  Proof. unfold begins. cbn. destruct (is_begin e); cbn [List.length]; lia. Qed.
  Lemma begins_nil : begins [] = 0.
  Proof. reflexivity. Qed.
  Lemma begins_nonneg l : 0 <= begins l.
  Proof. unfold begins. lia. Qed.
  Lemma none_cons f e l : none_of f (e :: l) -> f e = false /\ none_of f l.
  Proof. intros H. split; [apply H; now left|]. intros x Hx. apply H. now right. Qed.
  Lemma none_app f l1 l2 : none_of f (l1 ++ l2) -> none_of f l1 /\ none_of f l2.
  Proof. intros H. split; intros x Hx; apply H, in_or_app; auto. Qed.

  Lemma spaced_from l2 : forall g d b2 l3, g_base g = Some d -> none_of is_start l2 -> okfrom g (l2 ++ EBegin b2 :: l3) ->
    (g_open g = None -> d + (begins l2 + 1) * iv <= b2) /\ (g_open g = Some d -> d + begins l2 * iv <= b2).
  Proof.
    induction l2 as [|e l2 IH]; intros g d b2 l3 B N O.
    - cbn in O. destruct O as [(x & Ox & Lx) _]. rewrite begins_nil. split; intros E; [congruence|]. assert (x = d) by congruence. lia.
    - cbn [app] in O. destruct O as [C O]. apply none_cons in N. destruct N as [Ne N].
      rewrite begins_cons. destruct e; cbn [is_begin]; try discriminate Ne; cbn [gstep cond] in *.
      + refine (IH _ d b2 l3 _ N O); exact B.
      + refine (IH _ d b2 l3 _ N O); exact B.
      + destruct C as (Co & _ & Cb). destruct (fun B' => IH _ t b2 l3 B' N O) as [_ H]; [reflexivity|]. specialize (H eq_refl). specialize (Cb d B).
        split; intros E; [lia|congruence].
      + destruct C as (x & Ox & Lx). destruct (fun B' => IH _ d b2 l3 B' N O) as [H _]; [exact B|]. specialize (H eq_refl). split; intros E; [congruence|lia].
      + refine (IH _ d b2 l3 _ N O); exact B.
      + refine (IH _ d b2 l3 _ N O); exact B.
  Qed.
  Lemma opened l1 : forall g d b l, g_base g = Some d -> g_open g = Some d -> none_of is_start l1 -> none_of is_begin l1 ->
    okfrom g (l1 ++ EBegin b :: l) -> d <= b /\ exists g', g_base g' = Some d /\ g_open g' = None /\ okfrom g' l.
  Proof.
    induction l1 as [|e l1 IH]; intros g d b l B Og N1 N2 O.
    - cbn in O. destruct O as [(x & Ox & Lx) O]. assert (x = d) by congruence. subst x. split; auto.
      eexists. split; [|split; [|exact O]]; auto.
    - cbn [app] in O. destruct O as [C O]. apply none_cons in N1, N2. destruct N1 as [M1 N1], N2 as [M2 N2].
      destruct e; try discriminate M1; try discriminate M2; cbn [gstep cond] in *.
      + refine (IH _ d b l _ _ N1 N2 O); assumption.
      + refine (IH _ d b l _ _ N1 N2 O); assumption.
      + destruct C as [C _]. congruence.
      + refine (IH _ d b l _ _ N1 N2 O); assumption.
      + refine (IH _ d b l _ _ N1 N2 O); assumption.
  Qed.
  Theorem spacing ls l0 d l1 b l2 b2 l3 :
    t_log (trun iv lim timer0 ls) = l0 ++ EDecide d :: l1 ++ EBegin b :: l2 ++ EBegin b2 :: l3 ->
    none_of is_begin l1 -> none_of is_start (l1 ++ l2) ->
    d <= b /\ d + (begins l2 + 1) * iv <= b2.
  Proof.
    intros E N1 N. apply none_app in N. destruct N as [N2 N3].
    destruct (TI_trun ls timer0 TI0) as [Ok _ _ _ _]. rewrite E in Ok. apply ok_app in Ok. destruct Ok as [_ Ok].
    cbn [okfrom] in Ok. destruct Ok as [_ Ok].
    destruct (fun A B => opened l1 _ d b _ A B N2 N1 Ok) as (L & g' & B & O & K); [reflexivity|reflexivity|]. split; auto.
    destruct (spaced_from l2 g' d b2 l3 B N3 K) as [H _]. auto.
  Qed.

  (** every call was decided *)
  Theorem begin_decided ls l b l3 : t_log (trun iv lim timer0 ls) = l ++ EBegin b :: l3 ->
    exists l0 d l1, l = l0 ++ EDecide d :: l1 /\ none_of is_begin l1 /\ d <= b.
  Proof.
    intros E. destruct (TI_trun ls timer0 TI0) as [Ok _ _ _ _]. rewrite E in Ok. apply ok_app in Ok. destruct Ok as [Ok1 Ok2].
    cbn [okfrom cond] in Ok2. destruct Ok2 as [(d & Od & Ld) _]. fold (gof l) in Od. clear E Ok1.
    revert Od. induction l as [|e l IH] using rev_ind; [discriminate|]. rewrite gof_app. cbn [fold_left].
    destruct e; cbn [gstep g_open]; intros Od;
      try (destruct (IH Od) as (l0 & d' & l1 & -> & N & L'); eexists l0, d', (l1 ++ [_]);
           split; [rewrite <- app_assoc; reflexivity|]; split; [|exact L']; intros x Hx; apply in_app_or in Hx; destruct Hx as [Hx|[<-|[]]]; [now apply N|reflexivity]).
    - injection Od as ->. exists l, d, []. split; auto. split; auto. easy.
    - discriminate.
  Qed.

  (** *** stop *)
  Lemma stopped_from l : forall g, g_run g = false -> none_of is_start l -> okfrom g l ->
    none_of is_decide l /\ begins l <= match g_open g with Some _ => 1 | None => 0 end.
  Proof.
    induction l as [|e l IH]; intros g R N O.
    - split; [easy|]. rewrite begins_nil. destruct (g_open g); lia.
    - cbn in O. destruct O as [C O]. apply none_cons in N. destruct N as [Ne N]. rewrite begins_cons.
      assert (H : e <> EStart -> (forall t, e <> EDecide t) -> g_run (gstep g e) = false) by (destruct e; cbn; auto; try easy; intros _ K; now destruct (K t)).
      destruct e; try discriminate Ne; cbn [is_begin cond] in *.
      1,2,5,6: destruct (IH _ (H ltac:(discriminate) ltac:(discriminate)) N O) as [A B]; cbn [gstep g_open] in B;
        (split; [|lia]); intros x [<-|Hx]; [reflexivity|now apply A].
      + destruct C as (_ & C & _). congruence.
      + destruct C as (d & Od & _). rewrite Od. destruct (IH _ (H ltac:(discriminate) ltac:(discriminate)) N O) as [A B]. cbn [gstep g_open] in B.
        split; [|lia]. intros x [<-|Hx]; [reflexivity|now apply A].
  Qed.
  Theorem after_stop ls l1 l2 : t_log (trun iv lim timer0 ls) = l1 ++ EStop :: l2 -> none_of is_start l2 ->
    none_of is_decide l2 /\ begins l2 <= 1.
  Proof.
    intros E N. destruct (TI_trun ls timer0 TI0) as [Ok _ _ _ _]. rewrite E in Ok. apply ok_app in Ok. destruct Ok as [_ Ok].
    cbn [okfrom] in Ok. destruct Ok as [_ Ok]. apply stopped_from in Ok; auto. destruct Ok as [A B]. split; auto.
    destruct (g_open _); lia.
  Qed.
  (** none at all if the thread was not just about to call *)
  Theorem after_stop_clean ls ls' : t_th (trun iv lim timer0 ls) <> At PBegin ->
    forall l2, t_log (trun iv lim timer0 (ls ++ TStop :: ls')) = t_log (trun iv lim timer0 ls) ++ EStop :: l2 -> none_of is_start l2 ->
    begins l2 = 0.
  Proof.
    intros Np l2 E N. destruct (TI_trun ls timer0 TI0) as [_ _ _ Op _]. pose proof (TI_trun (ls ++ TStop :: ls') timer0 TI0) as [Ok _ _ _ _].
    rewrite E in Ok. apply ok_app in Ok. destruct Ok as [_ Ok].
    cbn [okfrom] in Ok. destruct Ok as [_ Ok]. apply stopped_from in Ok; auto. destruct Ok as [_ B]. cbn [gstep g_open] in B.
    fold (gof (t_log (trun iv lim timer0 ls))) in B.
    pose proof (begins_nonneg l2).
    enough (g_open (gof (t_log (trun iv lim timer0 ls))) = None) as O by (rewrite O in B; lia).
    destruct (t_th _) as [|p|]; auto. destruct p; auto. congruence.
  Qed.

  (** *** limit *)
  Variable m : Z.
  Hypothesis Lm : lim = Some m.
  Definition KI (s : timer) : Prop :=
    let b := g_since (gof (t_log s)) in
    match t_th s with
    | NotYet => b = 0 /\ t_count s = 0
    | Dead | At PFin => b <= Z.max 1 m
    | At PIn | At PCount => b <= t_count s + 1 /\ t_count s < Z.max 1 m
    | At _ => b <= t_count s /\ t_count s < Z.max 1 m
    end.
  Ltac kfin := cbn [t_now t_running t_last t_count t_th t_calls t_log at_pc log] in *; rewrite ?app_nil_r, ?gof_app; cbn [fold_left gstep g_since]; try lia; auto.
  Lemma KI_step s l : KI s -> KI (tstep iv lim s l).
  Proof.
    unfold KI. intros K. destruct l as [d|i|i|i| |e]; cbn [tstep].
    - destruct (0 <=? d); kfin.
    - destruct (dget (t_calls s) i); kfin. destruct (t_th s) as [|p|]; [auto|destruct p; lia|lia].
    - destruct (dget (t_calls s) i) as [[|]|]; auto. destruct (t_th s) as [|p|] eqn:Th; kfin; now rewrite Th.
    - destruct (dget (t_calls s) i) as [[|]|]; auto. destruct (t_th s) as [|p|] eqn:Th; kfin; rewrite ?Th; auto.
    - kfin.
    - unfold run_step. destruct (t_th s) as [|p|] eqn:Th; [now rewrite Th| |now rewrite Th].
      destruct p.
      + destruct e; kfin.
      + destruct (t_last s); kfin.
      + kfin.
      + destruct (t_last s); kfin. destruct (0 <? _); kfin.
      + kfin.
      + destruct (u <=? t_now s); kfin. now rewrite Th.
      + destruct (t_running s); kfin.
      + kfin.
      + destruct e; kfin.
      + kfin. rewrite Lm. destruct (Z.leb_spec m (t_count s + 1)); lia.
      + kfin.
  Qed.
  Lemma since_begins l : forall g, none_of is_start l -> g_since (fold_left gstep l g) = g_since g + begins l.
  Proof.
    induction l as [|e l IH]; intros g N; cbn [fold_left]; [rewrite begins_nil; lia|].
    apply none_cons in N. destruct N as [Ne N]. rewrite (IH _ N), begins_cons.
    destruct e; try discriminate Ne; cbn [gstep g_since is_begin]; lia.
  Qed.
  Theorem limited ls l1 l2 : t_log (trun iv lim timer0 ls) = l1 ++ EStart :: l2 -> none_of is_start l2 -> begins l2 <= Z.max 1 m.
  Proof.
    intros E N. assert (K : KI (trun iv lim timer0 ls)).
    { assert (A : forall ls s, KI s -> KI (trun iv lim s ls)).
      { clear E N ls. induction ls as [|l ls IH]; cbn; auto. intros s K. apply IH. now apply KI_step. }
      apply A. cbn. auto. }
    unfold KI in K. rewrite E, gof_app in K. cbn [fold_left] in K. rewrite since_begins in K by auto.
    cbn [gstep g_since] in K. destruct (t_th _) as [|p|]; [lia|destruct p; lia|lia].
  Qed.
End T.
