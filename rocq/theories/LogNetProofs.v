(** Lemmas for C126. *)
From Verif Require Import Py LogTreeModel LogTreeSpec LogTreeProofs LogNetModel LogNetSpec.

Definition snd_kind (g : gst) (h : nat) : bool := match kind_of g h with HSender => true | _ => false end.
Definition to_sender (g : gst) (x : dest * lrec) : bool :=
  match fst x with To h => match kind_of g h with HSender => true | _ => false end | ToStderr => false end.

Lemma filter_le {A} (f g : A -> bool) l : (List.length (filter f (filter g l)) <= List.length (filter f l))%nat.
Proof. induction l as [|x l IH]; cbn; auto. destruct (g x); cbn; destruct (f x); cbn; lia. Qed.
Lemma deliver_le f m hs : (List.length (filter f (fst (deliver m hs))) <= List.length (filter f hs))%nat.
Proof.
  induction hs as [|h hs IH]; cbn; auto. destruct (match m with Some (m0, _) => Nat.eqb m0 h | None => false end); cbn; [lia|].
  destruct (deliver m hs) as [l e]. cbn in *. destruct (f h); cbn; lia.
Qed.

Lemma root_senders g : fits g -> (List.length (filter (snd_kind g) (g_hand (g_tree g []))) <= 1)%nat.
Proof.
  intros (A & B & C & D & E & F). specialize (B []).
  assert (U : forall x y, snd_kind g x = true -> snd_kind g y = true -> x = y).
  { unfold snd_kind. intros x y Hx Hy. destruct (kind_of g x) eqn:Kx; try discriminate. destruct (kind_of g y) eqn:Ky; try discriminate.
    destruct (D x Kx) as [X|[a X]], (D y Ky) as [Y|[b Y]]; try congruence.
    - rewrite X in E. destruct E as (_ & _ & E). congruence.
    - rewrite Y in E. destruct E as (_ & _ & E). congruence. }
  revert B. generalize (g_hand (g_tree g [])). induction l as [|x l IH]; intros N; cbn; auto. inversion N; subst.
  destruct (snd_kind g x) eqn:K; [|auto]. cbn.
  assert (Z0 : filter (snd_kind g) l = []).
  { destruct (filter (snd_kind g) l) as [|y r] eqn:Ef; auto. exfalso.
    assert (Hy : In y (filter (snd_kind g) l)) by (rewrite Ef; now left). apply filter_In in Hy. destruct Hy as [Hy Ky].
    assert (x = y) by auto. subst. contradiction. }
  rewrite Z0. cbn. lia.
Qed.
Lemma reached_senders g n : fits g -> (List.length (filter (snd_kind g) (reached (g_tree g) n)) <= 1)%nat.
Proof.
  intros G. induction n as [|x n IH].
  - rewrite reached_root. now apply root_senders.
  - cbn [reached]. rewrite filter_app, app_length.
    assert (Z0 : filter (snd_kind g) (g_hand (g_tree g (x :: n))) = []).
    { destruct G as (_ & _ & C & _). assert (H : forall h, In h (g_hand (g_tree g (x :: n))) -> snd_kind g h = false).
      { intros h Hh. destruct (C (x :: n) h ltac:(discriminate) Hh) as [l K]. unfold snd_kind. now rewrite K. }
      clear - H. induction (g_hand (g_tree g (x :: n))) as [|h l IH]; auto. cbn. rewrite (H h) by now left. apply IH. intros h' H'. apply H. now right. }
    rewrite Z0. cbn. destruct (g_prop (g_tree g (x :: n))); cbn; [exact IH|lia].
Qed.

Lemma map_filter_to g r hs : filter (to_sender g) (map (fun h => (To h, r)) hs) = map (fun h => (To h, r)) (filter (snd_kind g) hs).
Proof. induction hs as [|h hs IH]; auto. cbn [filter map].
  change (to_sender g (To h, r)) with (snd_kind g h). destruct (snd_kind g h); cbn [map]; rewrite IH; reflexivity. Qed.

Lemma news_handle g n r : skipn (List.length (g_out g)) (g_out (fst (handle g n r))) =
  match reached (g_tree g) n with
  | [] => if 30 <=? lr_level r then [(ToStderr, r)] else []
  | _ => map (fun h => (To h, r)) (fst (deliver (g_making g) (takers g n (lr_level r))))
  end.
Proof. rewrite handle_out, skipn_app, skipn_all, Nat.sub_diag. reflexivity. Qed.

Lemma sends_handle g n r : fits g ->
  sends g (fst (handle g n r)) = [] \/ exists a, g_addr g = Some a /\ sends g (fst (handle g n r)) = [(a, r)].
Proof.
  intros G. unfold sends. destruct (g_addr g) as [a|]; [|auto]. fold (to_sender g). rewrite news_handle.
  change (fun x : dest * lrec => match fst x with To h => match kind_of g h with HSender => true | _ => false end | ToStderr => false end) with (to_sender g).
  destruct (reached (g_tree g) n) as [|h0 hs0] eqn:R.
  - left. destruct (30 <=? lr_level r); reflexivity.
  - rewrite map_filter_to.
    assert (L : (List.length (filter (snd_kind g) (fst (deliver (g_making g) (takers g n (lr_level r))))) <= 1)%nat).
    { eapply Nat.le_trans; [apply deliver_le|]. unfold takers. eapply Nat.le_trans; [apply filter_le|]. apply reached_senders, G. }
    destruct (filter (snd_kind g) (fst (deliver (g_making g) (takers g n (lr_level r))))) as [|h [|h' t]]; cbn in *; [auto| |lia].
    right. eauto.
Qed.
Lemma sends_exact g n r a : fits g -> forwards g a -> propagates (g_tree g) n [] -> 0 <= lr_level r ->
  sends g (fst (handle g n r)) = [(a, r)].
Proof.
  intros G (M & S & Ad) P L. destruct (sends_handle g n r G) as [E|(b & Eb & E)]; [|congruence]. exfalso.
  unfold sends in E. rewrite Ad in E. rewrite news_handle in E.
  change (fun x : dest * lrec => match fst x with To h => match kind_of g h with HSender => true | _ => false end | ToStderr => false end) with (to_sender g) in E.
  destruct (reached_split _ _ _ P) as (pre & R & _). rewrite reached_root in R.
  destruct G as (_ & _ & _ & _ & E1 & _). destruct (g_sender g) as [h|]; [|congruence]. destruct E1 as (K & I & _).
  assert (Ih : In h (reached (g_tree g) n)) by (rewrite R; apply in_or_app; auto).
  destruct (reached (g_tree g) n) as [|h0 hs0] eqn:R0; [contradiction|]. rewrite M, deliver_none in E. cbn [fst] in E.
  rewrite map_filter_to in E. apply map_eq_nil, map_eq_nil in E.
  assert (X : In h (filter (snd_kind g) (takers g n (lr_level r)))).
  { apply filter_In. split; [|unfold snd_kind; now rewrite K]. unfold takers. apply filter_In. split; [rewrite R0; exact Ih|].
    rewrite K. cbn. now apply Z.leb_le. }
  rewrite E in X. contradiction.
Qed.
Lemma sends_refl g : sends g g = [].
Proof. unfold sends. destruct (g_addr g); auto. rewrite skipn_all. reflexivity. Qed.
Lemma sends_same g g' : g_out g' = g_out g -> sends g g' = [].
Proof. intros E. unfold sends. rewrite E. destruct (g_addr g); auto. rewrite skipn_all. reflexivity. Qed.
Lemma sends_log g n l i : fits g ->
  sends g (fst (log g n l i)) = [] \/ exists a, g_addr g = Some a /\ sends g (fst (log g n l i)) = [(a, mkR n l i)].
Proof. intros G. unfold log. destruct (effective (g_tree g) n <=? l); [now apply sends_handle|left; apply sends_refl]. Qed.
Lemma sends_forward g r : fits g ->
  sends g (fst (forwarded g r)) = [] \/ exists a, g_addr g = Some a /\ sends g (fst (forwarded g r)) = [(a, r)].
Proof.
  intros G. unfold forwarded. destruct (g_server g); [|left; apply sends_refl].
  destruct (lr_level r <? effective (g_tree g) remote_logger); [left; apply sends_refl|now apply sends_handle].
Qed.
Lemma sends_step g o p : fits g -> (forall r, o <> GForward r) ->
  sends g (gstep g o) = [] \/
  exists a r, g_addr g = Some a /\ sends g (gstep g o) = [(a, r)] /\ logged_ids (NOp p o) = [lr_id r].
Proof.
  intros G N. destruct o; cbn [gstep]; try (left; apply sends_same; reflexivity).
  - left. apply sends_same. unfold basic_config, start_log_server, log_exceptions. destruct exceptions, start_server; cbn; auto; destruct (g_server g); reflexivity.
  - left. apply sends_same. unfold start_log_server. destruct (g_server g); reflexivity.
  - left. apply sends_same. unfold set_address_begin. destruct (g_sender g), (g_making g); reflexivity.
  - left. apply sends_same. unfold set_address_end. destruct (g_making g) as [[? ?]|]; reflexivity.
  - destruct (sends_log g n level id G) as [E|(a & Ea & E)]; [auto|]. right. exists a, (mkR n level id). auto.
  - exfalso. now apply (N r).
  - unfold ends_with. destruct u as [i|i|i]; [destruct (g_sys g)|destruct (g_thread g)|destruct (g_thread g)];
      cbn [fst log_hook]; try (left; apply sends_refl);
      (destruct (sends_log g [] 30 i G) as [E|(a & Ea & E)]; [auto|]; right; exists a, (mkR [] 30 i); auto).
Qed.

Section N.
  Variable own : nat -> string.
  Variable rank : string -> nat.

  Definition addr_ok (p : nat) (g : gst) : Prop :=
    (forall a, g_addr g = Some a -> (rank a < rank (own p))%nat) /\
    (forall h a, g_making g = Some (h, a) -> (rank a < rank (own p))%nat).
  Lemma addr_quiet p g g' : quiet g g' -> addr_ok p g -> addr_ok p g'.
  Proof. intros (_ & _ & _ & _ & M & A & _) [H1 H2]. split; [rewrite A|rewrite M]; auto. Qed.
  Lemma addr_step p g o : (forall a, o = GSetAddr a -> (rank a < rank (own p))%nat) -> addr_ok p g -> addr_ok p (gstep g o).
  Proof.
    intros Ho G. pose proof G as [H1 H2]. destruct o; cbn [gstep]; try exact G.
    - unfold basic_config, start_log_server, log_exceptions. destruct exceptions, start_server; cbn; try destruct (g_server g); exact G.
    - unfold start_log_server. destruct (g_server g); exact G.
    - unfold set_address_begin. destruct (g_sender g); [|destruct (g_making g) eqn:M]; split; cbn; auto.
      + intros b [= <-]. auto.
      + intros b b' H. apply (H2 b b'). congruence.
      + intros b b' [= <- <-]. auto.
    - unfold set_address_end. destruct (g_making g) as [[h b]|] eqn:M; [|exact G]. split; cbn; [|discriminate]. intros b' [= <-]. eapply H2. reflexivity.
    - eapply addr_quiet; [apply quiet_log|exact G].
    - eapply addr_quiet; [apply quiet_forward|exact G].
    - eapply addr_quiet; [apply quiet_uncaught|exact G].
  Qed.

  Definition sane (s : net) : Prop := forall p, fits (n_proc s p) /\ addr_ok p (n_proc s p).
  Lemma sane0 : sane net0.
  Proof. intros p. split; [apply fits0|]. split; intros; discriminate. Qed.
  Lemma set_proc_get f p g q : set_proc f p g q = if Nat.eqb q p then g else f q.
  Proof. reflexivity. Qed.
  Lemma sane_set s p g d f l : sane s -> fits g -> addr_ok p g -> sane (mkNet (set_proc (n_proc s) p g) d f l).
  Proof. intros S G A q. cbn. rewrite set_proc_get. destruct (Nat.eqb_spec q p); [subst; auto|apply S]. Qed.
  Lemma sane_step s o : sane s -> (forall p a, o = NOp p (GSetAddr a) -> (rank a < rank (own p))%nat) -> sane (nstep own s o).
  Proof.
    intros S H. destruct o as [p o|i p]; cbn [nstep].
    - assert (K : sane (let g := n_proc s p in mkNet (set_proc (n_proc s) p (gstep g o)) (n_dead s) (n_fly s ++ sends g (gstep g o)) (n_got s))).
      { cbn zeta. apply sane_set; auto; [apply fits_step, S|apply addr_step; [|apply S]]. intros a ->. now apply H. }
      destruct o; auto.
    - destruct (nth_error (n_fly s) i) as [[a r]|]; auto. destruct (String.eqb (own p) a && g_server (n_proc s p) && negb (n_dead s p)); auto.
      destruct (forwarded (n_proc s p) r) as [g' e] eqn:F. pose proof (quiet_forward (n_proc s p) r) as Q. rewrite F in Q. cbn [fst] in Q.
      apply sane_set; auto; [eapply quiet_fits|eapply addr_quiet]; try exact Q; apply S.
  Qed.
  Lemma sane_run os : (forall p a, In (NOp p (GSetAddr a)) os -> (rank a < rank (own p))%nat) -> forall s, sane s -> sane (nrun own s os).
  Proof.
    induction os as [|o os IH]; intros H s S; cbn; auto. apply IH; [intros p a I; apply H; now right|].
    apply sane_step; auto. intros p a ->. apply H. now left.
  Qed.

  (** *** at most once *)
  Definition fid (x : string * lrec) : nat := lr_id (snd x).
  Definition gid (x : nat * lrec) : nat * nat := (fst x, lr_id (snd x)).
  Definition logged (os : list nop) (p i : nat) : Prop := exists o, In (NOp p o) os /\ In i (logged_ids (NOp p o)).
  Record inv (os : list nop) (s : net) : Prop := {
    v_sane : sane s;
    v_fly : NoDup (map fid (n_fly s));
    v_cross : forall a r q r', In (a, r) (n_fly s) -> In (q, r') (n_got s) -> lr_id r = lr_id r' -> (rank a < rank (own q))%nat;
    v_got : NoDup (map gid (n_got s));
    v_ufly : forall a r, In (a, r) (n_fly s) -> In (lr_id r) (flat_map logged_ids os);
    v_ugot : forall q r, In (q, r) (n_got s) -> In (lr_id r) (flat_map logged_ids os);
    v_ofly : forall a r p, In (a, r) (n_fly s) -> logged os p (lr_id r) -> (rank a < rank (own p))%nat;
    v_ogot : forall q r p, In (q, r) (n_got s) -> logged os p (lr_id r) -> (rank (own q) < rank (own p))%nat }.

  Lemma inv0 : inv [] net0.
  Proof.
    constructor; cbn; try (intros; contradiction); try constructor.
    - apply fits0.
    - split; intros; discriminate.
  Qed.
  Lemma logged_app os o p i : logged (os ++ [o]) p i -> logged os p i \/ exists o', o = NOp p o' /\ In i (logged_ids o).
  Proof.
    intros (o' & I & J). apply in_app_or in I. destruct I as [I|[I|[]]]; [left; exists o'; auto|]. right. exists o'. subst o. auto.
  Qed.
  Lemma logged_used os p i : logged os p i -> In i (flat_map logged_ids os).
  Proof. intros (o & I & J). apply in_flat_map. eauto. Qed.
  Lemma nodup_app_r {A} (l : list A) x : NoDup (l ++ [x]) -> ~ In x l.
  Proof. intros N I. apply NoDup_remove_2 in N. rewrite app_nil_r in N. contradiction. Qed.
  Lemma nth_split' {A} (l : list A) i x : nth_error l i = Some x -> exists l1 l2, l = l1 ++ x :: l2 /\ drop_nth i l = l1 ++ l2.
  Proof.
    revert i. induction l as [|y l IH]; intros [|i] H; try discriminate.
    - injection H as ->. exists [], l. auto.
    - destruct (IH i H) as (l1 & l2 & E & D). exists (y :: l1), l2. split; [now rewrite E|]. unfold drop_nth in *. cbn [firstn app]. change (skipn (S (S i)) (y :: l)) with (skipn (S i) l). now rewrite D.
  Qed.
  Lemma logged_len o : (List.length (logged_ids o) <= 1)%nat.
  Proof. destruct o as [p [| | | | | | | | | | |[| |]]|]; cbn; lia. Qed.

  Lemma inv_step os o s : inv os s -> (forall p a, o = NOp p (GSetAddr a) -> (rank a < rank (own p))%nat) ->
    NoDup (flat_map logged_ids (os ++ [o])) -> inv (os ++ [o]) (nstep own s o).
  Proof.
    intros V H ND. destruct V as [Sa Fl Cr Go Uf Ug Of Og].
    rewrite flat_map_app in ND. cbn [flat_map] in ND. rewrite app_nil_r in ND.
    assert (Mono : forall i, In i (flat_map logged_ids os) -> In i (flat_map logged_ids (os ++ [o])))
      by (intros i Hi; rewrite flat_map_app; apply in_or_app; auto).
    assert (Fresh : forall i, In i (logged_ids o) -> ~ In i (flat_map logged_ids os)).
    { intros i Hi. pose proof (logged_len o) as L. destruct (logged_ids o) as [|j [|k t]]; cbn in L; try lia; [contradiction|].
      destruct Hi as [->|[]]. now apply nodup_app_r in ND. }
    (* nothing new in flight *)
    assert (Same : inv (os ++ [o]) s).
    { constructor; eauto.
      - intros a r p I L. apply logged_app in L. destruct L as [L|(o' & -> & J)]; [eauto|]. exfalso. eapply Fresh; eauto.
      - intros q r p I L. apply logged_app in L. destruct L as [L|(o' & -> & J)]; [eauto|]. exfalso. eapply Fresh; eauto. }
    pose proof (sane_step s o Sa H) as Sa'.
    destruct o as [p o|i p]; cbn [nstep] in *.
    - assert (K : (forall r, o <> GForward r) -> inv (os ++ [NOp p o])
          (mkNet (set_proc (n_proc s) p (gstep (n_proc s p) o)) (n_dead s) (n_fly s ++ sends (n_proc s p) (gstep (n_proc s p) o)) (n_got s))).
      { intros Nf. assert (Sx : sane (mkNet (set_proc (n_proc s) p (gstep (n_proc s p) o)) (n_dead s) (n_fly s ++ sends (n_proc s p) (gstep (n_proc s p) o)) (n_got s))).
        { destruct o; try exact Sa'. exfalso. now apply (Nf r). }
        clear Sa'. destruct Same as [_ Fl' Cr' Go' Uf' Ug' Of' Og'].
        destruct (sends_step (n_proc s p) o p (proj1 (Sa p)) Nf) as [E|(a & r & Ea & E & Id)].
        - rewrite E, app_nil_r in *. constructor; cbn [n_proc n_fly n_got]; auto.
        - assert (Fr : ~ In (lr_id r) (flat_map logged_ids os)) by (apply Fresh; rewrite Id; now left).
          assert (Ra : (rank a < rank (own p))%nat) by (apply (proj2 (Sa p)); exact Ea).
          rewrite E in *. constructor; cbn [n_proc n_fly n_got]; auto.
          + rewrite map_app. cbn. apply nodup_snoc; auto. intros X. apply in_map_iff in X. destruct X as ([b r'] & X1 & X2). unfold fid in X1. cbn in X1.
            apply Fr. change (fid (a, r)) with (lr_id r) in X1. rewrite <- X1. eauto.
          + intros b r' q r'' I J Eq. apply in_app_or in I. destruct I as [I|[I|[]]]; [eauto|]. injection I as <- <-. exfalso. apply Fr. rewrite Eq. eauto.
          + intros b r' I. apply in_app_or in I. destruct I as [I|[I|[]]]; [eauto|]. injection I as <- <-. rewrite flat_map_app. apply in_or_app. right.
            cbn [flat_map]. rewrite Id. now left.
          + intros b r' p' I L. apply in_app_or in I. destruct I as [I|[I|[]]]; [eauto|]. injection I as <- <-.
            apply logged_app in L. destruct L as [L|(o' & [= <- <-] & J)]; [|exact Ra]. exfalso. apply Fr. eapply logged_used; eauto. }
      destruct o; try (apply K; discriminate). exact Same.
    - destruct (nth_error (n_fly s) i) as [[a r]|] eqn:Hn; [|exact Same].
      destruct (String.eqb (own p) a && g_server (n_proc s p) && negb (n_dead s p)) eqn:B; [|exact Same].
      apply andb_prop in B. destruct B as [B _]. apply andb_prop in B. destruct B as [B _]. apply String.eqb_eq in B. subst a.
      pose proof (sends_forward (n_proc s p) r (proj1 (Sa p))) as SF.
      destruct (forwarded (n_proc s p) r) as [g' e] eqn:F. cbn [fst] in SF.
      destruct (nth_split' _ _ _ Hn) as (l1 & l2 & Efl & Ed). rewrite Ed in *.
      assert (Sub : forall x, In x (l1 ++ l2) -> In x (n_fly s)) by (intros x X; rewrite Efl; apply in_app_or in X; apply in_or_app; destruct X; auto; right; now right).
      assert (Hin : In (own p, r) (n_fly s)) by (rewrite Efl; apply in_or_app; right; now left).
      destruct Same as [_ Fl' Cr' Go' Uf' Ug' Of' Og'].
      rewrite Efl, map_app in Fl'. cbn [map] in Fl'. pose proof (NoDup_remove_1 _ _ _ Fl') as Fl1. pose proof (NoDup_remove_2 _ _ _ Fl') as Fl2.
      rewrite <- map_app in Fl1, Fl2.
      assert (Other : forall b r', In (b, r') (l1 ++ l2) -> lr_id r' <> lr_id r).
      { intros b r' I Eq. apply Fl2. apply in_map_iff. exists (b, r'). split; auto. }
      assert (Gnew : NoDup (map gid (n_got s ++ [(p, r)]))).
      { rewrite map_app. cbn. apply nodup_snoc; auto. intros X. apply in_map_iff in X. destruct X as ([q r'] & X1 & X2). unfold gid in X1. cbn in X1.
        injection X1 as -> X1. pose proof (Cr' _ _ _ _ Hin X2 (eq_sym X1)). lia. }
      destruct SF as [SF|(a & Ea & SF)]; rewrite SF in *; rewrite ?app_nil_r in *.
      + constructor; cbn [n_proc n_fly n_got]; auto.
        * intros b r' q r'' I J Eq. apply in_app_or in J. destruct J as [J|[J|[]]]; [eauto|]. injection J as <- <-. exfalso. now apply (Other b r').
        * intros b r' I. eauto.
        * intros q r' I. apply in_app_or in I. destruct I as [I|[I|[]]]; [eauto|]. injection I as <- <-. eauto.
        * intros b r' p' I L. eauto.
        * intros q r' p' I L. apply in_app_or in I. destruct I as [I|[I|[]]]; [eauto|]. injection I as <- <-. eauto.
      + assert (Ra : (rank a < rank (own p))%nat) by (apply (proj2 (Sa p)); exact Ea).
        constructor; cbn [n_proc n_fly n_got]; auto.
        * rewrite map_app. cbn. apply nodup_snoc; auto.
        * intros b r' q r'' I J Eq. apply in_app_or in I, J. destruct I as [I|[I|[]]], J as [J|[J|[]]]; [eauto| | |].
          -- injection J as <- <-. exfalso. now apply (Other b r').
          -- injection I as <- <-. pose proof (Cr' _ _ _ _ Hin J Eq). lia.
          -- injection I as <- <-. injection J as <- <-. exact Ra.
        * intros b r' I. apply in_app_or in I. destruct I as [I|[I|[]]]; [eauto|]. injection I as <- <-. eauto.
        * intros q r' I. apply in_app_or in I. destruct I as [I|[I|[]]]; [eauto|]. injection I as <- <-. eauto.
        * intros b r' p' I L. apply in_app_or in I. destruct I as [I|[I|[]]]; [eauto|]. injection I as <- <-. pose proof (Of' _ _ _ Hin L). lia.
        * intros q r' p' I L. apply in_app_or in I. destruct I as [I|[I|[]]]; [eauto|]. injection I as <- <-. eauto.
  Qed.

  Lemma inv_run os : (forall p a, In (NOp p (GSetAddr a)) os -> (rank a < rank (own p))%nat) ->
    made_once os -> inv os (nrun own net0 os).
  Proof.
    induction os as [|o os IH] using rev_ind; intros H M; [apply inv0|].
    unfold nrun in *. rewrite fold_left_app. cbn [fold_left]. apply inv_step; auto.
    - apply IH; [intros p a I; apply H, in_or_app; auto|]. unfold made_once in *. rewrite flat_map_app in M.
      clear - M. induction (flat_map logged_ids os) as [|x l IH]; [constructor|]. cbn in M. inversion M; subst. constructor; auto. intros X. apply H1. apply in_or_app. auto.
    - intros p a ->. apply H, in_or_app. right. now left.
  Qed.

  Lemma nodup_count (l : list (nat * lrec)) p i : NoDup (map gid l) ->
    (List.length (filter (fun x => Nat.eqb (fst x) p && Nat.eqb (lr_id (snd x)) i) l) <= 1)%nat.
  Proof.
    induction l as [|x l IH]; cbn; intros N; auto. inversion N; subst.
    destruct (Nat.eqb (fst x) p && Nat.eqb (lr_id (snd x)) i) eqn:B; [|auto]. cbn.
    apply andb_prop in B. destruct B as [B1 B2]. apply Nat.eqb_eq in B1, B2.
    assert (Z0 : filter (fun x => Nat.eqb (fst x) p && Nat.eqb (lr_id (snd x)) i) l = []).
    { match goal with |- ?f = [] => destruct f as [|y t] eqn:Ef; auto end. exfalso.
      assert (Y : In y (y :: t)) by now left. rewrite <- Ef in Y. apply filter_In in Y. destruct Y as [Y1 Y2].
      apply andb_prop in Y2. destruct Y2 as [Y2 Y3]. apply Nat.eqb_eq in Y2, Y3. apply H1. apply in_map_iff. exists y. split; auto.
      unfold gid. congruence. }
    rewrite Z0. cbn. lia.
  Qed.

  Theorem ranked_once os : (forall p a, In (NOp p (GSetAddr a)) os -> (rank a < rank (own p))%nat) -> made_once os ->
    (forall p i, (received (nrun own net0 os) p i <= 1)%nat) /\
    (forall p n l i, In (NOp p (GLog n l i)) os -> received (nrun own net0 os) p i = 0%nat).
  Proof.
    intros H M. destruct (inv_run os H M) as [Sa Fl Cr Go Uf Ug Of Og]. split.
    - intros p i. unfold received. now apply nodup_count.
    - intros p n l i I. unfold received. match goal with |- List.length ?f = _ => destruct f as [|y t] eqn:Ef; auto end. exfalso.
      assert (Y : In y (y :: t)) by now left. rewrite <- Ef in Y. apply filter_In in Y. destruct Y as [Y1 Y2].
      apply andb_prop in Y2. destruct Y2 as [Y2 Y3]. apply Nat.eqb_eq in Y2, Y3. destruct y as [q r]. cbn in *. subst q i.
      assert (L : logged os p (lr_id r)) by (eexists; split; [exact I|cbn; auto]). pose proof (Og _ _ _ Y1 L). lia.
  Qed.

  (** *** forwarding ends *)
  Fixpoint weight (l : list (string * lrec)) : nat := match l with [] => 0%nat | x :: r => (S (rank (fst x)) + weight r)%nat end.
  Lemma weight_app l1 l2 : weight (l1 ++ l2) = (weight l1 + weight l2)%nat.
  Proof. induction l1 as [|x l1 IH]; cbn; auto. rewrite IH. lia. Qed.
  Lemma deliver_weight s o : sane s -> is_delivery o ->
    (List.length (n_got (nstep own s o)) + weight (n_fly (nstep own s o)) <= List.length (n_got s) + weight (n_fly s))%nat.
  Proof.
    intros Sa D. destruct o as [|i p]; [contradiction|]. cbn [nstep].
    destruct (nth_error (n_fly s) i) as [[a r]|] eqn:Hn; [|lia].
    destruct (String.eqb (own p) a && g_server (n_proc s p) && negb (n_dead s p)) eqn:B; [|lia].
    apply andb_prop in B. destruct B as [B _]. apply andb_prop in B. destruct B as [B _]. apply String.eqb_eq in B. subst a.
    pose proof (sends_forward (n_proc s p) r (proj1 (Sa p))) as SF. destruct (forwarded (n_proc s p) r) as [g' e]. cbn [fst] in SF. cbn [n_got n_fly].
    destruct (nth_split' _ _ _ Hn) as (l1 & l2 & Efl & Ed). rewrite Ed, Efl. rewrite !weight_app, app_length. cbn [weight fst List.length].
    destruct SF as [->|(a & Ea & ->)]; cbn [weight fst]; [lia|].
    pose proof (proj1 (proj2 (Sa p)) a Ea). lia.
  Qed.
  Theorem ranked_ends os ds : (forall p a, In (NOp p (GSetAddr a)) os -> (rank a < rank (own p))%nat) -> Forall is_delivery ds ->
    let s := nrun own net0 os in
    (List.length (n_got (nrun own s ds)) <= List.length (n_got s) + weight (n_fly s))%nat.
  Proof.
    intros H D s. assert (Sa : sane s) by (apply sane_run; [exact H|apply sane0]).
    clearbody s. revert s Sa. induction D as [|d ds Hd D IH]; intros s Sa; cbn; [lia|].
    assert (Sa' : sane (nstep own s d)) by (apply sane_step; auto; intros p a ->; contradiction).
    specialize (IH _ Sa'). pose proof (deliver_weight s d Sa Hd). unfold nrun in IH. lia.
  Qed.
End N.

(** *** the addresses are handed down *)
Section H.
  Variable own : nat -> string.
  Definition rk (N : nat) (a : string) : nat := match find (fun p => String.eqb (own p) a) (seq 0 N) with Some p => p | None => 0%nat end.
  Lemma rk_own N p : different own -> (p < N)%nat -> rk N (own p) = p.
  Proof.
    intros D L. unfold rk. destruct (find (fun q => String.eqb (own q) (own p)) (seq 0 N)) as [q|] eqn:F.
    - apply find_some in F. destruct F as [_ F]. apply String.eqb_eq in F. now apply D.
    - assert (X : String.eqb (own p) (own p) = false) by (apply (find_none _ _ F); apply in_seq; lia). rewrite String.eqb_refl in X. discriminate.
  Qed.
  Lemma inherited_prefix os1 os2 : inherited own (os1 ++ os2) -> inherited own os1.
  Proof. intros H l1 p a l2 ->. apply (H l1 p a (l2 ++ os2)). now rewrite <- app_assoc. Qed.
  Lemma inherited_rank N os : different own -> inherited own os ->
    (forall p a, In (NOp p (GSetAddr a)) os -> (p < N)%nat) ->
    forall p a, In (NOp p (GSetAddr a)) os -> (rk N a < rk N (own p))%nat.
  Proof.
    intros D. induction os as [|o os IH] using rev_ind; intros H B p a I; [contradiction|].
    assert (IH' : forall p a, In (NOp p (GSetAddr a)) os -> (rk N a < rk N (own p))%nat).
    { apply IH; [now apply inherited_prefix in H|]. intros q b J. apply (B q b), in_or_app. auto. }
    pose proof (B p a I) as Bp.
    apply in_app_or in I. destruct I as [I|[->|[]]]; [auto|].
    destruct (H os p a [] eq_refl) as (q & Lq & A). rewrite (rk_own N p D Bp).
    pose proof (sane_run own (rk N) os IH' net0 (sane0 own (rk N)) q) as [_ [S _]].
    unfold logger_address in A. destruct (g_server (n_proc (nrun own net0 os) q)).
    - injection A as <-. rewrite rk_own; auto. lia.
    - specialize (S a A). rewrite (rk_own N q D) in S by lia. lia.
  Qed.
  Definition top (os : list nop) : nat := S (fold_right Nat.max 0%nat (map (fun o => match o with NOp p _ => p | _ => 0%nat end) os)).
  Lemma top_spec os p o : In (NOp p o) os -> (p < top os)%nat.
  Proof.
    unfold top. induction os as [|x os IH]; intros I; [contradiction|]. cbn. destruct I as [->|I]; [lia|]. specialize (IH I). lia.
  Qed.
  Theorem inherited_once os : different own -> inherited own os -> made_once os ->
    (forall p i, (received (nrun own net0 os) p i <= 1)%nat) /\
    (forall p n l i, In (NOp p (GLog n l i)) os -> received (nrun own net0 os) p i = 0%nat).
  Proof.
    intros D H M. apply (ranked_once own (rk (top os))); auto. apply inherited_rank; auto. intros p a. apply top_spec.
  Qed.
  Theorem inherited_ends os : different own -> inherited own os ->
    exists k, forall ds, Forall is_delivery ds ->
      (List.length (n_got (nrun own (nrun own net0 os) ds)) <= k)%nat.
  Proof.
    intros D H. set (s := nrun own net0 os). exists (List.length (n_got s) + weight (rk (top os)) (n_fly s))%nat. intros ds F.
    apply (ranked_ends own (rk (top os)) os ds); auto. apply inherited_rank; auto. intros p a. apply top_spec.
  Qed.
End H.

(** *** nothing is lost *)
Section P.
  Variable own : nat -> string.
  Definition fitting (s : net) : Prop := forall p, fits (n_proc s p).
  Lemma fitting_step s o : fitting s -> fitting (nstep own s o).
  Proof.
    intros S. destruct o as [p o|i p]; cbn [nstep].
    - assert (K : fitting (let g := n_proc s p in mkNet (set_proc (n_proc s) p (gstep g o)) (n_dead s) (n_fly s ++ sends g (gstep g o)) (n_got s))).
      { intros q. cbn. rewrite set_proc_get. destruct (Nat.eqb q p); [apply fits_step|]; apply S. }
      destruct o; auto.
    - destruct (nth_error (n_fly s) i) as [[a r]|]; auto. destruct (String.eqb (own p) a && g_server (n_proc s p) && negb (n_dead s p)); auto.
      destruct (forwarded (n_proc s p) r) as [g' e] eqn:F. intros q. cbn. rewrite set_proc_get. destruct (Nat.eqb q p); [|apply S].
      pose proof (quiet_forward (n_proc s p) r) as Q. rewrite F in Q. eapply quiet_fits; [exact Q|apply S].
  Qed.
  Lemma fitting_run os : forall s, fitting s -> fitting (nrun own s os).
  Proof. induction os as [|o os IH]; intros s S; cbn; auto. apply IH. now apply fitting_step. Qed.
  Lemma fitting0 : fitting net0.
  Proof. intros p. apply fits0. Qed.

  Definition on_its_way (s : net) (a : string) (r : lrec) : Prop :=
    In (a, r) (n_fly s) \/ exists q, own q = a /\ In (q, r) (n_got s).
  Lemma way_step s o a r : on_its_way s a r -> on_its_way (nstep own s o) a r.
  Proof.
    intros W. destruct o as [p o|i p]; cbn [nstep].
    - assert (K : on_its_way (let g := n_proc s p in mkNet (set_proc (n_proc s) p (gstep g o)) (n_dead s) (n_fly s ++ sends g (gstep g o)) (n_got s)) a r).
      { destruct W as [W|W]; [left; cbn; apply in_or_app; auto|right; exact W]. }
      destruct o; auto.
    - destruct (nth_error (n_fly s) i) as [[b r0]|] eqn:Hn; auto. destruct (String.eqb (own p) b && g_server (n_proc s p) && negb (n_dead s p)) eqn:B; auto.
      apply andb_prop in B. destruct B as [B _]. apply andb_prop in B. destruct B as [B _]. apply String.eqb_eq in B. subst b.
      destruct (forwarded (n_proc s p) r0) as [g' e]. destruct (nth_split' _ _ _ Hn) as (l1 & l2 & Efl & Ed).
      destruct W as [W|(q & Eq & W)].
      + rewrite Efl in W. apply in_app_or in W. destruct W as [W|[W|W]].
        * left. cbn. rewrite Ed. apply in_or_app. left. apply in_or_app. auto.
        * injection W as <- <-. right. exists p. split; auto. cbn. apply in_or_app. right. now left.
        * left. cbn. rewrite Ed. apply in_or_app. left. apply in_or_app. auto.
      + right. exists q. split; auto. cbn. apply in_or_app. auto.
  Qed.
  Lemma way_run os a r : forall s, on_its_way s a r -> on_its_way (nrun own s os) a r.
  Proof. induction os as [|o os IH]; intros s W; cbn; auto. apply IH. now apply way_step. Qed.

  Theorem passed_on os1 p n level id a os2 : let g := n_proc (nrun own net0 os1) p in
    forwards g a -> passes g n level -> 0 <= level ->
    let s' := nrun own net0 (os1 ++ NOp p (GLog n level id) :: os2) in
    In (a, mkR n level id) (n_fly s') \/ exists q, own q = a /\ In (q, mkR n level id) (n_got s').
  Proof.
    intros g F ((l & L & Hl) & P) Lv. cbn zeta. unfold nrun. rewrite fold_left_app. cbn [fold_left]. apply way_run.
    left. cbn [nstep n_fly]. apply in_or_app. right. fold (nrun own net0 os1). fold g. cbn [gstep]. unfold log.
    rewrite (effective_level _ _ _ L). apply Z.leb_le in Hl. rewrite Hl.
    rewrite (sends_exact g n (mkR n level id) a); auto; [now left|]. apply fitting_run, fitting0.
  Qed.
  Theorem passed_on_again os1 i q r a os2 : let s := nrun own net0 os1 in let g := n_proc s q in
    n_got (nstep own s (NDeliver i q)) = n_got s ++ [(q, r)] ->
    forwards g a -> passes g server_logger (lr_level r) -> 0 <= lr_level r ->
    let s' := nrun own net0 (os1 ++ NDeliver i q :: os2) in
    In (a, r) (n_fly s') \/ exists q', own q' = a /\ In (q', r) (n_got s').
  Proof.
    intros s g E F ((l & L & Hl) & P) Lv. cbn zeta. unfold nrun. rewrite fold_left_app. cbn [fold_left]. apply way_run.
    left. fold (nrun own net0 os1). fold s. cbn [nstep] in *.
    assert (X : forall (t : list (nat * lrec)) y, t = t ++ [y] -> False).
    { intros t y H. apply (f_equal (@List.length _)) in H. rewrite app_length in H. cbn in H. lia. }
    destruct (nth_error (n_fly s) i) as [[b r0]|]; [|exfalso; eapply X; exact E].
    destruct (String.eqb (own q) b && g_server (n_proc s q) && negb (n_dead s q)) eqn:B; [|exfalso; eapply X; exact E].
    apply andb_prop in B. destruct B as [B _]. apply andb_prop in B. destruct B as [_ B]. fold g in B, E |- *.
    destruct (forwarded g r0) as [g' e] eqn:Fw. cbn [n_got] in E. apply app_inv_head in E. injection E as ->. cbn [n_fly].
    apply in_or_app. right. unfold forwarded in Fw. rewrite B in Fw. change remote_logger with server_logger in Fw. rewrite (effective_level _ _ _ L) in Fw.
    assert (Hlt : (lr_level r <? l) = false) by (apply Z.ltb_ge; lia). rewrite Hlt in Fw.
    replace g' with (fst (handle g server_logger r)) by now rewrite Fw.
    rewrite (sends_exact g server_logger r a); auto; [now left|]. apply fitting_run, fitting0.
  Qed.

  (** *** a process that forwards to itself *)
  Theorem loops os p r i : let s := nrun own net0 os in let g := n_proc s p in
    g_server g = true -> n_dead s p = false -> forwards g (own p) -> passes g server_logger (lr_level r) -> 0 <= lr_level r ->
    nth_error (n_fly s) i = Some (own p, r) ->
    forall k, exists ds, Forall is_delivery ds /\ let s' := nrun own s ds in
      In (own p, r) (n_fly s') /\ received s' p (lr_id r) = (received s p (lr_id r) + k)%nat.
  Proof.
    intros s g. assert (S : fitting s) by (apply fitting_run, fitting0). subst g. clearbody s. clear os.
    intros Se De Fo Pa Lv Hn k. revert s i S Se De Fo Pa Hn. induction k as [|k IH]; intros s i S Se De Fo Pa Hn.
    - exists []. split; [constructor|]. cbn. split; [eapply nth_error_In; eauto|lia].
    - pose proof Pa as ((l & L & Hl) & P).
      assert (Fw : forwarded (n_proc s p) r = handle (n_proc s p) server_logger r).
      { unfold forwarded. rewrite Se. change remote_logger with server_logger. rewrite (effective_level _ _ _ L).
        assert (Hlt : (lr_level r <? l) = false) by (apply Z.ltb_ge; lia). now rewrite Hlt. }
      pose proof (sends_exact (n_proc s p) server_logger r (own p) (S p) Fo P Lv) as Ex.
      assert (Ok' : snd (handle (n_proc s p) server_logger r) = Ok tt).
      { unfold handle. destruct (reached (g_tree (n_proc s p)) server_logger); auto. destruct Fo as (-> & _). rewrite deliver_none. reflexivity. }
      pose proof (quiet_handle (n_proc s p) server_logger r) as (Q1 & Q2 & Q3 & Q4 & Q5 & Q6 & _).
      set (s1 := nstep own s (NDeliver i p)).
      assert (E1 : s1 = mkNet (set_proc (n_proc s) p (fst (handle (n_proc s p) server_logger r))) (n_dead s)
                         (drop_nth i (n_fly s) ++ [(own p, r)]) (n_got s ++ [(p, r)])).
      { unfold s1. cbn [nstep]. rewrite Hn, String.eqb_refl, Se, De. cbn [andb negb]. rewrite Fw.
        destruct (handle (n_proc s p) server_logger r) as [g' e]. cbn [fst snd] in *. rewrite Ex, Ok'. reflexivity. }
      assert (S1 : fitting s1) by (apply fitting_step, S).
      assert (G1 : n_proc s1 p = fst (handle (n_proc s p) server_logger r)) by (rewrite E1; cbn; now rewrite set_proc_get, Nat.eqb_refl).
      destruct (IH s1 (List.length (drop_nth i (n_fly s))) S1) as (ds & Fd & I' & R').
      + rewrite G1, Q3. exact Se.
      + rewrite E1. exact De.
      + rewrite G1. destruct Fo as (F1 & F2 & F3). split; [|split]; congruence.
      + rewrite G1. destruct Pa as (Pa1 & Pa2). unfold passes. rewrite Q1. split; auto.
      + rewrite E1. cbn. rewrite nth_error_app2, Nat.sub_diag by lia. reflexivity.
      + exists (NDeliver i p :: ds). split; [constructor; [exact I|exact Fd]|]. unfold nrun. cbn [fold_left]. fold s1. fold (nrun own s1 ds).
        split; [exact I'|]. rewrite R'. rewrite E1. unfold received. cbn [n_got]. rewrite filter_app, app_length. cbn [filter fst snd]. rewrite !Nat.eqb_refl. cbn. lia.
  Qed.
End P.
