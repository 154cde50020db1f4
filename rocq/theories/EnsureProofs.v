(** Lemmas about connecting. *)
From Verif Require Import Py ObjTableModel SerModel SerSpec FrameModel ServerModel ClientModel WireSpec ServerProofs ClientProofs
  RpcSpec RpcInv RpcInv4 WaitModel WaitProofs ConnProofs EnsureModel EnsureSpec.

Lemma send_ping V k k1 m r : send V k "ping" None "auto" Async = (k1, m, r) ->
  (exists e, r = Err e /\ k1 = k /\ c_disc k = true) \/
  (exists e, r = Err e /\ same_conf k k1 /\ c_open k = false) \/
  (c_disc k = false /\ r = Ok (Some (c_next k)) /\ same_conf k k1 /\ c_done k1 = c_done k /\ c_next k1 = c_next k + 1 /\
   dget (c_futs k1) (c_next k) = Some false).
Proof.
  unfold send. destruct (c_disc k) eqn:D.
  { intros [= <- _ <-]. left. eauto. }
  cbn [set_next c_open c_ser c_futs]. destruct (c_open k) eqn:O.
  - intros [= <- _ <-]. right; right. repeat split; auto. cbn. apply dget_dset_same.
  - intros [= <- _ <-]. right; left. eexists. repeat split; auto.
Qed.

Lemma recv_other V k p k' x rid v : client_recv V k p = (k', x) -> ~ answer_for V k p rid ->
  finished k' rid (Ok v) -> finished k rid (Ok v).
Proof.
  unfold client_recv. intros R N F. destruct (loads V (c_ser k) (c_local k) (c_st k) p) as [w|] eqn:L; [|congruence].
  revert R. unfold process_msg. destruct w; try congruence.
  destruct (field d "action") as [a|]; [|congruence]. destruct a; try congruence.
  destruct (String.eqb s "return").
  - destruct (field d "req_id") as [q|] eqn:Fq; [|congruence]. destruct q; try congruence.
    destruct (dget (c_futs k) z) as [b|]; [|congruence].
    assert (Z : z <> rid).
    { intros ->. apply N. exists d. split; [exact L|]. unfold field in Fq. destruct (kget d (VStr "req_id")); congruence. }
    assert (C : forall o, k' = complete (set_futs k (ddel (c_futs k) z)) z b o -> finished k rid (Ok v)).
    { intros o ->. apply complete_done in F. destruct F as [[E _]|[F|[E _]]]; [congruence|exact F|discriminate]. }
    destruct (field d "error") as [er|]; [|intros [= <- _]; exact F].
    destruct er; try (destruct (remote_exc _); intros [= <- _]; [eapply C; reflexivity|exact F]; fail).
    destruct (field d "rval"); intros [= <- _]; [eapply C; reflexivity|exact F].
  - destruct (String.eqb s "disconnect"); [|congruence]. intros [= <- _]. unfold finished in *. rewrite disconnected_done in F.
    destruct (smem _ _); [discriminate|exact F].
Qed.

Section Ensure.
  Variable V : venv.
  Variable C : ecfg.
  Hypothesis B : 0 <= e_setup C /\ 0 <= e_msg C /\ 0 <= e_serve C.

  (** how long after its timeout of 0.1 s the wait for one ping may last *)
  Definition more : Z := e_setup C + match e_mode C with Qt => 50 * ms | _ => 0 end +
    Z.max (e_msg C) match e_mode C with Poll => e_serve C | _ => 0 end.
  Lemma more_slack rid : slack (ping_wait C rid) = more.
  Proof. reflexivity. Qed.
  Lemma more_pos : 0 <= more.
  Proof. unfold more, ms. destruct (e_mode C); lia. Qed.

  Lemma winv_now W start t s : bounds_ok W -> 0 <= t -> winv W start t s -> (forall r, s_phase s <> PEnd r) -> s_now s <= start + t + slack W.
  Proof.
    intros (B1 & B2 & B3) T (S0 & N0 & P) N. pose proof ms_pos as MP. rewrite slack_eq.
    destruct (s_phase s) as [t0| |it t0|dl|p t0|t0|r].
    - unfold block. destruct (w_mode W); lia.
    - rewrite slack_eq in P. lia.
    - destruct P as (i & -> & P1 & P2 & P3). unfold block. destruct (w_mode W); lia.
    - destruct P as (d & -> & P1 & _). lia.
    - lia.
    - destruct P as (MW & P). rewrite MW. lia.
    - exfalso. eapply N. reflexivity.
  Qed.
  Lemma wstep_now W s l s' : wstep V W s l = Some s' -> (forall d, l <> WTick d) -> s_now s' = s_now s.
  Proof.
    intros H N. destruct l; cbn [wstep] in H; [destruct (N d eq_refl)|injection H as <-; reflexivity|injection H as <-; reflexivity|].
    unfold wgo in H. destruct (s_phase s) as [t0| |it t0|dl|p t0|t0|r].
    - injection H as <-. reflexivity.
    - destruct (dget _ _); [injection H as <-; reflexivity|]. destruct (w_timeout W); [|injection H as <-; reflexivity].
      destruct (_ <? 0); injection H as <-; reflexivity.
    - injection H as <-. reflexivity.
    - destruct (s_in s); [|injection H as <-; reflexivity].
      destruct (w_mode W), (s_req s), dl as [t|]; try discriminate; try (destruct (t <=? s_now s); [|discriminate]); injection H as <-; reflexivity.
    - destruct (client_recv V (s_cl s) p). injection H as <-. reflexivity.
    - injection H as <-. reflexivity.
    - discriminate.
  Qed.
  Lemma wstep_end W s l s' o : wstep V W s l = Some s' -> s_phase s' = PEnd (Returned o) ->
    (s_phase s = PEnd (Returned o) /\ s_cl s' = s_cl s) \/ finished (s_cl s') (w_rid W) o.
  Proof.
    intros H E. destruct l; cbn [wstep] in H.
    - destruct (may_tick W s d); [|discriminate]. injection H as <-. auto.
    - injection H as <-. auto.
    - injection H as <-. auto.
    - right. unfold wgo in H. destruct (s_phase s) as [t0| |it t0|dl|p t0|t0|r].
      + injection H as <-. discriminate E.
      + destruct (dget _ _) eqn:D; [injection H as <-; cbn in E; injection E as <-; exact D|].
        destruct (w_timeout W); [|injection H as <-; discriminate E]. destruct (_ <? 0); injection H as <-; discriminate E.
      + injection H as <-. discriminate E.
      + destruct (s_in s); [|injection H as <-; discriminate E].
        destruct (w_mode W), (s_req s), dl as [t|]; try discriminate; try (destruct (t <=? s_now s); [|discriminate]); injection H as <-; discriminate E.
      + destruct (client_recv V (s_cl s) p) as [k [x|]]; injection H as <-; discriminate E.
      + injection H as <-. discriminate E.
      + discriminate.
  Qed.

  Definition einv (s : est) : Prop :=
    match e_phase s with
    | ELoop t0 now k prev inbox req => e_start s <= t0 <= now /\ now <= t0 + e_setup C /\
        (t0 = e_start s \/ t0 < e_start s + e_timeout C + 100 * ms + more)
    | EWait rid w => exists tp, e_start s <= tp /\ tp < e_start s + e_timeout C /\ In (rid, tp) (e_pings s) /\
        winv (ping_wait C rid) tp (100 * ms) w /\ s_now w <= tp + 100 * ms + more /\
        (forall o, s_phase w = PEnd (Returned o) -> finished (s_cl w) rid o)
    | EEnd now k r => now <= e_start s + Z.max 0 (e_timeout C) + 100 * ms + more + e_setup C /\
        (r = NotConnected -> e_start s + e_timeout C <= now) /\
        (r = Connected -> exists rid tp v, In (rid, tp) (e_pings s) /\ finished k rid (Ok v))
    end.

  Lemma einv_wait s rid w l w' : e_phase s = EWait rid w -> einv s -> wstep V (ping_wait C rid) w l = Some w' ->
    (forall d r, l = WTick d -> s_phase w <> PEnd r) -> einv (mkE (EWait rid w') (e_start s) (e_pings s)).
  Proof.
    intros E I H T. unfold einv in I. rewrite E in I. destruct I as (tp & A1 & A2 & A3 & A4 & A5 & A6).
    assert (Bk : bounds_ok (ping_wait C rid)) by exact B.
    assert (T0 : 0 <= 100 * ms) by (unfold ms; lia).
    destruct (winv_step V (ping_wait C rid) tp (100 * ms) w l w' Bk T0 eq_refl A4 H) as [W' _].
    exists tp. split; [exact A1|]. split; [exact A2|]. split; [exact A3|]. split; [exact W'|]. split.
    - assert (G : (forall r, s_phase w' <> PEnd r) \/ exists r, s_phase w' = PEnd r)
        by (destruct (s_phase w'); eauto; left; discriminate).
      destruct G as [G|(r & G)]; [exact (winv_now _ _ _ _ Bk T0 W' G)|].
      destruct l as [d| | |]; try (rewrite (wstep_now _ _ _ _ H) by discriminate; exact A5).
      exfalso. cbn [wstep] in H. destruct (may_tick _ _ _); [|discriminate]. injection H as <-. cbn in G. exact (T d r eq_refl G).
    - intros o Eo. destruct (wstep_end _ _ _ _ _ H Eo) as [[P ->]|F]; [apply A6; exact P|exact F].
  Qed.

  Lemma einv_step s l s' : einv s -> estep V C s l = Some s' -> einv s' /\ e_start s' = e_start s.
  Proof.
    intros I H. pose proof more_pos as MP. assert (M0 : 0 < ms) by reflexivity.
    destruct (e_phase s) as [t0 now k prev inbox req|rid w|now k r] eqn:E.
    - pose proof I as I0. unfold einv in I. rewrite E in I. destruct I as (A1 & A2 & A3).
      unfold estep in H. rewrite E in H. destruct l as [d|p| |].
      + destruct ((0 <=? d) && (now + d <=? t0 + e_setup C))%bool eqn:D; [|discriminate]. injection H as <-.
        apply andb_prop in D. destruct D as [D1 D2]. apply Z.leb_le in D1, D2. unfold einv; cbn [e_phase e_start e_pings]. split; [lia|reflexivity].
      + injection H as <-. unfold einv; cbn [e_phase e_start e_pings]. auto.
      + injection H as <-. unfold einv; cbn [e_phase e_start e_pings]. auto.
      + unfold ego in H. rewrite E in H. destruct (now <? e_start s + e_timeout C) eqn:L.
        * apply Z.ltb_lt in L. destruct (send V k "ping" None "auto" Async) as [[k1 m] r] eqn:Sd.
          destruct r as [[rid|]|e]; injection H as <-.
          -- split; [|reflexivity]. unfold einv. cbn [e_phase e_start e_pings]. exists now. split; [lia|]. split; [lia|].
             split; [apply in_or_app; right; left; reflexivity|]. split; [apply winv_start; exact B|].
             split; [cbn; lia|discriminate].
          -- split; [|reflexivity]. unfold einv; cbn [e_phase e_start e_pings]. repeat split; try discriminate. lia.
          -- split; [|reflexivity]. unfold einv; cbn [e_phase e_start e_pings]. repeat split; try discriminate. lia.
        * apply Z.ltb_ge in L. injection H as <-. split; [|reflexivity]. unfold einv; cbn [e_phase e_start e_pings]. repeat split; try discriminate; lia.
    - destruct l as [d|p| |]; unfold estep in H; try rewrite E in H.
      + destruct (s_phase w) eqn:P; try discriminate H;
          (destruct (wstep V (ping_wait C rid) w (WTick d)) as [w'|] eqn:Hw; [|discriminate]); injection H as <-;
          (split; [|reflexivity]); eapply einv_wait; eauto; intros ? ? _; rewrite P; discriminate.
      + destruct (wstep V (ping_wait C rid) w (WArrive p)) as [w'|] eqn:Hw; [|discriminate].
        assert (s' = mkE (EWait rid w') (e_start s) (e_pings s)) as -> by (destruct (s_phase w); congruence).
        split; [|reflexivity]. eapply einv_wait; eauto. discriminate.
      + destruct (wstep V (ping_wait C rid) w WRequest) as [w'|] eqn:Hw; [|discriminate].
        assert (s' = mkE (EWait rid w') (e_start s) (e_pings s)) as -> by (destruct (s_phase w); congruence).
        split; [|reflexivity]. eapply einv_wait; eauto. discriminate.
      + unfold ego in H. rewrite E in H.
        assert (St : forall w', wstep V (ping_wait C rid) w WGo = Some w' -> s' = mkE (EWait rid w') (e_start s) (e_pings s) ->
                     einv s' /\ e_start s' = e_start s).
        { intros w' Hw ->. split; [|reflexivity]. eapply einv_wait; eauto. discriminate. }
        pose proof I as I0. unfold einv in I. rewrite E in I. destruct I as (tp & A1 & A2 & A3 & A4 & A5 & A6).
        destruct (s_phase w) as [t0| |it t0|dl|p t0|t0|r] eqn:P;
          try (destruct (wstep V (ping_wait C rid) w WGo) as [w'|]; [|discriminate]; injection H as <-; eapply St; reflexivity).
        assert (En : forall k r, s' = mkE (EEnd (s_now w) k (Failed r)) (e_start s) (e_pings s) -> einv s' /\ e_start s' = e_start s).
        { intros k0 r0 ->. split; [|reflexivity]. unfold einv; cbn [e_phase e_start e_pings]. repeat split; try discriminate. lia. }
        assert (Lp : s' = mkE (ELoop (s_now w) (s_now w) (s_cl w) (Some rid) (s_in w) (s_req w)) (e_start s) (e_pings s) ->
                     einv s' /\ e_start s' = e_start s).
        { intros ->. split; [|reflexivity]. unfold einv; cbn [e_phase e_start e_pings]. destruct A4 as (_ & N0 & _). split; [lia|]. split; [lia|]. right. lia. }
        destruct r as [[v|e]| |e].
        * injection H as <-. split; [|reflexivity]. unfold einv; cbn [e_phase e_start e_pings]. split; [lia|]. split; [discriminate|]. intros _.
          exists rid, tp, v. split; [exact A3|]. apply A6. reflexivity.
        * injection H as <-. eapply En; reflexivity.
        * injection H as <-. apply Lp. reflexivity.
        * destruct e; injection H as <-; try (eapply En; reflexivity). apply Lp. reflexivity.
    - exfalso. unfold estep, ego in H. rewrite E in H. destruct l; discriminate H.
  Qed.
  Lemma einv_run ls : forall s s', einv s -> erun V C s ls = Some s' -> einv s' /\ e_start s' = e_start s.
  Proof.
    induction ls as [|l r IH]; intros s s' I H; cbn in H; [injection H as <-; auto|].
    destruct (estep V C s l) as [s1|] eqn:E; [|discriminate]. destruct (einv_step s l s1 I E) as [I1 S1].
    destruct (IH _ _ I1 H) as [I2 S2]. split; [exact I2|congruence].
  Qed.
  Lemma einv_start now k inbox req : einv (estart now k inbox req).
  Proof. unfold einv; cbn [e_phase e_start e_pings estart]. lia. Qed.

  Lemma bounded now k inbox req ls s : erun V C (estart now k inbox req) ls = Some s ->
    time_of s <= now + Z.max 0 (e_timeout C) + 100 * ms + more + e_setup C /\
    (ended s NotConnected -> now + e_timeout C <= time_of s) /\
    (ended s Connected -> exists rid tp v, In (rid, tp) (e_pings s) /\ finished (client_of s) rid (Ok v)).
  Proof.
    intro H. destruct (einv_run ls _ _ (einv_start now k inbox req) H) as [I S]. cbn in S. pose proof more_pos as MP.
    assert (M0 : 0 < ms) by reflexivity.
    unfold einv in I. unfold time_of, ended, client_of. destruct (e_phase s) as [t0 nw k0 prev ib rq|rid w|nw k0 r]; rewrite S in *.
    - split; [lia|]. split; intros [].
    - destruct I as (tp & A1 & A2 & A3 & A4 & A5 & A6). split; [lia|]. split; intros [].
    - destruct I as (A & Bn & Cn). split; [lia|]. split; auto.
  Qed.

  (** ** Replies that come too late for their own ping *)
  Hypothesis NQ : e_mode C <> Qt.
  Variable k0 : cl.
  Definition inbox_of (s : est) : list payload :=
    match e_phase s with ELoop _ _ _ _ ib _ => ib | EWait _ w => s_in w | EEnd _ _ _ => [] end.
  Record linv (s : est) : Prop := mkL {
    l_e : einv s;
    l_conf : same_conf k0 (client_of s);
    l_ok : futures_ok (client_of s);
    l_nd : NoDup (map fst (e_pings s));
    l_next : forall rid t, In (rid, t) (e_pings s) -> rid < c_next (client_of s);
    l_in : forall p, In p (inbox_of s) -> forall rid, answer_for V k0 p rid ->
      exists t, In (rid, t) (e_pings s) /\ t + (100 * ms + e_setup C) < time_of s;
    l_ph : match e_phase s with
           | ELoop _ _ _ _ _ _ => True
           | EWait rid w => (forall v, ~ finished (s_cl w) rid (Ok v)) /\
               match s_phase w with
               | PMsg p _ => ~ answer_for V k0 p rid
               | PEnd (Returned (Ok _)) => False
               | _ => True
               end
           | EEnd _ _ r => r <> Connected
           end
  }.

  Lemma answer_conf k p rid : same_conf k0 k -> answer_for V k p rid <-> answer_for V k0 p rid.
  Proof. intros (A & B' & C' & _). unfold answer_for. rewrite A, B', C'. reflexivity. Qed.
  Lemma recv_next k p k' x : client_recv V k p = (k', x) -> c_next k' = c_next k.
  Proof.
    unfold client_recv. destruct (loads _ _ _ _ _) as [v|]; [|congruence]. unfold process_msg. destruct v; try congruence.
    destruct (field d "action") as [a|]; [|congruence]. destruct a; try congruence.
    destruct (String.eqb s "return").
    - destruct (field d "req_id") as [q|]; [|congruence]. destruct q; try congruence.
      destruct (dget (c_futs k) z) as [b|]; [|congruence].
      destruct (field d "error") as [er|]; [|intros [= <- _]; reflexivity].
      destruct er; try (destruct (remote_exc _); intros [= <- _]; [rewrite complete_next; reflexivity|reflexivity]; fail).
      destruct (field d "rval"); intros [= <- _]; [rewrite complete_next; reflexivity|reflexivity].
    - destruct (String.eqb s "disconnect"); intros [= <- _]; reflexivity.
  Qed.

  Lemma pings_unique s rid t t' : NoDup (map fst (e_pings s)) -> In (rid, t) (e_pings s) -> In (rid, t') (e_pings s) -> t = t'.
  Proof.
    generalize (e_pings s). intro l. induction l as [|[a b] l IH]; intros N H H'; [destruct H|]. cbn in N. inversion N as [|? ? N1 N2]; subst.
    destruct H as [H|H], H' as [H'|H'].
    - congruence.
    - injection H as -> ->. exfalso. apply N1. apply (in_map fst) in H'. exact H'.
    - injection H' as -> ->. exfalso. apply N1. apply (in_map fst) in H. exact H.
    - auto.
  Qed.

  (** the wait for one ping *)
  Lemma linv_wait s rid w l w' : e_phase s = EWait rid w -> linv s -> wstep V (ping_wait C rid) w l = Some w' ->
    (forall d r, l = WTick d -> s_phase w <> PEnd r) ->
    (forall p, l = WArrive p -> late V (100 * ms + e_setup C) s p) ->
    linv (mkE (EWait rid w') (e_start s) (e_pings s)).
  Proof.
    intros E L H T A. pose proof (l_e s L) as Ie. pose proof (einv_wait s rid w l w' E Ie H T) as Ie'.
    assert (Ec : client_of s = s_cl w) by (unfold client_of; rewrite E; reflexivity).
    assert (Ein : inbox_of s = s_in w) by (unfold inbox_of; rewrite E; reflexivity).
    assert (Et : time_of s = s_now w) by (unfold time_of; rewrite E; reflexivity).
    destruct L as [_ Lc Lo Ln Lx Li Lp]. rewrite Ec in Lc, Lo, Lx. rewrite Ein, Et in Li. rewrite E in Lp. destruct Lp as [Lf Lp].
    pose proof (wstep_now _ _ _ _ H) as Nw.
    assert (Mono : s_now w <= s_now w').
    { destruct l; try (rewrite Nw by discriminate; lia). cbn [wstep] in H. destruct (may_tick _ w d) eqn:M; [|discriminate]. injection H as <-.
      apply andb_prop in M. destruct M as [M _]. apply Z.leb_le in M. cbn. lia. }
    (* keep everything about a client and an inbox that did not change *)
    assert (Keep : s_cl w' = s_cl w -> (forall p, In p (s_in w') -> In p (s_in w) \/ exists q, l = WArrive q /\ p = q) ->
      match s_phase w' with PMsg p _ => ~ answer_for V k0 p rid | PEnd (Returned (Ok _)) => False | _ => True end ->
      linv (mkE (EWait rid w') (e_start s) (e_pings s))).
    { intros Hc Hi Hp. constructor; cbn [e_phase e_pings client_of inbox_of time_of]; rewrite ?Hc; auto.
      intros p Hpin r0 Hr. destruct (Hi p Hpin) as [Q|(q & -> & ->)].
      - destruct (Li p Q r0 Hr) as (t & I1 & I2). exists t. split; [exact I1|]. lia.
      - specialize (A q eq_refl r0). rewrite Ec in A. rewrite (answer_conf _ q r0 Lc) in A. specialize (A Hr). rewrite Et in A.
        destruct A as (t & I1 & I2). exists t. split; [exact I1|]. lia. }
    destruct l as [d|p| |].
    - cbn [wstep] in H. destruct (may_tick _ w d); [|discriminate]. injection H as <-. apply Keep; cbn [set_phase s_cl s_in s_phase]; auto.
    - cbn [wstep] in H. injection H as <-. apply Keep; cbn [set_phase s_cl s_in s_phase]; auto. intros q Hq. apply in_app_iff in Hq. destruct Hq as [Hq|[<-|[]]]; eauto.
    - cbn [wstep] in H. injection H as <-. apply Keep; cbn [set_phase s_cl s_in s_phase]; auto.
    - cbn [wstep] in H. unfold wgo in H. destruct (s_phase w) as [t0| |it t0|dl|p t0|t0|r] eqn:P.
      + injection H as <-. apply Keep; cbn [set_phase s_cl s_in s_phase]; auto.
      + change (w_rid (ping_wait C rid)) with rid in H. destruct (dget (c_done (s_cl w)) rid) as [o|] eqn:D.
        * injection H as <-. apply Keep; cbn [set_phase s_cl s_in s_phase]; auto. destruct o; [|exact I]. exact (Lf _ D).
        * change (w_timeout (ping_wait C rid)) with (Some (100 * ms)) in H. cbv iota beta in H.
          assert (Hs : exists q, w' = set_phase w q /\ (q = PEnd TimedOut \/ exists i t, q = PSetup i t)).
          { revert H. generalize (100 * ms - (s_now w - s_start w)). intros z H. destruct (z <? 0); injection H as <-; eauto 6. }
          destruct Hs as (q & -> & Hq). apply Keep; cbn [set_phase s_cl s_in s_phase]; auto.
          destruct Hq as [->|(i & t & ->)]; exact I.
      + injection H as <-. apply Keep; cbn [set_phase s_cl s_in s_phase]; auto.
      + destruct (s_in w) as [|p rest] eqn:IN.
        * assert (Hs : s_cl w' = s_cl w /\ s_in w' = [] /\ match s_phase w' with PMsg _ _ => False | PEnd (Returned _) => False | _ => True end).
          { destruct (w_mode (ping_wait C rid)), (s_req w), dl as [t|]; try discriminate; try (destruct (t <=? s_now w); [|discriminate]);
              injection H as <-; cbn; auto. }
          destruct Hs as (Hc & Hi & Hp). apply Keep; [exact Hc|rewrite Hi; intros ? []|].
          destruct (s_phase w') as [| | | | | |[[]| |]]; auto; destruct Hp.
        * injection H as <-. apply Keep; cbn [s_cl s_in s_phase]; [reflexivity|intros q Hq; left; right; exact Hq|].
          intro An. destruct (Li p (or_introl eq_refl) rid An) as (t & I1 & I2).
          unfold einv in Ie. rewrite E in Ie. destruct Ie as (tp & _ & _ & A3 & (_ & _ & A4) & _). rewrite P in A4.
          destruct A4 as (dd & _ & A4 & _). rewrite (pings_unique s rid t tp Ln I1 A3) in I2.
          unfold block in A4. cbn [ping_wait w_mode w_setup] in A4. destruct (e_mode C); try congruence; lia.
      + destruct (client_recv V (s_cl w) p) as [k x] eqn:R. injection H as <-.
        destruct (recv_frame V _ _ _ _ R) as (Cf & _ & _). destruct (ok_recv V _ _ _ _ Lo R) as [Fo _].
        constructor; cbn [e_phase e_pings client_of inbox_of time_of s_cl s_in s_now s_phase]; auto.
        * eapply same_trans; eauto.
        * intros r0 t Hr. rewrite (recv_next _ _ _ _ R). eauto.
        * split; [|destruct x; exact I]. intros v F. apply (Lf v). eapply recv_other; [exact R| |exact F].
          rewrite (answer_conf _ p rid Lc). exact Lp.
      + injection H as <-. apply Keep; cbn [set_phase s_cl s_in s_phase]; auto.
      + discriminate.
  Qed.

  Lemma linv_step s l s' : linv s -> estep V C s l = Some s' ->
    (forall p, l = WArrive p -> late V (100 * ms + e_setup C) s p) -> linv s'.
  Proof.
    intros L H A. pose proof (l_e s L) as Ie. destruct (einv_step s l s' Ie H) as [Ie' _].
    destruct (e_phase s) as [t0 now k prev inbox req|rid w|now k r] eqn:E.
    - assert (Ec : client_of s = k) by (unfold client_of; rewrite E; reflexivity).
      assert (Ein : inbox_of s = inbox) by (unfold inbox_of; rewrite E; reflexivity).
      assert (Et : time_of s = now) by (unfold time_of; rewrite E; reflexivity).
      destruct L as [_ Lc Lo Ln Lx Li _]. rewrite Ec in Lc, Lo, Lx. rewrite Ein, Et in Li.
      destruct l as [d|p| |]; unfold estep in H; try rewrite E in H.
      + destruct ((0 <=? d) && (now + d <=? t0 + e_setup C))%bool eqn:D; [|discriminate]. injection H as <-.
        apply andb_prop in D. destruct D as [D _]. apply Z.leb_le in D.
        constructor; cbn [e_phase e_pings client_of inbox_of time_of]; auto.
        intros p Hp r0 Hr. destruct (Li p Hp r0 Hr) as (t & I1 & I2). exists t. split; [exact I1|lia].
      + injection H as <-. constructor; cbn [e_phase e_pings client_of inbox_of time_of]; auto.
        intros q Hq r0 Hr. apply in_app_iff in Hq. destruct Hq as [Hq|[<-|[]]]; [eauto|].
        specialize (A p eq_refl r0). rewrite Ec, Et, (answer_conf _ p r0 Lc) in A. exact (A Hr).
      + injection H as <-. constructor; cbn [e_phase e_pings client_of inbox_of time_of]; auto.
      + unfold ego in H. rewrite E in H. destruct (now <? e_start s + e_timeout C).
        * destruct (send V k "ping" None "auto" Async) as [[k1 m] r] eqn:Sd.
          pose proof (ok_send V _ _ _ _ _ _ _ _ Lo Sd) as [Fo _].
          destruct (send_ping V _ _ _ _ Sd) as [(e & -> & -> & _)|[(e & -> & Cf & _)|(_ & -> & Cf & Dn & Nx & _)]].
          -- injection H as <-. constructor; cbn [e_phase e_pings client_of inbox_of time_of]; auto; [intros p []|discriminate].
          -- injection H as <-. constructor; cbn [e_phase e_pings client_of inbox_of time_of]; auto;
               [eapply same_trans; eauto| |intros p []|discriminate].
             intros r0 t Hr. destruct (send_cases V _ _ _ _ _ _ _ _ Sd) as [_ Sc]. specialize (Lx r0 t Hr).
             destruct m; [destruct Sc as (_ & _ & _ & _ & _ & _ & _ & Sc); discriminate|destruct Sc as (_ & Sc & _); lia].
          -- injection H as <-.
             set (k2 := match prev with Some q => drop_future k1 q | None => k1 end).
             assert (K2 : same_conf k1 k2 /\ c_done k2 = c_done k1 /\ c_next k2 = c_next k1 /\ futures_ok k2).
             { unfold k2. destruct prev; [split; [repeat split|]|split; [apply same_refl|]];
                 (split; [reflexivity|]); (split; [reflexivity|]); [apply ok_drop; exact Fo|exact Fo]. }
             destruct K2 as (K2 & Kd & Kn & Ko).
             constructor; cbn [e_phase e_pings client_of inbox_of time_of wstart s_cl s_in s_now s_phase]; auto.
             ++ eapply same_trans; [|exact K2]. eapply same_trans; eauto.
             ++ rewrite map_app. cbn [map fst]. apply NoDup_app_one; [exact Ln|]. intro Hin. apply in_map_iff in Hin.
                destruct Hin as ([r0 t] & Er & Hin). cbn in Er. subst r0. specialize (Lx _ _ Hin). lia.
             ++ intros r0 t Hr. rewrite Kn, Nx. apply in_app_iff in Hr. destruct Hr as [Hr|[Hr|[]]]; [specialize (Lx _ _ Hr); lia|injection Hr as <- _; lia].
             ++ intros p Hp r0 Hr. destruct (Li p Hp r0 Hr) as (t & I1 & I2). exists t. split; [apply in_or_app; auto|exact I2].
             ++ split; [|exact I]. intros v F. unfold finished in F. rewrite Kd, Dn in F.
                apply dget_Some_key in F. apply (fo_done _ Lo) in F. lia.
        * injection H as <-. constructor; cbn [e_phase e_pings client_of inbox_of time_of]; auto; [intros p []|discriminate].
    - destruct l as [d|p| |]; unfold estep in H; try rewrite E in H.
      + destruct (s_phase w) eqn:P; try discriminate H;
          (destruct (wstep V (ping_wait C rid) w (WTick d)) as [w'|] eqn:Hw; [|discriminate]); injection H as <-;
          eapply linv_wait; eauto; try discriminate; intros ? ? _; rewrite P; discriminate.
      + destruct (wstep V (ping_wait C rid) w (WArrive p)) as [w'|] eqn:Hw; [|discriminate].
        assert (s' = mkE (EWait rid w') (e_start s) (e_pings s)) as -> by (destruct (s_phase w); congruence).
        eapply linv_wait; eauto. discriminate.
      + destruct (wstep V (ping_wait C rid) w WRequest) as [w'|] eqn:Hw; [|discriminate].
        assert (s' = mkE (EWait rid w') (e_start s) (e_pings s)) as -> by (destruct (s_phase w); congruence).
        eapply linv_wait; eauto; discriminate.
      + unfold ego in H. rewrite E in H.
        assert (St : forall w', wstep V (ping_wait C rid) w WGo = Some w' -> s' = mkE (EWait rid w') (e_start s) (e_pings s) -> linv s').
        { intros w' Hw ->. eapply linv_wait; eauto; discriminate. }
        assert (Ec : client_of s = s_cl w) by (unfold client_of; rewrite E; reflexivity).
        assert (Ein : inbox_of s = s_in w) by (unfold inbox_of; rewrite E; reflexivity).
        assert (Et : time_of s = s_now w) by (unfold time_of; rewrite E; reflexivity).
        destruct L as [_ Lc Lo Ln Lx Li Lp]. rewrite Ec in Lc, Lo, Lx. rewrite Ein, Et in Li. rewrite E in Lp. destruct Lp as [Lf Lp].
        assert (En : forall r, r <> Connected -> s' = mkE (EEnd (s_now w) (s_cl w) r) (e_start s) (e_pings s) -> linv s').
        { intros r0 Hr ->. constructor; cbn [e_phase e_pings client_of inbox_of time_of]; auto. intros p []. }
        assert (Lpp : s' = mkE (ELoop (s_now w) (s_now w) (s_cl w) (Some rid) (s_in w) (s_req w)) (e_start s) (e_pings s) -> linv s').
        { intros ->. constructor; cbn [e_phase e_pings client_of inbox_of time_of]; auto. }
        destruct (s_phase w) as [t0| |it t0|dl|p t0|t0|r] eqn:P;
          try (destruct (wstep V (ping_wait C rid) w WGo) as [w'|]; [|discriminate]; injection H as <-; eapply St; reflexivity).
        destruct r as [[v|e]| |e].
        * destruct Lp.
        * injection H as <-. eapply En; [|reflexivity]. discriminate.
        * injection H as <-. apply Lpp. reflexivity.
        * destruct e; injection H as <-; try (eapply En; [|reflexivity]; discriminate). apply Lpp. reflexivity.
    - exfalso. unfold estep, ego in H. rewrite E in H. destruct l; discriminate H.
  Qed.

  Lemma linv_run ls : forall s s', linv s -> erun V C s ls = Some s' ->
    arrivals V C (late V (100 * ms + e_setup C)) s ls -> linv s'.
  Proof.
    induction ls as [|l r IH]; intros s s' L H A; cbn in H; [injection H as <-; auto|].
    cbn [arrivals] in A. destruct A as [A1 A2].
    destruct (estep V C s l) as [s1|] eqn:E; [|discriminate]. eapply IH; [|exact H|exact A2].
    eapply linv_step; eauto. intros p ->. exact A1.
  Qed.
  Lemma late_never now req ls s : futures_ok k0 ->
    erun V C (estart now k0 [] req) ls = Some s -> arrivals V C (late V (100 * ms + e_setup C)) (estart now k0 [] req) ls ->
    ~ ended s Connected.
  Proof.
    intros F H A. assert (L0 : linv (estart now k0 [] req)).
    { constructor; cbn [estart e_phase e_pings client_of inbox_of time_of map]; auto using einv_start, same_refl, NoDup_nil.
      - intros ? ? [].
      - intros ? []. }
    pose proof (l_ph s (linv_run ls _ _ L0 H A)) as P. unfold ended. destruct (e_phase s); auto.
  Qed.
End Ensure.
