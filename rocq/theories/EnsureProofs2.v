(** A server that answers quickly is connected. *)
From Verif Require Import Py ObjTableModel SerModel SerSpec FrameModel ServerModel ClientModel WireSpec ServerProofs ClientProofs
  ApiSpec RpcSpec RpcInv RpcInv4 WaitModel WaitProofs ConnProofs EnsureModel EnsureSpec EnsureProofs.

Section Quick.
  Variable V : venv.
  Variable C : ecfg.
  Hypothesis B : 0 <= e_setup C /\ 0 <= e_msg C /\ 0 <= e_serve C.
  Hypothesis PL : e_mode C = Plain.
  Hypothesis ST : e_setup C < e_timeout C /\ e_setup C <= 100 * ms.
  Variable k0 : cl.
  Hypothesis F0 : futures_ok k0.
  Hypothesis D0 : c_disc k0 = false.
  Hypothesis O0 : c_open k0 = true.
  Variable start : Z.
  Notation rid0 := (c_next k0).
  Notation good := (success V k0 rid0).

  (** [arr]: what the inbox looks like (empty, or the answer comes first) *)
  Definition qinv (arr : list payload -> Prop) (msgs : Prop) (s : est) : Prop :=
    e_start s = start /\
    match e_phase s with
    | ELoop t0 now k prev ib req => t0 = start /\ start <= now <= start + e_setup C /\ k = k0 /\ prev = None /\ e_pings s = [] /\ arr ib
    | EWait rid w => rid = rid0 /\ e_pings s = [(rid0, s_start w)] /\ start <= s_start w <= s_now w /\
        ((waiting (s_cl w) rid0 /\ same_conf k0 (s_cl w) /\ dget (c_done (s_cl w)) rid0 = None /\
          match s_phase w with
          | PBegin t0 => t0 = s_start w /\ s_now w <= s_start w + e_setup C /\ arr (s_in w)
          | PCheck => s_now w <= s_start w + e_setup C /\ arr (s_in w)
          | PSetup it t0 => exists i, it = Some i /\ i = 100 * ms - (t0 - s_start w) /\ t0 <= s_now w /\ arr (s_in w)
          | PBlock dl => exists d, dl = Some d /\ s_start w + 99 * ms < d /\ arr (s_in w)
          | PMsg p _ => msgs /\ good p
          | _ => False
          end) \/
         (msgs /\ exists v, finished (s_cl w) rid0 (Ok v) /\ (s_phase w = PCheck \/ s_phase w = PEnd (Returned (Ok v)))))
    | EEnd _ _ r => msgs /\ r = Connected /\ e_pings s <> [] /\ (List.length (e_pings s) <= 1)%nat
    end.

  Definition before := qinv (fun ib => ib = []) False.
  Definition after := qinv (fun ib => exists p r, ib = p :: r /\ good p) True.

  Lemma ping_first : exists k1, send V k0 "ping" None "auto" Async = (k1, Some (mkMsg rid0 "ping" "auto" (c_ser k0) PEmpty), Ok (Some rid0)) /\
    same_conf k0 k1 /\ waiting k1 rid0 /\ dget (c_done k1) rid0 = None.
  Proof.
    unfold send. rewrite D0. cbn [set_next c_open c_ser]. rewrite O0. eexists. split; [reflexivity|]. split; [repeat split|].
    split; [apply dget_dset_same|]. cbn [set_futs c_done set_next].
    destruct (dget (c_done k0) rid0) eqn:E; [|reflexivity]. apply dget_Some_key in E. apply (fo_done _ F0) in E. lia.
  Qed.

  Lemma good_recv k p : waiting k rid0 -> same_conf k0 k -> good p ->
    exists k' v, client_recv V k p = (k', None) /\ finished k' rid0 (Ok v).
  Proof.
    intros W (A & A' & A'' & _) (v & L). unfold client_recv. rewrite A, A', A'', L. cbn. unfold waiting in W. rewrite W.
    do 2 eexists. split; [reflexivity|]. apply dget_dset_same.
  Qed.

  Lemma qwait (arr : list payload -> Prop) (msgs : Prop) w l w' rid : rid = rid0 ->
    (arr [] -> s_now w <= start + 99 * ms) -> (forall p r, arr (p :: r) -> msgs /\ good p) ->
    wstep V (ping_wait C rid) w l = Some w' -> (forall p, l <> WArrive p) -> (forall d r, l = WTick d -> s_phase w <> PEnd r) ->
    forall st, st = start -> qinv arr msgs (mkE (EWait rid w) st [(rid0, s_start w)]) ->
    qinv arr msgs (mkE (EWait rid w') st [(rid0, s_start w')]) /\ s_start w' = s_start w.
  Proof.
    intros Er He Hc H N T st Es (_ & Q). cbn [e_phase e_pings e_start] in Q. destruct Q as (_ & _ & Q0 & Q).
    assert (M0 : 0 < ms) by reflexivity. subst rid.
    assert (G : s_start w' = s_start w /\ s_now w <= s_now w' /\
      ((waiting (s_cl w') rid0 /\ same_conf k0 (s_cl w') /\ dget (c_done (s_cl w')) rid0 = None /\
          match s_phase w' with
          | PBegin t0 => t0 = s_start w' /\ s_now w' <= s_start w' + e_setup C /\ arr (s_in w')
          | PCheck => s_now w' <= s_start w' + e_setup C /\ arr (s_in w')
          | PSetup it t0 => exists i, it = Some i /\ i = 100 * ms - (t0 - s_start w') /\ t0 <= s_now w' /\ arr (s_in w')
          | PBlock dl => exists d, dl = Some d /\ s_start w' + 99 * ms < d /\ arr (s_in w')
          | PMsg p _ => msgs /\ good p
          | _ => False
          end) \/
         (msgs /\ exists v, finished (s_cl w') rid0 (Ok v) /\ (s_phase w' = PCheck \/ s_phase w' = PEnd (Returned (Ok v)))))).
    2: { destruct G as (G1 & G2 & G3). split; [|exact G1]. split; [exact Es|]. cbn [e_phase e_pings].
         split; [reflexivity|]. split; [reflexivity|]. split; [lia|exact G3]. }
    destruct l as [d|p| |].
    - cbn [wstep] in H. destruct (may_tick (ping_wait C rid0) w d) eqn:M; [|discriminate]. injection H as <-.
      cbn [s_start s_now s_cl s_in s_phase]. unfold may_tick in M. apply andb_prop in M. destruct M as [M1 M]. apply Z.leb_le in M1.
      split; [reflexivity|]. split; [lia|]. destruct Q as [(W & Cf & Dn & Q)|(Ms & v & F & Q)].
      + left. split; [exact W|]. split; [exact Cf|]. split; [exact Dn|].
        destruct (s_phase w) as [t0| |it t0|dl|p t0|t0|r].
        * apply Z.leb_le in M. cbn [ping_wait w_setup] in M. destruct Q as (-> & Q1 & Q2). split; [reflexivity|]. split; [lia|exact Q2].
        * discriminate.
        * destruct Q as (i & -> & Qi & Q1 & Q2). exists i. split; [reflexivity|]. split; [exact Qi|]. split; [lia|exact Q2].
        * destruct Q as (dd & -> & Q1 & Q2). exists dd. auto.
        * exact Q.
        * exact Q.
        * exact Q.
      + exfalso. destruct Q as [Q|Q]; [rewrite Q in M; discriminate|]. exact (T d _ eq_refl Q).
    - destruct (N p eq_refl).
    - cbn [wstep] in H. injection H as <-. cbn [s_start s_now s_cl s_in s_phase]. split; [reflexivity|]. split; [lia|exact Q].
    - cbn [wstep] in H. unfold wgo in H. destruct (s_phase w) as [t0| |it t0|dl|p t0|t0|r] eqn:P.
      + injection H as <-. cbn [set_phase s_start s_now s_cl s_in s_phase]. split; [reflexivity|]. split; [lia|].
        destruct Q as [(W & Cf & Dn & -> & Q1 & Q2)|(_ & v & _ & [Q|Q])]; [|congruence|congruence]. left. auto 6.
      + change (w_rid (ping_wait C rid0)) with rid0 in H.
        destruct Q as [(W & Cf & Dn & Q1 & Q2)|(Ms & v & F & Q)].
        * rewrite Dn in H. change (w_timeout (ping_wait C rid0)) with (Some (100 * ms)) in H. cbv beta iota in H.
          assert (Hh : 0 <= 100 * ms - (s_now w - s_start w)) by lia.
          assert (Hs : w' = set_phase w (PSetup (Some (100 * ms - (s_now w - s_start w))) (s_now w))).
          { revert H Hh. generalize (100 * ms - (s_now w - s_start w)). intros z H Hh. destruct (z <? 0) eqn:Z; [apply Z.ltb_lt in Z; lia|]. congruence. }
          subst w'. cbn [set_phase s_start s_now s_cl s_in s_phase]. split; [reflexivity|]. split; [lia|].
          left. repeat (split; [assumption|]). eexists. split; [reflexivity|]. split; [reflexivity|]. split; [lia|exact Q2].
        * unfold finished in F. rewrite F in H. injection H as <-. cbn [set_phase s_start s_now s_cl s_in s_phase].
          split; [reflexivity|]. split; [lia|]. right. eauto 6.
      + injection H as <-. cbn [set_phase s_start s_now s_cl s_in s_phase]. split; [reflexivity|]. split; [lia|].
        destruct Q as [(W & Cf & Dn & i & -> & Qi & Q1 & Q2)|(_ & v & _ & [Q|Q])]; [|congruence|congruence].
        left. repeat (split; [assumption|]). unfold deadline. cbn [ping_wait w_mode]. rewrite PL. eexists. split; [reflexivity|].
        pose proof (floor_ms i ms M0). split; [lia|exact Q2].
      + destruct Q as [(W & Cf & Dn & d & -> & Q1 & Q2)|(_ & v & _ & [Q|Q])]; [|congruence|congruence].
        cbn [ping_wait w_mode] in H. rewrite PL in H. destruct (s_in w) as [|p r] eqn:IN.
        * exfalso. specialize (He Q2). assert (Hd : s_now w < d) by lia. destruct (d <=? s_now w) eqn:L; [apply Z.leb_le in L; lia|discriminate].
        * injection H as <-. cbn [s_start s_now s_cl s_in s_phase]. split; [reflexivity|]. split; [lia|]. left.
          repeat (split; [assumption|]). eapply Hc. exact Q2.
      + destruct Q as [(W & Cf & Dn & Ms & Gp)|(_ & v & _ & [Q|Q])]; [|congruence|congruence].
        destruct (good_recv _ _ W Cf Gp) as (k' & v & R & F). rewrite R in H. injection H as <-.
        cbn [s_start s_now s_cl s_in s_phase]. split; [reflexivity|]. split; [lia|]. right. eauto 6.
      + destruct Q as [(_ & _ & _ & [])|(_ & v & _ & [Q|Q])]; congruence.
      + discriminate.
  Qed.

  Lemma qstep (arr : list payload -> Prop) (msgs : Prop) s l s' : (arr [] -> time_of s <= start + 99 * ms) -> (forall p r, arr (p :: r) -> msgs /\ good p) ->
    qinv arr msgs s -> estep V C s l = Some s' -> (forall p, l <> WArrive p) -> qinv arr msgs s'.
  Proof.
    intros He Hc Q H N. pose proof Q as Q'. destruct Q as [Es Q]. unfold time_of in He.
    destruct (e_phase s) as [t0 now k prev ib req|rid w|now k r] eqn:E.
    - destruct Q as (-> & Q1 & -> & -> & Q2 & Q3). destruct l as [d|p| |]; unfold estep in H; try rewrite E in H.
      + destruct ((0 <=? d) && (now + d <=? start + e_setup C))%bool eqn:D; [|discriminate]. injection H as <-.
        apply andb_prop in D. destruct D as [D1 D2]. apply Z.leb_le in D1, D2. split; [exact Es|].
        cbn [e_phase e_pings]. repeat (split; [first [reflexivity|assumption|lia]|]). exact Q3.
      + destruct (N p eq_refl).
      + injection H as <-. split; [exact Es|]. cbn [e_phase e_pings]. auto 8.
      + unfold ego in H. rewrite E in H. destruct (now <? e_start s + e_timeout C) eqn:L.
        * destruct ping_first as (k1 & Sd & Cf & W & Dn). rewrite Sd in H. injection H as <-. split; [exact Es|].
          cbn [e_phase e_pings wstart s_start s_now s_cl s_in s_phase]. rewrite Q2. split; [reflexivity|]. split; [reflexivity|].
          split; [lia|]. left. repeat (split; [assumption|]). split; [reflexivity|]. split; [lia|exact Q3].
        * exfalso. apply Z.ltb_ge in L. lia.
    - destruct Q as (-> & Qp & Q0 & Q).
      assert (St : forall w', wstep V (ping_wait C rid0) w l = Some w' -> (forall d r, l = WTick d -> s_phase w <> PEnd r) ->
                   s' = mkE (EWait rid0 w') (e_start s) (e_pings s) -> qinv arr msgs s').
      { intros w' Hw T ->. rewrite Qp.
        destruct (qwait arr msgs w l w' rid0 eq_refl He Hc Hw N T (e_start s) Es) as [G Gs].
        - split; [exact Es|]. cbn [e_phase e_pings]. auto.
        - rewrite <- Gs. exact G. }
      destruct l as [d|p| |]; unfold estep in H; try rewrite E in H.
      + destruct (s_phase w) eqn:P; try discriminate H;
          (destruct (wstep V (ping_wait C rid0) w (WTick d)) as [w'|] eqn:Hw; [|discriminate]); injection H as <-;
          (eapply St; [reflexivity| |reflexivity]); intros; discriminate.
      + destruct (N p eq_refl).
      + destruct (wstep V (ping_wait C rid0) w WRequest) as [w'|] eqn:Hw; [|discriminate].
        assert (s' = mkE (EWait rid0 w') (e_start s) (e_pings s)) as -> by (destruct (s_phase w); congruence).
        eapply St; [reflexivity|discriminate|reflexivity].
      + unfold ego in H. rewrite E in H.
        destruct (s_phase w) as [t0| |it t0|dl|p t0|t0|r] eqn:P;
          try (destruct (wstep V (ping_wait C rid0) w WGo) as [w'|] eqn:Hw; [|discriminate]; injection H as <-;
               eapply St; [reflexivity|discriminate|reflexivity]).
        destruct Q as [(_ & _ & _ & [])|(Ms & v & _ & [Q|Q])]; [discriminate Q|]. injection Q as ->. injection H as <-.
        split; [exact Es|]. cbn [e_phase e_pings]. rewrite Qp. split; [exact Ms|]. split; [reflexivity|]. split; [discriminate|cbn; lia].
    - exfalso. unfold estep, ego in H. rewrite E in H. destruct l; discriminate H.
  Qed.

  Lemma qinv_arrive (arr arr' : list payload -> Prop) (msgs msgs' : Prop) s p s' :
    (forall ib, arr ib -> arr' (ib ++ [p])) -> (msgs -> msgs') ->
    qinv arr msgs s -> estep V C s (WArrive p) = Some s' -> qinv arr' msgs' s'.
  Proof.
    intros Ha Hm (Es & Q) H. unfold estep in H. destruct (e_phase s) as [t0 now k prev ib req|rid w|now k r] eqn:E; [| |discriminate].
    - injection H as <-. split; [exact Es|]. cbn [e_phase e_pings]. destruct Q as (Q1 & Q2 & Q3 & Q4 & Q5 & Q6). auto 8.
    - assert (s' = mkE (EWait rid (mkWst (s_phase w) (s_now w) (s_start w) (s_cl w) (s_in w ++ [p]) (s_req w))) (e_start s) (e_pings s)) as ->
        by (cbn [wstep] in H; destruct (s_phase w); congruence).
      split; [exact Es|]. cbn [e_phase e_pings s_phase s_now s_start s_cl s_in]. destruct Q as (-> & Q1 & Q2 & Q).
      split; [reflexivity|]. split; [exact Q1|]. split; [exact Q2|]. destruct Q as [(W & Cf & Dn & Q)|(Ms & Q)]; [left|right; auto].
      split; [exact W|]. split; [exact Cf|]. split; [exact Dn|]. destruct (s_phase w); auto.
      + destruct Q as (A & A' & A''). auto.
      + destruct Q as (A & A'). auto.
      + destruct Q as (i & A & A' & A'' & A3). exists i. auto.
      + destruct Q as (i & A & A' & A''). exists i. auto.
      + destruct Q as (A & A'). auto.
  Qed.

  Lemma after_run ls : forall s s', after s -> erun V C s ls = Some s' -> after s'.
  Proof.
    induction ls as [|l r IH]; intros s s' Q H; cbn in H; [injection H as <-; exact Q|].
    destruct (estep V C s l) as [s1|] eqn:E; [|discriminate]. apply (IH s1); [|exact H].
    assert (A : (exists p, l = WArrive p) \/ forall p, l <> WArrive p) by (destruct l; eauto; right; discriminate).
    destruct A as [(p & ->)|A].
    - eapply qinv_arrive; [| |exact Q|exact E]; [|auto]. intros ib (q & t & -> & G). exists q, (t ++ [p]). auto.
    - eapply qstep; [| |exact Q|exact E|exact A].
      + intros (p & t & X & _). discriminate X.
      + intros p t (q & u & X & G). injection X as <- <-. auto.
  Qed.

  Lemma before_run ls : forall s s', before s -> erun V C s ls = Some s' -> answered_by V C good (start + 99 * ms) s ls ->
    before s' \/ after s'.
  Proof.
    induction ls as [|l r IH]; intros s s' Q H A; cbn in H; [injection H as <-; auto|].
    destruct (estep V C s l) as [s1|] eqn:E; [|discriminate].
    assert (D : (exists p, l = WArrive p) \/ forall p, l <> WArrive p) by (destruct l; eauto; right; discriminate).
    destruct D as [(p & ->)|D].
    - cbn [answered_by] in A. destruct A as [_ G]. right. eapply after_run; [|exact H].
      eapply qinv_arrive; [| |exact Q|exact E]; [|intros []]. intros ib ->. exists p, []. auto.
    - assert (A' : time_of s <= start + 99 * ms /\ answered_by V C good (start + 99 * ms) s1 r).
      { cbn [answered_by] in A. destruct A as [T A]. split; [exact T|]. destruct l; try (rewrite E in A; exact A). destruct (D p eq_refl). }
      destruct A' as [T A']. apply (IH s1); auto. eapply qstep; [| |exact Q|exact E|exact D].
      + auto.
      + discriminate.
  Qed.

  Lemma quick req ls s : erun V C (estart start k0 [] req) ls = Some s ->
    answered_by V C good (start + 99 * ms) (estart start k0 [] req) ls ->
    (forall r, ended s r -> r = Connected) /\ (List.length (e_pings s) <= 1)%nat.
  Proof.
    intros H A. assert (Q : before s \/ after s).
    { eapply before_run; [|exact H|exact A]. split; [reflexivity|]. cbn [estart e_phase e_pings]. repeat (split; [first [reflexivity|lia]|]). reflexivity. }
    assert (G : forall (arr : list payload -> Prop) (msgs : Prop), qinv arr msgs s -> (forall r, ended s r -> r = Connected) /\ (List.length (e_pings s) <= 1)%nat).
    { intros arr msgs (Es & X). unfold ended. destruct (e_phase s).
      - destruct X as (_ & _ & _ & _ & -> & _). split; [intros ? []|cbn; lia].
      - destruct X as (_ & -> & _). split; [intros ? []|cbn; lia].
      - destruct X as (_ & -> & _ & X). split; [auto|exact X]. }
    destruct Q as [Q|Q]; eapply G; exact Q.
  Qed.
End Quick.
