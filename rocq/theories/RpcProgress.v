(** From every reachable state, everything under way can be worked off without
    losing a message. *)
From Verif Require Import Py ObjTableModel SerModel SerSpec SerProofs SerProofs2 SerProofsJ
  FrameModel FrameProofs ServerModel ClientModel WireSpec WireProofs ServerProofs ServerProofs2 ClientProofs RpcModel RpcSpec
  RpcInv RpcInv2 RpcInv3 RpcInv4 RpcProofs.
From Coq Require Import Permutation.

(** total length of the queues of the clients in [K] *)
Definition size {A} (K : list string) (q : string -> list A) : nat := list_sum (map (fun c => List.length (q c)) K).

Lemma size_same {A} K (q q' : string -> list A) : (forall c, In c K -> q' c = q c) -> size K q' = size K q.
Proof.
  unfold size. induction K as [|c K IH]; intro H; [reflexivity|]. cbn. rewrite (H c) by (cbn; auto).
  f_equal. apply IH. intros. apply H. cbn. auto.
Qed.
Lemma size_dec {A} K (q q' : string -> list A) c x rest : NoDup K -> In c K -> q c = x :: rest -> q' c = rest ->
  (forall c', c' <> c -> q' c' = q c') -> size K q = S (size K q').
Proof.
  induction K as [|d K IH]; intros N I Q Q' O; [destruct I|]. inversion N; subst.
  unfold size. cbn [map list_sum fold_right]. fold (size K q) (size K q').
  change (List.length (q d) + size K q = S (List.length (q' d) + size K q'))%nat.
  destruct I as [->|I].
  - rewrite Q. cbn. rewrite (size_same K q q'); [reflexivity|]. intros c' J. apply O. intros ->. contradiction.
  - rewrite (O d) by (intros ->; contradiction). rewrite (IH H2 I Q eq_refl O). lia.
Qed.
Lemma size_find {A} K (q : string -> list A) :
  (forall c, In c K -> q c = []) \/ exists c x rest, In c K /\ q c = x :: rest.
Proof.
  induction K as [|c K IH]; [left; intros ? []|]. destruct (q c) as [|x rest] eqn:Q.
  - destruct IH as [IH|(c' & x & rest & I & E)]; [left; intros c' [<-|I]; auto|right; exists c', x, rest; cbn; auto].
  - right. exists c, x, rest. cbn. auto.
Qed.

Definition nolost (y y' : sys) : Prop := forall c p, In (EvLost c p) (y_log y') -> In (EvLost c p) (y_log y).
Lemma nolost_refl y : nolost y y.
Proof. intros c p H. exact H. Qed.
Lemma nolost_trans a b c : nolost a b -> nolost b c -> nolost a c.
Proof. intros H1 H2 d p I. apply H1, H2, I. Qed.

Definition dests (os : list output) : list string :=
  flat_map (fun o => match o with Sent to _ => [to] | Hook _ => [] end) os.
Lemma dests_app a b : dests (a ++ b) = dests a ++ dests b.
Proof. apply flat_map_app. Qed.
Lemma dests_hooks os : hooks os -> dests os = [].
Proof. induction 1 as [|[to p|e] os H F IH]; [reflexivity|destruct H|exact IH]. Qed.

Section Progress.
  Variable V : venv.
  Hypothesis GV : good_venv V.
  Variable cap : nat.
  Hypothesis Cap : (1 <= cap)%nat.
  Variable sers : list string.
  Variable K : list string.
  Hypothesis ND : NoDup K.

  Local Notation Inv := (Inv V sers [] None).
  (** all clients are in [K] *)
  Definition inK (y : sys) : Prop := forall c k, dget (y_cl y) c = Some k -> In c K.

  Lemma emit_nolost os : forall y c m r, NoDup (dests os) ->
    (forall to, In to (dests os) -> dmem (y_cl y) to = true /\ queue (y_down y) to = []) ->
    nolost y (emit cap y c m r os).
  Proof.
    induction os as [|[to p|e] os IH]; intros y c m r N H; [apply nolost_refl| |apply IH; assumption].
    cbn [dests flat_map app] in N, H. inversion N; subst. cbn [emit]. set (ev := if String.eqb to c then _ else _).
    destruct (H to) as [M Q]; [cbn; auto|].
    assert (D : deliver cap (logged y ev) to p =
                mkSys (y_sv y) (y_stack y) (y_dead y) (y_cl y) (y_up y) (dset (y_down y) to [p]) (y_log y ++ [ev])).
    { unfold deliver. cbn [logged y_cl y_down y_sv y_stack y_dead y_up y_log]. rewrite M, Q. cbn [andb List.length app].
      destruct (Nat.ltb_spec 0 cap); [reflexivity|lia]. }
    rewrite D. eapply nolost_trans; [|apply IH].
    - intros c0 p0 I. cbn [y_log] in I. apply in_app_or in I. destruct I as [I|[I|[]]]; [exact I|].
      unfold ev in I. destruct (String.eqb to c); discriminate.
    - exact H3.
    - intros to' I. cbn [y_cl y_down]. destruct (H to') as [M' Q']; [cbn; auto|]. split; [exact M'|].
      rewrite queue_dset_other; [exact Q'|]. intros ->. contradiction.
  Qed.

  Lemma escaped_rest y x : y_up (escaped y x) = y_up y /\ y_stack (escaped y x) = y_stack y /\ y_cl (escaped y x) = y_cl y.
  Proof. unfold escaped. destruct x; [destruct (y_stack y) eqn:E; cbn; auto|auto]. Qed.
  Lemma nolost_done y c m r x : nolost y (escaped (logged y (EvDone c m r x)) x).
  Proof.
    destruct (escaped_frame (logged y (EvDone c m r x)) x) as [_ E]. intros c0 p0 I. rewrite E in I. cbn in I.
    apply in_app_or in I. destruct I as [I|[I|[]]]; [exact I|discriminate].
  Qed.

  Lemma answer_dests c t m r o : answer V c t m r o -> dests o = [] \/ dests o = [c].
  Proof.
    unfold answer. destruct (0 <=? m_req m); [intros (p & -> & _); right; reflexivity|intro H; left; apply dests_hooks; exact H].
  Qed.
  Lemma notices_dests c l os : notices V c l os -> dests os = map fst (filter (fun ct => negb (String.eqb (fst ct) c)) l).
  Proof.
    unfold notices. generalize (filter (fun ct : string * string => negb (String.eqb (fst ct) c)) l). intro l'. revert os.
    induction l' as [|[d t] l' IH]; intros os F; inversion F as [|? ? ? ? Hx F']; subst; [reflexivity|].
    destruct Hx as (p & -> & _). cbn. f_equal. apply IH. exact F'.
  Qed.

  (** *** the server reads a message *)
  Lemma srecv_step y c m : Inv y -> sv_open (y_sv y) = true -> next_request y c = Some m ->
    (forall c', queue (y_down y) c' = []) ->
    let y' := ystep V cap y (SRecv c) in
    (exists f rest, queue (y_up y) c = f :: rest /\ queue (y_up y') c = rest) /\
    (forall c', c' <> c -> queue (y_up y') c' = queue (y_up y) c') /\
    (List.length (y_stack y') <= S (List.length (y_stack y)))%nat /\ y_cl y' = y_cl y /\ nolost y y'.
  Proof.
    intros I O NQ QD. destruct (i_open _ _ _ _ _ I O) as [Cl De].
    assert (CR : can_read y = true) by (unfold can_read; rewrite De, O, Cl; destruct (y_stack y); reflexivity).
    pose proof (next_up V _ y c I) as Q. rewrite NQ in Q. destruct Q as (rest & Q).
    cbn [ystep]. rewrite CR, Q. destruct (known_client V _ y c m I rest Q) as (k & Kc & Es & R & U & Sm).
    rewrite (read_frames _ c m R). cbn [logged set_up y_sv y_stack]. pose proof (i_sers _ _ _ _ _ I) as Sers.
    rewrite <- Sers in Sm.
    assert (KM : forall c', (exists k, dget (y_cl y) c' = Some k) -> dmem (y_cl y) c' = true).
    { intros c' (k' & H). unfold dmem. rewrite H. reflexivity. }
    assert (Fin : forall s' os r x, NoDup (dests os) -> (forall to, In to (dests os) -> dmem (y_cl y) to = true) ->
      let y' := escaped (logged (emit cap (set_sv (mkSys (y_sv y) (y_stack y) (y_dead y) (y_cl y) (dset (y_up y) c rest) (y_down y) (y_log y ++ [EvExec c m])) s') c m r os) (EvDone c m r x)) x in
      (exists f rest0, client_frames m :: rest = f :: rest0 /\ queue (y_up y') c = rest0) /\
      (forall c', c' <> c -> queue (y_up y') c' = queue (y_up y) c') /\
      (List.length (y_stack y') <= S (List.length (y_stack y)))%nat /\ y_cl y' = y_cl y /\ nolost y y').
    { intros s' os r x Nd Hd. set (y1 := set_sv _ s'). destruct (escaped_rest (logged (emit cap y1 c m r os) (EvDone c m r x)) x) as (E1 & E2 & E3).
      destruct (emit_frame cap os y1 c m r) as (_ & F2 & _ & F4 & F5). cbv zeta. rewrite E1, E2, E3.
      cbn [logged y_up y_stack y_cl]. rewrite F2, F4, F5. unfold y1. cbn [set_sv y_up y_stack y_cl].
      repeat (apply conj).
      - exists (client_frames m), rest. rewrite queue_dset_same. auto.
      - intros c' Ne. apply queue_dset_other. congruence.
      - lia.
      - reflexivity.
      - eapply nolost_trans; [|apply nolost_done]. eapply nolost_trans; [|apply emit_nolost; [exact Nd|]].
        + intros c0 p0 J. cbn in J. apply in_app_or in J. destruct J as [J|[J|[]]]; [exact J|discriminate].
        + intros to J. split; [apply Hd; exact J|apply QD]. }
    destruct (String.eqb_spec (m_action m) "close") as [Ac|NC].
    - destruct (close_any V GV (y_sv y) c m U Sm O Ac) as (s' & os & o & r & B & N & A & _).
      { intros c' t J. rewrite Sers. apply (sers_known V _ y I c' t J). }
      rewrite B. apply Fin.
      + rewrite dests_app. pose proof (answer_dests _ _ _ _ _ A) as Ao.
        assert (Dn : NoDup (dests os) /\ ~ In c (dests os)).
        { destruct N as [->|[N _]]; [split; [constructor|auto]|]. rewrite (notices_dests _ _ _ N). split.
          - apply NoDup_filter_keys. apply NoDup_dset. apply (i_keys _ _ _ _ _ I).
          - intro J. apply in_map_iff in J. destruct J as (ct & E & J). apply filter_In in J. destruct J as [_ J].
            rewrite E, String.eqb_refl in J. discriminate. }
        destruct Dn as [Dn Dc]. destruct Ao as [->| ->]; [rewrite app_nil_r; exact Dn|]. apply NoDup_app_one; assumption.
      + intros to J. rewrite dests_app in J. apply in_app_or in J. apply KM. destruct J as [J|J].
        * destruct N as [->|[N _]]; [destruct J|]. rewrite (notices_dests _ _ _ N) in J. apply in_map_iff in J.
          destruct J as ([c' t] & <- & J). apply filter_In in J. destruct J as [J _]. cbn [fst].
          unfold with_client in J. cbn [set_clients sv_clients] in J. apply in_dset in J. destruct J as [[-> ->]|J]; [eauto|].
          destruct (sers_known V _ y I c' t J) as [(k' & K' & _) _]. eauto.
        * destruct (answer_dests _ _ _ _ _ A) as [E|E]; rewrite E in J; [destruct J|]. destruct J as [<-|[]]. eauto.
    - destruct (begin_answer V GV (y_sv y) c m U Sm O NC) as [(s' & g & args & kw & B & Kp)|(s' & o & r & B & Kp & A)]; rewrite B.
      + cbn [emit set_stack set_sv y_up y_stack y_cl List.length logged set_up]. repeat (apply conj); try reflexivity.
        * exists (client_frames m), rest. rewrite queue_dset_same. auto.
        * intros c' Ne. apply queue_dset_other. congruence.
        * intros c0 p0 J. cbn in J. apply in_app_or in J. destruct J as [J|[J|[]]]; [exact J|discriminate].
      + apply Fin.
        * destruct (answer_dests _ _ _ _ _ A) as [->| ->]; repeat constructor. intros [].
        * intros to J. destruct (answer_dests _ _ _ _ _ A) as [E|E]; rewrite E in J; [destruct J|]. destruct J as [<-|[]]. eauto.
  Qed.

  (** *** user code returns *)
  Lemma sreturn_step y r a rest : Inv y -> y_stack y = a :: rest -> (forall c', queue (y_down y) c' = []) ->
    let y' := ystep V cap y (SReturn r) in
    y_stack y' = rest /\ y_up y' = y_up y /\ y_cl y' = y_cl y /\ nolost y y'.
  Proof.
    intros I S QD. cbn [ystep]. rewrite S.
    assert (NC : m_action (a_msg a) <> "close") by (apply (i_stack _ _ _ _ _ I); rewrite S; cbn; auto).
    assert (X : In (EvExec (a_caller a) (a_msg a)) (y_log y)).
    { apply in_all_exec. eapply Permutation_in; [symmetry; apply (i_perm _ _ _ _ _ I)|].
      apply in_or_app. right. rewrite S. cbn. auto. }
    destruct (i_sent _ _ _ _ _ I _ _ (exec_sent V sers _ _ _ _ _ I X)) as (k & Kc & Es & _).
    destruct (finish_request V (y_sv y) a r) as [[s' os] x] eqn:F.
    set (y1 := set_stack _ rest).
    match goal with |- context [escaped ?z ?w] => destruct (escaped_rest z w) as (E1 & E2 & E3) end.
    destruct (emit_frame cap os y1 (a_caller a) (a_msg a) r) as (_ & F2 & _ & F4 & F5).
    rewrite E1, E2, E3. cbn [logged y_up y_stack y_cl]. rewrite F2, F4, F5. repeat (apply conj); try reflexivity.
    eapply nolost_trans; [|apply nolost_done].
    assert (Do : dests os = [] \/ dests os = [a_caller a]).
    { destruct (sv_open (y_sv y)) eqn:O.
      - destruct (i_cl _ _ _ _ _ I _ k Kc) as (U & Sm & _).
        destruct (finish_answer V GV (y_sv y) a r (m_ser (a_msg a))) as (s2 & o2 & F3 & _ & _ & A & _); [|exact NC|].
        { repeat split; auto; [apply (i_known _ _ _ _ _ I); exact X|]. rewrite (i_sers _ _ _ _ _ I), Es. exact Sm. }
        rewrite F in F3. injection F3 as -> -> ->. exact (answer_dests _ _ _ _ _ A).
      - left. apply dests_hooks. exact (finish_closed V _ _ _ _ _ _ O F). }
    apply emit_nolost with (y := y1).
    - destruct Do as [->| ->]; repeat constructor. intros [].
    - intros to J. split; [|apply QD]. destruct Do as [E|E]; rewrite E in J; [destruct J|]. destruct J as [<-|[]].
      unfold y1, dmem. cbn [set_stack set_sv y_cl]. rewrite Kc. reflexivity.
  Qed.

  (** *** a client reads *)
  Lemma crecv_step y c p rest : Inv y -> queue (y_down y) c = p :: rest ->
    let y' := ystep V cap y (CRecv c) in
    queue (y_down y') c = rest /\ (forall c', c' <> c -> queue (y_down y') c' = queue (y_down y) c') /\
    y_up y' = y_up y /\ y_stack y' = y_stack y /\ y_sv y' = y_sv y /\ (inK y -> inK y') /\ nolost y y'.
  Proof.
    intros I Q. cbn [ystep]. rewrite Q.
    assert (Hk : exists k, dget (y_cl y) c = Some k).
    { destruct (i_down _ _ _ _ _ I c p) as [T|(m & r & T)]; [rewrite Q; cbn; auto| |].
      - destruct (i_tell _ _ _ _ _ I _ _ T) as (_ & _ & k & Kc & _). eauto.
      - destruct (i_reply _ _ _ _ _ I _ _ _ _ T) as (_ & _ & X).
        destruct (i_sent _ _ _ _ _ I _ _ (exec_sent V sers _ _ _ _ _ I X)) as (k & Kc & _). eauto. }
    destruct Hk as (k & Kc). rewrite Kc. destruct (client_recv V k p) as [k' e]. cbn [logged set_down set_cl y_down y_up y_stack y_sv y_cl y_log].
    repeat (apply conj); try reflexivity.
    - apply queue_dset_same.
    - intros c' Ne. apply queue_dset_other. congruence.
    - intros H c0 k0 D. cbn [logged set_down set_cl y_cl] in D. rewrite dget_dset in D. destruct (eqb_reflect c0 c) as [->|Ne]; [apply (H c k Kc)|apply (H c0 k0 D)].
    - intros c0 p0 J. cbn in J. apply in_app_or in J. destruct J as [J|[J|[]]]; [exact J|discriminate].
  Qed.

  Lemma down_client y c p rest : Inv y -> inK y -> queue (y_down y) c = p :: rest -> In c K.
  Proof.
    intros I H Q. destruct (i_down _ _ _ _ _ I c p) as [T|(m & r & T)]; [rewrite Q; cbn; auto| |].
    - destruct (i_tell _ _ _ _ _ I _ _ T) as (_ & _ & k & Kc & _). eauto.
    - destruct (i_reply _ _ _ _ _ I _ _ _ _ T) as (_ & _ & X).
      destruct (i_sent _ _ _ _ _ I _ _ (exec_sent V sers _ _ _ _ _ I X)) as (k & Kc & _). eauto.
  Qed.

  Lemma drain_down n : forall y, Inv y -> inK y -> (size K (queue (y_down y)) <= n)%nat ->
    exists ls, Forall delivery ls /\ let y' := yrun V cap y ls in
      Inv y' /\ inK y' /\ (forall c, queue (y_down y') c = []) /\ y_up y' = y_up y /\ y_stack y' = y_stack y /\
      y_sv y' = y_sv y /\ nolost y y'.
  Proof.
    induction n as [|n IH]; intros y I H L.
    - exists []. split; [constructor|]. cbn. repeat (apply conj; [assumption|]).
      repeat (apply conj); try reflexivity; [|apply nolost_refl].
      intro c. destruct (queue (y_down y) c) as [|p rest] eqn:Q; [reflexivity|]. exfalso.
      pose proof (down_client y c p rest I H Q) as J.
      rewrite (size_dec K (queue (y_down y)) (fun c' => if String.eqb c' c then rest else queue (y_down y) c') c p rest) in L; auto.
      + lia.
      + rewrite String.eqb_refl. reflexivity.
      + intros c' Ne. destruct (String.eqb_spec c' c); [contradiction|reflexivity].
    - destruct (size_find K (queue (y_down y))) as [E|(c & p & rest & J & Q)].
      + exists []. split; [constructor|]. cbn. repeat (apply conj; [assumption|]).
        repeat (apply conj); try reflexivity; [|apply nolost_refl].
        intro c. destruct (queue (y_down y) c) as [|p rest] eqn:Q; [reflexivity|].
        rewrite <- Q. apply E. exact (down_client y c p rest I H Q).
      + destruct (crecv_step y c p rest I Q) as (A1 & A2 & A3 & A4 & A5 & A6 & A7).
        set (y1 := ystep V cap y (CRecv c)) in *.
        assert (I1 : Inv y1) by (apply inv_step; [exact GV|exact I|exact Logic.I]).
        destruct (IH y1 I1 (A6 H)) as (ls & F & B1 & B2 & B3 & B4 & B5 & B6 & B7).
        { rewrite (size_dec K (queue (y_down y)) (queue (y_down y1)) c p rest ND J Q A1 A2) in L. lia. }
        exists (CRecv c :: ls). split; [constructor; [exact Logic.I|exact F]|]. cbn [yrun]. fold y1.
        repeat (apply conj); auto; try congruence. eapply nolost_trans; eauto.
  Qed.

  Lemma drain n : forall y, Inv y -> inK y -> (2 * size K (queue (y_up y)) + List.length (y_stack y) <= n)%nat ->
    exists ls, Forall delivery ls /\ let y' := yrun V cap y ls in
      (forall c, queue (y_down y') c = []) /\ y_stack y' = [] /\
      (sv_open (y_sv y') = true -> forall c, queue (y_up y') c = []) /\ nolost y y'.
  Proof.
    induction n as [n IH] using lt_wf_ind. intros y I H L.
    destruct (drain_down _ y I H (le_n _)) as (l1 & F1 & I1 & K1 & D1 & U1 & S1 & V1 & N1).
    set (y1 := yrun V cap y l1) in *.
    assert (Step : forall l, delivery l -> let y2 := ystep V cap y1 l in inK y2 ->
      (2 * size K (queue (y_up y2)) + List.length (y_stack y2) < n)%nat -> nolost y1 y2 ->
      exists ls, Forall delivery ls /\ let y' := yrun V cap y ls in
      (forall c, queue (y_down y') c = []) /\ y_stack y' = [] /\
      (sv_open (y_sv y') = true -> forall c, queue (y_up y') c = []) /\ nolost y y').
    { intros l Dl y2 K2 L2 N2. assert (I2 : Inv y2) by (apply inv_step; [exact GV|exact I1|destruct l; try exact Logic.I; destruct Dl]).
      destruct (IH _ L2 y2 I2 K2 (le_n _)) as (ls & F & B1 & B2 & B3 & B4).
      exists (l1 ++ l :: ls). split; [apply Forall_app; split; [exact F1|constructor; assumption]|].
      rewrite yrun_app. fold y1. cbn [yrun]. fold y2. repeat (apply conj; [assumption|]).
      eapply nolost_trans; [exact N1|]. eapply nolost_trans; eauto. }
    destruct (y_stack y1) as [|a rest] eqn:S.
    - destruct (sv_open (y_sv y1)) eqn:O.
      + destruct (size_find K (queue (y_up y1))) as [E|(c & f & q & J & Q)].
        * exists l1. split; [exact F1|]. cbv zeta. fold y1. repeat (apply conj); auto. intros _ c.
          pose proof (next_up V _ y1 c I1) as X. destruct (next_request y1 c) as [m|]; [|exact X].
          destruct X as (rest & X). destruct (known_client V _ y1 c m I1 rest X) as (k & Kc & _). rewrite <- (E c (K1 c k Kc)). reflexivity.
        * pose proof (next_up V _ y1 c I1) as X. destruct (next_request y1 c) as [m|] eqn:NQ; [|congruence].
          destruct (srecv_step y1 c m I1 O NQ D1) as ((f' & q' & Q1 & Q2) & A2 & A3 & A4 & A5).
          apply (Step (SRecv c) Logic.I); auto.
          -- intros c0 k0 D. rewrite A4 in D. apply (K1 c0 k0 D).
          -- pose proof (size_dec K (queue (y_up y1)) (queue (y_up (ystep V cap y1 (SRecv c)))) c f' q' ND J Q1 Q2 A2) as Sz.
             rewrite U1 in Sz. rewrite <- S1 in L. rewrite S in A3. cbn [List.length] in A3, L. lia.
      + exists l1. split; [exact F1|]. cbv zeta. fold y1. repeat (apply conj); auto. congruence.
    - destruct (sreturn_step y1 (Ok VNone) a rest I1 S D1) as (A1 & A2 & A3 & A4).
      apply (Step (SReturn (Ok VNone)) Logic.I); auto.
      + intros c0 k0 D. rewrite A3 in D. apply (K1 c0 k0 D).
      + rewrite A1, A2. rewrite <- S1 in L. rewrite U1. cbn [List.length] in L. lia.
  Qed.
End Progress.

Lemma can_drain V : good_venv V -> forall cap s, fresh_server s -> forall ls, joins_supported (sv_sers s) ls ->
  (1 <= cap)%nat -> let y := yrun V cap (yinit s) ls in
  exists ls', Forall delivery ls' /\ let y' := yrun V cap (yinit s) (ls ++ ls') in
    (forall c, queue (y_down y') c = []) /\ y_stack y' = [] /\
    (sv_open (y_sv y') = true -> quiescent y') /\
    (forall c p, In (EvLost c p) (y_log y') -> In (EvLost c p) (y_log y)).
Proof.
  intros GV cap s FS ls J C y. pose proof (run_inv V GV cap s FS ls J) as I. fold y in I.
  assert (Kn : inK (nodup string_dec (dkeys (y_cl y))) y).
  { intros c k D. apply nodup_In. apply dget_In in D. apply in_map_iff. exists (c, k). auto. }
  destruct (drain V GV cap C (sv_sers s) _ (NoDup_nodup string_dec _) _ y I Kn (le_n _)) as (ls' & F & A1 & A2 & A3 & A4).
  exists ls'. split; [exact F|]. cbv zeta. rewrite yrun_app. fold y. repeat (apply conj; [assumption|]).
  split; [|exact A4]. intro O. repeat (apply conj); auto.
Qed.
