(** Proxies in whole runs. *)
From Verif Require Import Py ObjTableModel ObjTableSpec ObjTableProofs SerModel SerSpec SerProofs SerProofs2 SerProofsJ
  FrameModel FrameProofs ServerModel ClientModel WireSpec WireProofs ServerProofs ServerProofs2 ClientProofs
  ApiModel ApiSpec ApiProofs RpcModel RpcSpec RpcInv RpcInv2 RpcInv3 RpcInv4 RpcProofs LifeSpec LifeProofs LifeProofs2.

Section RLife.
  Variable V : venv.
  Hypothesis GV : good_venv V.
  Variable cap : nat.
  Variable sers : list string.
  Variable addr : string.
  Variable st0 : sst.
  Variable tr0 : otrace.
  Hypothesis H0 : history (ss_o st0) tr0.
  Local Notation Inv := (Inv V sers [] None).
  Local Notation st y := (sv_st (y_sv y)).

  Definition asked (log : list event) (oid rid : Z) : Prop := exists c m, In (EvExec c m) log /\ asks_delete V m oid rid.

  (** the history of the table *)
  Definition past (y : sys) (tr : otrace) : Prop :=
    evolves st0 (st y) tr /\ sv_addr (y_sv y) = addr /\
    (forall oid rid, In (Delete oid rid, ODeleted) tr -> asked (y_log y) oid rid) /\
    (forall c m v p, In (EvReply c m (Ok v) p) (y_log y) -> by_proxy V m v ->
       exists px o, issued (tr0 ++ tr) (p_oid px) (p_rid px) o /\ (o < fresh (st y))%nat /\ value_at (st y) o v /\
         p_addr px = addr /\ p_attrs px = [] /\
         (forall srv2 st2, srv2 <> Some addr -> loads V (m_ser m) srv2 st2 p = Ok (reply (m_req m) (VProxy px) VNone)) /\
         (released (tr0 ++ tr) (p_oid px) (p_rid px) -> asked (y_log y) (p_oid px) (p_rid px))).
  Definition got (y : sys) : Prop :=
    forall c k rid w, dget (y_cl y) c = Some k -> finished k rid (Ok w) ->
      exists m r p st, In (EvReply c m r p) (y_log y) /\ m_req m = rid /\ loads V (c_ser k) (c_local k) st p = Ok (reply rid w VNone).

  Lemma past_history y tr : past y tr -> history (ss_o (st y)) (tr0 ++ tr).
  Proof. intros [[R _ _ _] _]. eapply history_extend; [exact H0|exact R]. Qed.

  Lemma past_step y y' tr tr1 : past y tr -> evolves (st y) (st y') tr1 -> sv_addr (y_sv y') = sv_addr (y_sv y) ->
    (forall e, In e (y_log y) -> In e (y_log y')) ->
    (forall oid rid, In (Delete oid rid, ODeleted) tr1 -> asked (y_log y') oid rid) ->
    (forall c m v p, In (EvReply c m (Ok v) p) (y_log y') -> by_proxy V m v -> In (EvReply c m (Ok v) p) (y_log y) \/
       exists ta tb, tr1 = ta ++ tb /\ stand V (st y') tb addr (m_ser m) (m_req m) v p) ->
    past y' (tr ++ tr1).
  Proof.
    intros P Ev Ad L D R. pose proof (past_history _ _ P) as Hi. destruct P as (Ev0 & Ad0 & D0 & R0).
    assert (Lift : forall oid rid, asked (y_log y) oid rid -> asked (y_log y') oid rid).
    { intros oid rid (c & m & I & A). exists c, m. auto. }
    assert (Rel : forall oid rid, released (tr0 ++ tr ++ tr1) oid rid -> released (tr0 ++ tr) oid rid \/ asked (y_log y') oid rid).
    { intros oid rid I. unfold released in *. rewrite app_assoc in I. apply in_app_or in I. destruct I; auto. }
    split; [eapply evolves_trans; eauto|]. split; [congruence|]. split.
    - intros oid rid I. apply in_app_or in I. destruct I as [I|I]; auto.
    - intros c m v p I BP. destruct (R _ _ _ _ I BP) as [I0|(ta & tb & -> & px & o & Is & Fr & Va & Pa & Pt & Ld)].
      + destruct (R0 _ _ _ _ I0 BP) as (px & o & (ok & Is) & Fr & Va & Pa & Pt & Ld & Re). exists px, o.
        split; [exists ok; rewrite app_assoc; apply in_or_app; auto|].
        split; [pose proof (ev_fresh _ _ _ Ev); lia|].
        split; [unfold value_at in *; rewrite (ev_boxes _ _ _ Ev) by exact Fr; exact Va|].
        repeat (apply conj; [assumption|]). intro I1. destruct (Rel _ _ I1) as [I2|?]; auto.
      + exists px, o. split; [destruct Is as [ok Is]; exists ok; rewrite !in_app_iff; auto|].
        repeat (apply conj; [assumption|]). intro I1. destruct (Rel _ _ I1) as [I2|?]; [exfalso|assumption].
        apply OInv_history in Hi. destruct (i_rel_iss _ _ Hi _ _ I2) as [o' Hi'].
        apply (rid_ne_later (map fst (ta ++ tb)) _ _ Hi _ _ _ Hi' (p_oid px) o). rewrite (ev_run _ _ _ Ev). cbn [snd].
        destruct Is as [ok Is]. exists ok. apply in_or_app. auto.
  Qed.

  (** a step that changes neither the table nor the replies *)
  Lemma past_same y y' tr : past y tr -> y_sv y' = y_sv y -> (forall e, In e (y_log y) -> In e (y_log y')) ->
    (forall c m r p, In (EvReply c m r p) (y_log y') -> In (EvReply c m r p) (y_log y)) -> past y' tr.
  Proof.
    intros P S L R. rewrite <- (app_nil_r tr). eapply past_step; eauto.
    - rewrite S. apply evolves_refl.
    - rewrite S. reflexivity.
    - intros ? ? [].
  Qed.

  Lemma emit_log os : forall y c m r, (forall e, In e (y_log y) -> In e (y_log (emit cap y c m r os))) /\
    (forall c' m' r' p, In (EvReply c' m' r' p) (y_log (emit cap y c m r os)) ->
       In (EvReply c' m' r' p) (y_log y) \/ (c' = c /\ m' = m /\ r' = r /\ In (Sent c p) os)).
  Proof.
    induction os as [|[to p|e] os IH]; intros y c m r; cbn [emit]; [auto| |].
    - set (ev := if String.eqb to c then _ else _). destruct (IH (deliver cap (logged y ev) to p) c m r) as [A B].
      assert (D : forall x, In x (y_log (deliver cap (logged y ev) to p)) <-> In x (y_log y) \/ x = ev \/
        (dmem (y_cl y) to && (List.length (queue (y_down y) to) <? cap)%nat = false /\ x = EvLost to p)).
      { intro x. unfold deliver. cbn [logged y_cl y_down]. destruct (_ && _); cbn [logged y_log]; rewrite !in_app_iff; cbn; intuition congruence. }
      split.
      + intros x I. apply A. apply D. auto.
      + intros c' m' r' q I. apply B in I. destruct I as [I|(-> & -> & -> & I)]; [|right; cbn; auto 10].
        apply D in I. destruct I as [I|[I|[_ I]]]; [auto| |discriminate].
        unfold ev in I. destruct (String.eqb_spec to c) as [->|]; [|discriminate]. injection I as -> -> -> ->. right. cbn; auto 10.
    - destruct (IH y c m r) as [A B]. split; [exact A|]. intros c' m' r' q I. apply B in I.
      destruct I as [I|(-> & -> & -> & I)]; [auto|]. right. cbn. auto.
  Qed.

  Lemma user_evolves s u : exists tr, evolves (sv_st s) (sv_st (user_step s u)) tr /\
    (forall oid rid, ~ In (Delete oid rid, ODeleted) tr) /\ sv_addr (user_step s u) = sv_addr s.
  Proof.
    destruct u as [k v|a|o|o]; cbn [user_step].
    - exists []. split; [apply evolves_refl|]. split; [auto|reflexivity].
    - exists [(Alloc a, snd (ostep (ss_o (sv_st s)) (Alloc a)))]. cbn [set_st sv_st sv_addr]. split; [|split; [intros ? ? [?|[]]; discriminate|reflexivity]].
      assert (F : (fresh (sv_st s) <= fresh_obj (hp (fst (ostep (ss_o (sv_st s)) (Alloc a)))))%nat).
      { cbn [ostep]. destruct (existsb _ _); cbn; lia. }
      constructor; cbn [ss_o ss_boxes].
      + cbn [map fst orun]. destruct (ostep (ss_o (sv_st s)) (Alloc a)). reflexivity.
      + auto.
      + exact F.
      + intros Q o v G. specialize (Q o v G). lia.
    - exists [(Free o, snd (ostep (ss_o (sv_st s)) (Free o)))]. cbn [set_st sv_st sv_addr]. split; [|split; [intros ? ? [?|[]]; discriminate|reflexivity]].
      assert (F : fresh_obj (hp (fst (ostep (ss_o (sv_st s)) (Free o)))) = fresh (sv_st s)).
      { cbn [ostep]. destruct (_ && _); reflexivity. }
      constructor; cbn [ss_o ss_boxes]; rewrite ?F; auto.
      cbn [map fst orun]. destruct (ostep (ss_o (sv_st s)) (Free o)). reflexivity.
    - exists [(GetProxy o true, snd (ostep (ss_o (sv_st s)) (GetProxy o true)))]. cbn [set_st sv_st sv_addr]. split; [|split; [intros ? ? [?|[]]; discriminate|reflexivity]].
      assert (F : fresh_obj (hp (fst (ostep (ss_o (sv_st s)) (GetProxy o true)))) = fresh (sv_st s)).
      { cbn [ostep]. destruct (dmem _ _); [|reflexivity]. destruct (get_proxy _ _ _ _); reflexivity. }
      constructor; cbn [ss_o ss_boxes]; rewrite ?F; auto.
      cbn [map fst orun]. destruct (ostep (ss_o (sv_st s)) (GetProxy o true)). reflexivity.
  Qed.

  Ltac red_y := cbn [logged set_sv set_stack set_cl set_up set_down y_sv y_stack y_dead y_cl y_up y_down y_log].

  Lemma skipn_suffix {A} (l r : list A) : skipn (List.length l) (l ++ r) = r.
  Proof. induction l; cbn; auto. Qed.
  Lemma log_suffix {A} (l l' : list A) x : (exists r, l' = l ++ r ++ [x]) -> In x (skipn (List.length l) l').
  Proof. intros (r & ->). rewrite skipn_suffix. apply in_or_app. cbn. auto. Qed.
  Lemma emit_suffix os : forall y c m r, exists l, y_log (emit cap y c m r os) = y_log y ++ l.
  Proof.
    induction os as [|[to p|e] os IH]; intros y c m r; cbn [emit]; [exists []; rewrite app_nil_r; reflexivity| |apply IH].
    match goal with |- context [emit cap ?z c m r os] => destruct (IH z c m r) as (l & ->) end.
    unfold deliver. cbn [logged y_cl y_down]. destruct (_ && _); cbn [y_log logged]; rewrite <- ?app_assoc; eexists; reflexivity.
  Qed.

  Lemma past_ystep y l tr : Inv y -> past y tr ->
    (forall c m v x, In (EvDone c m (Ok v) x) (skipn (List.length (y_log y)) (y_log (ystep V cap y l))) -> existing (st y) v) ->
    exists tr', past (ystep V cap y l) (tr ++ tr').
  Proof.
    intros I P X. pose proof (past_history _ _ P) as Hi. pose proof (history_heap _ _ Hi) as HO.
    assert (Same : forall y', y_sv y' = y_sv y -> (forall e, In e (y_log y) -> In e (y_log y')) ->
      (forall c m r p, In (EvReply c m r p) (y_log y') -> In (EvReply c m r p) (y_log y)) -> exists tr', past y' (tr ++ tr')).
    { intros y' A B C. exists []. rewrite app_nil_r. eapply past_same; eauto. }
    assert (Snoc : forall (l : list event) e c m r p, In (EvReply c m r p) (l ++ [e]) -> (forall c m r p, e <> EvReply c m r p) -> In (EvReply c m r p) l).
    { intros l0 e c m r p J N. apply in_app_or in J. destruct J as [J|[J|[]]]; [exact J|]. destruct (N _ _ _ _ J). }
    destruct l as [c ser local cst|c action opts rt sync|c|c rid|c cst|c|u|r]; cbn [ystep] in *.
    - destruct (_ || _); apply Same; auto.
    - destruct (dget (y_cl y) c); [|apply Same; auto]. destruct (_ && _); [|apply Same; auto].
      destruct (send V c0 action opts rt sync) as [[k' om] res]. destruct om as [m|]; [|apply Same; auto].
      apply Same; red_y; auto. + intros. apply in_or_app; auto. + intros. eapply Snoc; eauto. discriminate.
    - destruct (dget (y_cl y) c); [|apply Same; auto]. destruct (queue (y_down y) c); [apply Same; auto|].
      destruct (client_recv V c0 p) as [k' e]. apply Same; red_y; auto.
      + intros. apply in_or_app; auto. + intros. eapply Snoc; eauto. discriminate.
    - destruct (dget (y_cl y) c); [|apply Same; auto]. apply Same; red_y; auto.
      + intros. apply in_or_app; auto. + intros. eapply Snoc; eauto. discriminate.
    - destruct (dget (y_cl y) c); [|apply Same; auto]. apply Same; auto.
    - destruct (can_read y) eqn:CR; [|apply Same; auto]. destruct (queue (y_up y) c) as [|f rest] eqn:Q; [apply Same; auto|].
      assert (O : sv_open (y_sv y) = true).
      { unfold can_read in CR. destruct (y_dead y); [discriminate|]. destruct (sv_open (y_sv y)); [reflexivity|discriminate]. }
      assert (Hm : exists m, f = client_frames m).
      { destruct (i_up _ _ _ _ _ I c) as (ms & E & _). rewrite Q in E. destruct ms as [|m ms]; [discriminate|].
        exists m. exact (f_equal (hd []) E). }
      destruct Hm as (m & ->). destruct (known_client V sers y c m I rest Q) as (k & K & Es & R & U & Sm).
      rewrite (read_frames _ c m R) in *. cbn [logged set_up y_sv y_stack] in *.
      pose proof (i_sers _ _ _ _ _ I) as Sers. rewrite <- Sers in Sm.
      destruct (begin_request V (y_sv y) c m) as [[s' os] b] eqn:B.
      assert (Ad : sv_addr s' = sv_addr (y_sv y)).
      { destruct (String.eqb_spec (m_action m) "close") as [Cl|NC].
        - destruct (close_any V GV (y_sv y) c m U Sm O Cl) as (s2 & os2 & o2 & r2 & B2 & _ & _ & _ & _ & _ & _ & _ & A2).
          { intros c' t J. rewrite Sers. apply (sers_known V sers y I c' t J). }
          rewrite B in B2. injection B2 as -> _ _. exact A2.
        - destruct (begin_answer V GV (y_sv y) c m U Sm O NC) as [(s2 & g & args & kw & B2 & Kp)|(s2 & o2 & r2 & B2 & Kp & A)];
            rewrite B in B2; injection B2 as -> _ _; destruct Kp as (_ & _ & _ & _ & _ & Kp); exact Kp. }
      set (y1 := set_sv _ s') in *.
      assert (Ex : In (EvExec c m) (y_log y1)) by (apply in_or_app; cbn; auto).
      destruct (begin_life V GV (y_sv y) c m s' os b O U Sm HO B) as (tr1 & Ev & Dl & St).
      { intros v x ->. apply (X c m v x). destruct (emit_suffix os y1 c m (Ok v)) as (l & E).
        destruct (escaped_frame (logged (emit cap y1 c m (Ok v) os) (EvDone c m (Ok v) x)) x) as [_ EL].
        rewrite EL. cbn [logged y_log]. rewrite E. unfold y1. red_y.
        apply log_suffix. exists ([EvExec c m] ++ l). rewrite <- !app_assoc. reflexivity. }
      assert (DA : forall log, In (EvExec c m) log -> forall oid rid, In (Delete oid rid, ODeleted) tr1 -> asked log oid rid).
      { intros log J oid rid J1. exists c, m. split; [exact J|]. destruct (Dl _ J1) as [(o & ?)|[(a & ?)|(oid' & rid' & E & A)]]; try discriminate.
        injection E as -> ->. exact A. }
      destruct P as (P1 & Pa & P2 & P3). pose proof (conj P1 (conj Pa (conj P2 P3))) as P.
      exists tr1. destruct b as [r x|a f args kw].
      + destruct (emit_log os y1 c m r) as [L1 L2].
        destruct (escaped_frame (logged (emit cap y1 c m r os) (EvDone c m r x)) x) as [ES EL].
        destruct (emit_frame cap os y1 c m r) as (F1 & _).
        apply past_step with y; auto; rewrite ?ES, ?EL; cbn [logged y_sv y_log]; rewrite ?F1; auto.
        * intros e J. apply in_or_app. left. apply L1. apply in_or_app. auto.
        * apply DA. apply in_or_app. left. apply L1. exact Ex.
        * intros c' m' v p J BP. apply Snoc in J; [|discriminate]. apply L2 in J.
          destruct J as [J|(-> & -> & <- & J)]; [left; apply Snoc in J; [exact J|discriminate]|]. right. rewrite <- Pa.
          exact (St v x p eq_refl BP J).
      + destruct (emit_log os y1 c m (Ok VNone)) as [L1 L2]. destruct (emit_frame cap os y1 c m (Ok VNone)) as (F1 & _).
        assert (os = []) as ->.
        { destruct (String.eqb_spec (m_action m) "close") as [Cl|NC].
          - destruct (close_any V GV (y_sv y) c m U Sm O Cl) as (s2 & os2 & o2 & r2 & B2 & _).
            { intros c' t J. rewrite Sers. apply (sers_known V sers y I c' t J). } congruence.
          - destruct (begin_answer V GV (y_sv y) c m U Sm O NC) as [(s2 & g & args2 & kw2 & B2 & Kp)|(s2 & o2 & r2 & B2 & Kp & A)]; congruence. }
        apply past_step with y; auto; cbn [emit set_stack y_sv y_log] in *; auto.
        * intros e J. apply in_or_app. auto.
        * intros c' m' v p J BP. left. apply Snoc in J; [exact J|discriminate].
    - destruct (user_evolves (y_sv y) u) as (tr1 & Ev & N & Ad). exists tr1. apply past_step with y; auto.
      intros oid rid J. destruct (N _ _ J).
    - destruct (y_stack y) as [|a rest] eqn:S; [apply Same; auto|].
      destruct (finish_request V (y_sv y) a r) as [[s' os] x] eqn:F.
      assert (Ex : In (EvExec (a_caller a) (a_msg a)) (y_log y)).
      { apply in_all_exec. eapply Permutation.Permutation_in; [symmetry; apply (i_perm _ _ _ _ _ I)|].
        apply in_or_app. right. rewrite S. cbn. auto. }
      set (y1 := set_stack _ rest) in *.
      destruct (finish_life V GV (y_sv y) a r s' os x (m_ser (a_msg a))) as (tr1 & Ev & Mk & St); auto.
      { intro O. destruct (i_sent _ _ _ _ _ I _ _ (exec_sent V sers _ _ _ _ _ I Ex)) as (k & K & Es & _).
        destruct (i_cl _ _ _ _ _ I _ k K) as (U & Sm & _). repeat split; auto; [apply (i_known _ _ _ _ _ I); exact Ex|].
        rewrite (i_sers _ _ _ _ _ I), Es. exact Sm. }
      { intros v ->. apply (X (a_caller a) (a_msg a) v x). destruct (emit_suffix os y1 (a_caller a) (a_msg a) (Ok v)) as (l & E).
        match goal with |- context [escaped ?z ?w] => destruct (escaped_frame z w) as [_ EL]; rewrite EL end.
        cbn [logged y_log]. rewrite E. unfold y1. red_y.
        apply log_suffix. exists l. rewrite <- !app_assoc. reflexivity. }
      destruct P as (P1 & Pa & P2 & P3). pose proof (conj P1 (conj Pa (conj P2 P3))) as P.
      exists tr1. destruct (emit_log os y1 (a_caller a) (a_msg a) r) as [L1 L2].
      destruct (escaped_frame (logged (emit cap y1 (a_caller a) (a_msg a) r os) (EvDone (a_caller a) (a_msg a) r x)) x) as [ES EL].
      destruct (emit_frame cap os y1 (a_caller a) (a_msg a) r) as (F1 & _).
      apply past_step with y; auto; rewrite ?ES, ?EL; cbn [logged y_sv y_log]; rewrite ?F1; auto.
      + destruct (finish_shell V _ _ _ _ _ _ F) as (_ & _ & _ & _ & _ & Q & _). exact Q.
      + intros e J. apply in_or_app. left. apply L1. exact J.
      + intros oid rid J. destruct (Mk _ J) as [(o & ?)|(z & ?)]; discriminate.
      + intros c' m' v p J BP. apply Snoc in J; [|discriminate]. apply L2 in J.
        destruct J as [J|(-> & -> & <- & J)]; [left; exact J|]. right. exists [], tr1. split; [reflexivity|]. rewrite <- Pa.
        exact (St v p eq_refl BP J).
  Qed.

  Lemma got_ystep y l : Inv y -> got y -> got (ystep V cap y l).
  Proof.
    intros I G.
    assert (Same : forall y', (forall c k', dget (y_cl y') c = Some k' -> exists k, dget (y_cl y) c = Some k /\
        c_ser k' = c_ser k /\ c_local k' = c_local k /\ c_done k' = c_done k) ->
      (forall e, In e (y_log y) -> In e (y_log y')) -> got y').
    { intros y' A B c k' rid w K F. destruct (A _ _ K) as (k & K0 & E1 & E2 & E3). unfold finished in F. rewrite E3 in F.
      destruct (G c k rid w K0 F) as (m & r & p & st & J & Em & L). exists m, r, p, st. rewrite E1, E2. auto. }
    assert (Keep : forall c k', dget (y_cl y) c = Some k' -> exists k, dget (y_cl y) c = Some k /\
        c_ser k' = c_ser k /\ c_local k' = c_local k /\ c_done k' = c_done k) by eauto.
    assert (Emit : forall os y1 c m r e x, y_cl y1 = y_cl y -> (forall e, In e (y_log y) -> In e (y_log y1)) ->
      got (escaped (logged (emit cap y1 c m r os) e) x)).
    { intros os y1 c m r e x C L. destruct (escaped_frame (logged (emit cap y1 c m r os) e) x) as [_ EL].
      assert (EC : y_cl (escaped (logged (emit cap y1 c m r os) e) x) = y_cl y).
      { destruct (emit_frame cap os y1 c m r) as (_ & _ & _ & F4 & F5). unfold escaped.
        destruct x; [destruct (y_stack _)|]; cbn [logged y_cl]; congruence. }
      apply Same; [rewrite EC; exact Keep|]. rewrite EL. cbn [logged y_log]. intros e0 J. apply in_or_app. left.
      destruct (emit_log os y1 c m r) as [L1 _]. auto. }
    destruct l as [c ser local cst|c action opts rt sync|c|c rid|c cst|c|u|r]; cbn [ystep] in *.
    - destruct (dmem (y_cl y) c) eqn:D; cbn [orb]; [exact G|]. destruct (_ || _); [exact G|].
      intros c' k' rid w. red_y. rewrite dget_dset. destruct (eqb_reflect c' c) as [->|N].
      + intros [= <-]. discriminate.
      + intros K F. destruct (G _ _ _ _ K F) as (m & r & p & st & J & Em & L). eauto 10.
    - destruct (dget (y_cl y) c) as [k|] eqn:K; [|exact G]. destruct (_ && _); [|exact G].
      destruct (send V k action opts rt sync) as [[k' om] res] eqn:S.
      destruct (send_cases V k action opts rt sync k' om res S) as ((A1 & A2 & A3 & A4 & _) & _).
      assert (C : forall c0 k0, dget (dset (y_cl y) c k') c0 = Some k0 -> exists k, dget (y_cl y) c0 = Some k /\
        c_ser k0 = c_ser k /\ c_local k0 = c_local k /\ c_done k0 = c_done k).
      { intros c0 k0. rewrite dget_dset. destruct (eqb_reflect c0 c) as [->|N]; [intros [= <-]; eauto|eauto]. }
      destruct om; apply Same; red_y; auto. intros. apply in_or_app; auto.
    - destruct (dget (y_cl y) c) as [k|] eqn:K; [|exact G]. destruct (queue (y_down y) c) as [|p rest] eqn:Q; [exact G|].
      destruct (client_recv V k p) as [k' e] eqn:R.
      assert (Lg : forall rid w, finished k' rid (Ok w) -> c_ser k' = c_ser k /\ c_local k' = c_local k /\
        exists m r p st, In (EvReply c m r p) (y_log y) /\ m_req m = rid /\ loads V (c_ser k) (c_local k) st p = Ok (reply rid w VNone)).
      { intros rid w F. unfold finished in F.
        assert (W : In (EvTell c p) (y_log y) \/ exists m r, In (EvReply c m r p) (y_log y)).
        { apply (i_down _ _ _ _ _ I). rewrite Q. cbn. auto. }
        assert (CL : forall k b o, c_local (complete k rid b o) = c_local k /\ c_ser (complete k rid b o) = c_ser k).
        { intros k0 b o. split; [|apply complete_ser]. unfold complete. destruct b; [|reflexivity]. destruct o as [[]|]; try reflexivity. destruct b; reflexivity. }
        destruct W as [W|(m & r & W)].
        - destruct (i_tell _ _ _ _ _ I _ _ W) as (_ & _ & k1 & K1 & L). rewrite K in K1. injection K1 as <-.
          rewrite (recv_notice V k p (L _ _)) in R. injection R as <- <-. rewrite disconnected_done in F.
          destruct (smem _ _); [discriminate|]. split; [reflexivity|]. split; [reflexivity|]. exact (G c k rid w K F).
        - destruct (i_reply _ _ _ _ _ I _ _ _ _ W) as (Rp & Z0 & Xe).
          destruct (i_sent _ _ _ _ _ I _ _ (exec_sent V sers _ _ _ _ _ I Xe)) as (k1 & K1 & Es & _).
          rewrite K in K1. injection K1 as <-. rewrite Es in Rp.
          assert (Main : forall v er, loads V (c_ser k) (c_local k) (c_st k) p = Ok (reply (m_req m) v er) ->
            (er = VNone \/ exists e0, v = VNone /\ er = seen V (c_ser k) (error_value V e0)) ->
            c_ser k' = c_ser k /\ c_local k' = c_local k /\
            exists m r p st, In (EvReply c m r p) (y_log y) /\ m_req m = rid /\ loads V (c_ser k) (c_local k) st p = Ok (reply rid w VNone)).
          { intros v er L Er. unfold client_recv in R. rewrite L in R.
            assert (Cs : k' = k \/ exists b o, k' = complete (set_futs k (ddel (c_futs k) (m_req m))) (m_req m) b o /\ (forall v', o = Ok v' -> v' = v /\ er = VNone)).
            { destruct Er as [->|(e0 & -> & ->)].
              - rewrite process_reply_ok in R. destruct (dget (c_futs k) (m_req m)); injection R as <- _; [right|auto].
                eexists _, _. split; [reflexivity|]. intros v' [= <-]. auto.
              - rewrite (process_reply_err V) in R. destruct (dget (c_futs k) (m_req m)); injection R as <- _; [right|auto].
                eexists _, _. split; [reflexivity|]. intros v' [=]. }
            destruct Cs as [->|(b & o & -> & Ho)]; [split; [reflexivity|]; split; [reflexivity|]; exact (G c k rid w K F)|].
            assert (CL' : forall k rid b o, c_local (complete k rid b o) = c_local k).
            { intros k0 i b0 o0. unfold complete. destruct b0; [|reflexivity]. destruct o0 as [[]|]; try reflexivity. destruct b0; reflexivity. }
            rewrite complete_ser, CL'. split; [reflexivity|]. split; [reflexivity|].
            apply complete_done in F. destruct F as [[-> E]|[F|[F _]]]; [| |discriminate].
            - destruct (Ho w (eq_sym E)) as [-> ->]. exists m, r, p, (c_st k). auto.
            - exact (G c k rid w K F). }
          destruct Rp as [e0 p L|v f p L Fs|v e0 p N L].
          + apply (Main _ _ (L _ _)). eauto.
          + destruct (f (c_local k) (c_st k)) as [v'|e1] eqn:Fv.
            * specialize (L (c_local k) (c_st k)). rewrite Fv in L. apply (Main _ _ L). auto.
            * unfold client_recv in R. rewrite L, Fv in R. cbn [bind] in R. injection R as <- _.
              split; [reflexivity|]. split; [reflexivity|]. exact (G c k rid w K F).
          + apply (Main _ _ (L _ _)). eauto. }
      intros c0 k0 rid w. red_y. rewrite dget_dset. destruct (eqb_reflect c0 c) as [->|N].
      + intros [= <-] F. destruct (Lg rid w F) as (E1 & E2 & m & r & q & st & J & Em & L). exists m, r, q, st. rewrite E1, E2.
        split; [apply in_or_app; auto|auto].
      + intros K0 F. destruct (G _ _ _ _ K0 F) as (m & r & q & st & J & Em & L). exists m, r, q, st. split; [apply in_or_app; auto|auto].
    - destruct (dget (y_cl y) c) as [k|] eqn:K; [|exact G]. apply Same; red_y; [|intros; apply in_or_app; auto].
      intros c0 k0. rewrite dget_dset. destruct (eqb_reflect c0 c) as [->|N]; [intros [= <-]; exists k; auto|eauto].
    - destruct (dget (y_cl y) c) as [k|] eqn:K; [|exact G]. apply Same; red_y; auto.
      intros c0 k0. rewrite dget_dset. destruct (eqb_reflect c0 c) as [->|N]; [intros [= <-]; exists k; auto|eauto].
    - destruct (can_read y); [|exact G]. destruct (queue (y_up y) c) as [|f rest]; [exact G|].
      destruct (read_one (ve_utf8 V) c f) as [[cc m]|e].
      + destruct (begin_request V _ c m) as [[s' os] [r x|a g args kw]].
        * apply Emit; [reflexivity|]. intros. apply in_or_app; auto.
        * match goal with |- got (set_stack (emit cap ?z _ _ _ _) _) => set (y1 := z) end.
          destruct (emit_frame cap os y1 c m (Ok VNone)) as (_ & _ & _ & F4 & F5). destruct (emit_log os y1 c m (Ok VNone)) as [L1 _].
          apply Same; cbn [set_stack y_cl y_log].
          -- replace (y_cl (emit cap y1 c m (Ok VNone) os)) with (y_cl y) by (symmetry; assumption). exact Keep.
          -- intros e J. apply L1. apply in_or_app; auto.
      + unfold escaped. destruct (y_stack _); apply Same; auto.
    - apply Same; auto.
    - destruct (y_stack y) as [|a rest]; [exact G|]. destruct (finish_request V (y_sv y) a r) as [[s' os] x].
      apply Emit; auto.
  Qed.

  Lemma life_run ls : forall y tr, Inv y -> past y tr -> got y -> joins_supported sers ls -> results_exist V cap y ls ->
    exists tr', past (yrun V cap y ls) (tr ++ tr') /\ got (yrun V cap y ls) /\ Inv (yrun V cap y ls).
  Proof.
    induction ls as [|l ls IH]; intros y tr I P G J X; [exists []; rewrite app_nil_r; auto|].
    inversion J; subst. destruct X as [X1 X2]. cbn [yrun]. destruct (past_ystep y l tr I P X1) as (t1 & P1).
    destruct (IH (ystep V cap y l) (tr ++ t1)) as (t2 & P2 & R); auto.
    - apply inv_step; auto.
    - apply got_ystep; auto.
    - exists (t1 ++ t2). rewrite app_assoc. auto.
  Qed.
End RLife.
