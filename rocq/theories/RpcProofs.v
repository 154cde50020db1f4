(** Consequences of the invariant. *)
From Verif Require Import Py ObjTableModel SerModel SerSpec SerProofs SerProofs2 SerProofsJ
  FrameModel FrameProofs ServerModel ClientModel WireSpec WireProofs ServerProofs ServerProofs2 ClientProofs RpcModel RpcSpec
  RpcInv RpcInv2 RpcInv3 RpcInv4.
From Coq Require Import Permutation.

Lemma yrun_app V cap ls ls' : forall y, yrun V cap y (ls ++ ls') = yrun V cap (yrun V cap y ls) ls'.
Proof. induction ls as [|l ls IH]; intro y; [reflexivity|]. cbn [app yrun]. apply IH. Qed.

(** what is next in the queue, from the log *)
Lemma next_up V sers y c : Inv V sers [] None y ->
  match next_request y c with
  | Some m => exists rest, queue (y_up y) c = client_frames m :: rest
  | None => queue (y_up y) c = []
  end.
Proof.
  intro I. unfold next_request. destruct (i_up _ _ _ _ _ I c) as (ms & -> & ->).
  rewrite nth_error_app2 by lia. rewrite Nat.sub_diag. destruct ms; cbn; eauto.
Qed.

Section Runs.
  Variable V : venv.
  Hypothesis GV : good_venv V.
  Variable cap : nat.
  Variable s : sv.
  Hypothesis FS : fresh_server s.
  Variable ls : list label.
  Hypothesis JS : joins_supported (sv_sers s) ls.
  Let y := yrun V cap (yinit s) ls.
  Let I : Inv V (sv_sers s) [] None y := inv_run V GV cap (sv_sers s) ls (yinit s) (inv_init V (sv_sers s) s FS eq_refl) JS.

  Lemma done_exec c m r x : In (EvDone c m r x) (y_log y) -> In (EvExec c m) (y_log y).
  Proof.
    intro H. apply in_all_exec. eapply Permutation_in; [symmetry; apply (i_perm _ _ _ _ _ I)|].
    apply in_or_app. left. apply in_all_done. eauto.
  Qed.

  (** ** C17 *)
  Lemma executed_prefix c : exists rest, sent_by c (y_log y) = executed_for c (y_log y) ++ rest.
  Proof. destruct (i_up _ _ _ _ _ I c) as (ms & _ & E). eauto. Qed.

  (** ** At most one outcome per request *)
  Lemma done_keys_nodup c : NoDup (map (fun x => m_req (snd x))
    (filter (fun x : string * msg => String.eqb (fst x) c && (0 <=? m_req (snd x))) (all_done (y_log y)))).
  Proof.
    set (g := fun x : string * msg => m_req (snd x)). set (f := fun x : string * msg => String.eqb (fst x) c && (0 <=? m_req (snd x))).
    assert (ND : NoDup (map g (filter f (all_exec (y_log y))))).
    { destruct (i_up _ _ _ _ _ I c) as (ms & _ & L). pose proof (i_ids _ _ _ _ _ I c) as N. rewrite L in N.
      rewrite map_app, filter_app in N.
      assert (NN : NoDup (filter (Z.leb 0) (map m_req (executed_for c (y_log y))))).
      { clear - N. induction (filter (Z.leb 0) (map m_req (executed_for c (y_log y)))) as [|x l IH]; [constructor|].
        cbn in N. inversion N; subst. constructor; [|auto]. intro. apply H1. apply in_or_app. auto. }
      replace (map g (filter f (all_exec (y_log y)))) with (filter (Z.leb 0) (map m_req (executed_for c (y_log y)))); [exact NN|].
      clear. induction (y_log y) as [|e l IH]; [reflexivity|].
      unfold executed_for, all_exec in *. cbn [flat_map]. rewrite map_app, !filter_app, map_app, IH. f_equal.
      destruct e; try reflexivity. cbn [filter]. unfold f, g. cbn [fst snd].
      destruct (String.eqb c0 c); cbn [map filter andb]; [|reflexivity]. destruct (0 <=? m_req m); reflexivity. }
    assert (P' : Permutation (map g (filter f (all_exec (y_log y))))
                             (map g (filter f (all_done (y_log y) ++ [] ++ on_stack (y_stack y))))).
    { apply Permutation_map. pose proof (i_perm _ _ _ _ _ I) as P. clear - P.
      induction P as [|x l l' P IH|x z l|l l' l'' P1 IH1 P2 IH2]; cbn [filter].
      - constructor.
      - destruct (f x); [constructor|]; exact IH.
      - destruct (f x), (f z); try reflexivity. apply perm_swap.
      - etransitivity; eauto. }
    pose proof (Permutation_NoDup P' ND) as N2. rewrite !filter_app, !map_app in N2.
    clear - N2. induction (map g (filter f (all_done (y_log y)))) as [|x l IH]; [constructor|].
    cbn in N2. inversion N2; subst. constructor; [|auto]. intro. apply H1. apply in_or_app. auto.
  Qed.

  Lemma done_unique c m r x r' x' : 0 <= m_req m -> In (EvDone c m r x) (y_log y) -> In (EvDone c m r' x') (y_log y) ->
    r = r' /\ x = x'.
  Proof.
    intros Z0. pose proof (done_keys_nodup c) as N. revert N. generalize (y_log y) as log.
    set (g := fun x : string * msg => m_req (snd x)). set (f := fun x : string * msg => String.eqb (fst x) c && (0 <=? m_req (snd x))).
    assert (F : f (c, m) = true).
    { unfold f. cbn. rewrite String.eqb_refl. apply Z.leb_le in Z0. rewrite Z0. reflexivity. }
    assert (G : forall log r x, In (EvDone c m r x) log -> In (m_req m) (map g (filter f (all_done log)))).
    { intros log r0 x0 H. apply in_map_iff. exists (c, m). split; [reflexivity|]. apply filter_In.
      split; [apply in_all_done; eauto|exact F]. }
    induction log as [|e log IH]; intros N H1 H2; [destruct H1|].
    assert (NI : forall r x, e = EvDone c m r x -> In (m_req m) (map g (filter f (all_done log))) -> False).
    { intros r0 x0 -> Hin. cbn [all_done flat_map app filter] in N. rewrite F in N. cbn [map] in N. inversion N; auto. }
    destruct H1 as [H1|H1], H2 as [H2|H2].
    - rewrite H1 in H2. injection H2. auto.
    - exfalso. apply (NI _ _ H1). eauto.
    - exfalso. apply (NI _ _ H2). eauto.
    - apply IH; auto. destruct e; try exact N. cbn [all_done flat_map app filter] in N.
      destruct (f (c0, m0)); [cbn [map] in N; inversion N; auto|exact N].
  Qed.

  (** ** C16 *)
  Lemma matched c k rid o : dget (y_cl y) c = Some k -> finished k rid o ->
    (c_disc k = true /\ o = Err RuntimeError) \/
    exists m r, In (EvSent c m) (y_log y) /\ m_req m = rid /\
      (forall m', In (EvSent c m') (y_log y) -> m_req m' = rid -> m' = m) /\
      In (EvDone c m r None) (y_log y) /\
      (forall r' x, In (EvDone c m r' x) (y_log y) -> r' = r) /\
      answers V (c_ser k) m r o.
  Proof.
    intros K D. destruct (i_done _ _ _ _ _ I _ _ _ _ K D) as [?|(m & r & p & R & E & A & _)]; [auto|right].
    destruct (i_reply _ _ _ _ _ I _ _ _ _ R) as (_ & Z0 & X). pose proof (exec_sent V _ _ _ _ _ _ I X) as Sm.
    destruct (i_redone _ _ _ _ _ I _ _ _ _ R) as [Dn|[[] _]].
    exists m, r. repeat (apply conj; [assumption|]). split.
    { intros m' S' E'. symmetry. eapply (sent_unique V (sv_sers s)); eauto; congruence. }
    split; [exact Dn|]. split; [|exact A].
    intros r' x D'. destruct (done_unique _ _ _ _ _ _ Z0 Dn D') as [-> _]. reflexivity.
  Qed.

  (** ** C18 *)
  Lemma all_complete c k m : quiescent y -> sv_open (y_sv y) = true ->
    (forall p, ~ In (EvLost c p) (y_log y)) -> (forall p e, ~ In (EvRead c p (Some e)) (y_log y)) ->
    In (EvSent c m) (y_log y) -> 0 <= m_req m -> ~ In (EvDrop c (m_req m)) (y_log y) ->
    dget (y_cl y) c = Some k -> exists o, finished k (m_req m) o.
  Proof.
    intros (Q1 & Q2 & Q3) O NL NE Sm Z0 ND K.
    destruct (i_pend _ _ _ _ _ I _ _ _ Sm Z0 K) as [L|[L|L]]; [|apply dkey_dget in L; exact L|contradiction].
    exfalso. destruct (i_up _ _ _ _ _ I c) as (ms & E & S). rewrite Q1 in E. destruct ms; [|discriminate]. rewrite app_nil_r in S.
    assert (X : In (EvExec c m) (y_log y)) by (apply in_exec; rewrite <- S; apply in_sent; exact Sm).
    assert (D : In (c, m) (all_done (y_log y))).
    { pose proof (i_perm _ _ _ _ _ I) as P. rewrite Q3 in P. cbn in P. rewrite app_nil_r in P.
      eapply Permutation_in; [exact P|]. apply in_all_exec. exact X. }
    apply in_all_done in D. destruct D as (r & x & D). pose proof (i_answered _ _ _ _ _ I _ _ _ _ D) as A.
    destruct x; [congruence|]. destruct (A Z0) as (p & R).
    destruct (i_rep _ _ _ _ _ I _ _ _ _ _ R K) as [J|[J|[(e & J)|(_ & J & _)]]].
    - rewrite Q2 in J. destruct J.
    - exact (NL _ J).
    - exact (NE _ _ J).
    - contradiction.
  Qed.

  Lemma no_reply_to_off c m r p : In (EvReply c m r p) (y_log y) -> 0 <= m_req m.
  Proof. intro R. apply (i_reply _ _ _ _ _ I _ _ _ _ R). Qed.
  Lemma one_reply : NoDup (all_rep (y_log y)).
  Proof. apply (i_once _ _ _ _ _ I). Qed.

  (** ** C24, the part that holds *)
  Lemma closer_learns c k m : dget (y_cl y) c = Some k ->
    In (EvDone c m (Ok (VBool true)) None) (y_log y) -> m_action m = "close" -> 0 <= m_req m -> m_rt m <> "proxy" ->
    ~ In (EvDrop c (m_req m)) (y_log y) -> queue (y_down y) c = [] ->
    (forall p, ~ In (EvLost c p) (y_log y)) -> (forall p e, ~ In (EvRead c p (Some e)) (y_log y)) ->
    c_disc k = true.
  Proof.
    intros K D A Z0 Rt ND Q NL NE. pose proof (i_answered _ _ _ _ _ I _ _ _ _ D) as An. destruct (An Z0) as (p & R).
    destruct (i_rep _ _ _ _ _ I _ _ _ _ _ R K) as [J|[J|[(e & J)|(_ & J & W)]]].
    - rewrite Q in J. destruct J.
    - destruct (NL _ J).
    - destruct (NE _ _ J).
    - destruct (W A eq_refl Rt); [contradiction|assumption].
  Qed.

  Lemma disc_only_after_close c k : dget (y_cl y) c = Some k -> c_disc k = true -> sv_closed (y_sv y) = true.
  Proof. apply (i_disc _ _ _ _ _ I). Qed.
End Runs.

(** ** Who can close the socket *)
Section Sock.
  Variable V : venv.
  Hypothesis GV : good_venv V.
  Variable cap : nat.
  Variable sers : list string.

  Record Sock (y : sys) : Prop := {
    k_open : sv_open (y_sv y) = false -> exists c m, In (EvExec c m) (y_log y) /\ m_action m = "close";
    k_reg : sv_open (y_sv y) = true -> sv_reg (y_sv y) = true
  }.

  Lemma emit_log os : forall y c m r e, In e (y_log y) -> In e (y_log (emit cap y c m r os)).
  Proof.
    induction os as [|[to p|x] os IH]; intros y c m r e H; [exact H| |apply IH; exact H].
    cbn [emit]. apply IH. unfold deliver. destruct (_ && _); cbn; repeat (apply in_or_app; left); auto.
  Qed.
  Lemma escaped_frame y x : y_sv (escaped y x) = y_sv y /\ y_log (escaped y x) = y_log y.
  Proof. unfold escaped. destruct x; [destruct (y_stack y); auto|auto]. Qed.
  Lemma kept_reg s s' : kept s s' -> sv_open s' = sv_open s /\ sv_reg s' = sv_reg s.
  Proof. intros (A & _ & _ & B & _). auto. Qed.

  Lemma sock_step y l : Inv V sers [] None y -> Sock y -> Sock (ystep V cap y l).
  Proof.
    intros I [K1 K2].
    assert (Same : forall y', y_sv y' = y_sv y -> (forall e, In e (y_log y) -> In e (y_log y')) -> Sock y').
    { intros y' E L. constructor; rewrite E; [|exact K2]. intro O. destruct (K1 O) as (c & m & X & A). eauto. }
    destruct l; cbn [ystep].
    - destruct (_ || _); [apply Same; auto|]. apply Same; auto.
    - destruct (dget (y_cl y) c) as [k|]; [|apply Same; auto]. destruct (_ && _); [|apply Same; auto].
      destruct (send V k action opts rt sync) as [[k' [m|]] res]; apply Same; auto.
      intros e H. cbn. apply in_or_app. auto.
    - destruct (dget (y_cl y) c) as [k|]; [|apply Same; auto]. destruct (queue (y_down y) c) as [|p q]; [apply Same; auto|].
      destruct (client_recv V k p) as [k' e]; apply Same; auto. intros e0 H. cbn. apply in_or_app. auto.
    - destruct (dget (y_cl y) c) as [k|]; [|apply Same; auto]. apply Same; auto. intros e0 H. cbn. apply in_or_app. auto.
    - destruct (dget (y_cl y) c) as [k|]; [|apply Same; auto]. apply Same; auto.
    - destruct (can_read y) eqn:CR; [|apply Same; auto]. destruct (queue (y_up y) c) as [|f rest] eqn:Q; [apply Same; auto|].
      assert (O : sv_open (y_sv y) = true).
      { unfold can_read in CR. destruct (y_dead y); [discriminate|]. destruct (sv_open (y_sv y)); [reflexivity|discriminate]. }
      assert (Hm : exists m, f = client_frames m).
      { destruct (i_up _ _ _ _ _ I c) as (ms & E & _). rewrite Q in E. destruct ms as [|m ms]; [discriminate|].
        exists m. exact (f_equal (hd []) E). }
      destruct Hm as (m & ->). destruct (known_client V sers y c m I rest Q) as (k & K & Es & R & U & Sm).
      rewrite (read_frames _ c m R). cbn [logged set_up y_sv y_stack]. pose proof (i_sers _ _ _ _ _ I) as Sers.
      pose proof Sm as Sm'. rewrite <- Sers in Sm'.
      destruct (begin_request V (y_sv y) c m) as [[s' os] [r x|a g args kw]] eqn:B.
      + set (y1 := set_sv _ s'). set (y2 := emit cap y1 c m r os).
        destruct (escaped_frame (logged y2 (EvDone c m r x)) x) as [E1 E2].
        assert (L : In (EvExec c m) (y_log (escaped (logged y2 (EvDone c m r x)) x))).
        { rewrite E2. cbn. apply in_or_app. left. apply emit_log. cbn. apply in_or_app. cbn. auto. }
        assert (Sv : y_sv (escaped (logged y2 (EvDone c m r x)) x) = s').
        { rewrite E1. cbn. destruct (emit_frame cap os y1 c m r) as (F & _). fold y2 in F. rewrite F. reflexivity. }
        destruct (String.eqb_spec (m_action m) "close") as [Cl|NC].
        * destruct (close_any V GV (y_sv y) c m U Sm' O Cl) as (s2 & os2 & o2 & r2 & B2 & _ & _ & _ & _ & O' & _).
          { intros c' t J. rewrite Sers. apply (sers_known V sers y I c' t J). }
          rewrite B in B2. injection B2 as -> -> -> ->.
          constructor; rewrite Sv; [eauto|congruence].
        * destruct (begin_answer V GV (y_sv y) c m U Sm' O NC) as [(s2 & g & args & kw & B2 & Kp)|(s2 & o2 & r2 & B2 & Kp & A)];
            rewrite B in B2; [discriminate|]. injection B2 as -> -> -> ->.
          apply kept_reg in Kp. destruct Kp as [A1 A2]. cbn in A1, A2.
          constructor; rewrite Sv; [congruence|]. intros _. rewrite A2. apply K2. exact O.
      + destruct (String.eqb_spec (m_action m) "close") as [Cl|NC].
        * destruct (close_any V GV (y_sv y) c m U Sm' O Cl) as (s2 & os2 & o2 & r2 & B2 & _).
          { intros c' t J. rewrite Sers. apply (sers_known V sers y I c' t J). }
          rewrite B in B2. discriminate.
        * destruct (begin_answer V GV (y_sv y) c m U Sm' O NC) as [(s2 & g2 & args2 & kw2 & B2 & Kp)|(s2 & o2 & r2 & B2 & Kp & A)];
            rewrite B in B2; [|discriminate]. injection B2 as -> -> -> -> -> ->.
          apply kept_reg in Kp. destruct Kp as [A1 A2]. cbn in A1, A2. constructor; cbn; [congruence|].
          intros _. rewrite A2. apply K2. exact O.
    - assert (sv_open (user_step (y_sv y) u) = sv_open (y_sv y) /\ sv_reg (user_step (y_sv y) u) = sv_reg (y_sv y)) as [A B]
        by (destruct u; auto).
      constructor; cbn [set_sv y_sv y_log]; rewrite ?A, ?B; auto.
    - destruct (y_stack y) as [|a rest] eqn:S; [apply Same; auto|].
      destruct (finish_request V (y_sv y) a r) as [[s' os] x] eqn:F.
      assert (NC : m_action (a_msg a) <> "close") by (apply (i_stack _ _ _ _ _ I); rewrite S; cbn; auto).
      destruct (finish_shell V _ _ _ _ _ _ F) as (A1 & A2 & A3 & A4 & A5 & A6 & [A7|[_ A7]]); [|contradiction].
      set (y1 := set_stack _ rest). set (y2 := emit cap y1 _ _ r os).
      destruct (escaped_frame (logged y2 (EvDone (a_caller a) (a_msg a) r x)) x) as [E1 E2].
      assert (Sv : y_sv (escaped (logged y2 (EvDone (a_caller a) (a_msg a) r x)) x) = s').
      { rewrite E1. cbn. destruct (emit_frame cap os y1 (a_caller a) (a_msg a) r) as (F' & _). fold y2 in F'. rewrite F'. reflexivity. }
      constructor; rewrite Sv, ?A7, ?A3; [|exact K2]. intro O. destruct (K1 O) as (c & m & X & A). exists c, m.
      split; [|exact A]. rewrite E2. cbn. apply in_or_app. left. apply emit_log. exact X.
  Qed.

  Lemma sock_run ls : forall y, Inv V sers [] None y -> Sock y -> joins_supported sers ls -> Sock (yrun V cap y ls).
  Proof.
    induction ls as [|l ls IH]; intros y I K J; [exact K|]. inversion J; subst. cbn [yrun]. apply IH; [|apply sock_step; auto|assumption].
    apply inv_step; assumption.
  Qed.
End Sock.

Section Runs2.
  Variable V : venv.
  Hypothesis GV : good_venv V.
  Variable cap : nat.
  Variable s : sv.
  Hypothesis FS : fresh_server s.

  Lemma run_inv ls : joins_supported (sv_sers s) ls -> Inv V (sv_sers s) [] None (yrun V cap (yinit s) ls).
  Proof. intro J. apply (inv_run V GV cap (sv_sers s) ls); [apply (inv_init V (sv_sers s) s FS eq_refl)|exact J]. Qed.
  Lemma run_sock ls : joins_supported (sv_sers s) ls -> Sock (yrun V cap (yinit s) ls).
  Proof.
    intro J. apply (sock_run V GV cap (sv_sers s) ls); [apply (inv_init V (sv_sers s) s FS eq_refl)| |exact J].
    destruct FS as (_ & _ & O & R). constructor; cbn; [congruence|auto].
  Qed.

  (** ** C19: only a close request stops the server *)
  Lemma dead_only_after_close ls : joins_supported (sv_sers s) ls ->
    let y := yrun V cap (yinit s) ls in
    y_dead y = true \/ sv_open (y_sv y) = false -> exists c m, In (EvExec c m) (y_log y) /\ m_action m = "close".
  Proof.
    intros J y H. pose proof (run_inv ls J) as I. pose proof (run_sock ls J) as K. apply (k_open _ K). fold y in I |- *.
    destruct H as [H|H]; [|exact H]. destruct (sv_open (y_sv y)) eqn:O; [|reflexivity].
    destruct (i_open _ _ _ _ _ I O). congruence.
  Qed.

  Lemma open_reads y : Inv V (sv_sers s) [] None y -> sv_open (y_sv y) = true -> can_read y = true.
  Proof.
    intros I O. destruct (i_open _ _ _ _ _ I O) as [C D]. unfold can_read. rewrite D, O, C. destruct (y_stack y); reflexivity.
  Qed.

  (** ** C22 *)
  Lemma emit_hooks_log y c m r os : hooks os -> emit cap y c m r os = y.
  Proof. apply emit_hooks. Qed.

  Lemma server_events_app a b : server_events (a ++ b) = server_events a ++ server_events b.
  Proof. apply filter_app. Qed.

  Lemma step_silent y l : sv_open (y_sv y) = false ->
    sv_open (y_sv (ystep V cap y l)) = false /\ sv_reg (y_sv (ystep V cap y l)) = sv_reg (y_sv y) /\
    server_events (y_log (ystep V cap y l)) = server_events (y_log y).
  Proof.
    intro O. destruct l; cbn [ystep].
    - destruct (_ || _); auto.
    - destruct (dget (y_cl y) c) as [k|]; auto. destruct (_ && _); auto.
      destruct (send V k action opts rt sync) as [[k' [m|]] res]; auto.
      cbn. rewrite server_events_app. cbn. rewrite app_nil_r. auto.
    - destruct (dget (y_cl y) c) as [k|]; auto. destruct (queue (y_down y) c) as [|p q]; auto.
      destruct (client_recv V k p) as [k' e]. cbn. rewrite server_events_app. cbn. rewrite app_nil_r. auto.
    - destruct (dget (y_cl y) c) as [k|]; auto. cbn. rewrite server_events_app. cbn. rewrite app_nil_r. auto.
    - destruct (dget (y_cl y) c) as [k|]; auto.
    - unfold can_read. rewrite O. rewrite andb_false_r. auto.
    - destruct u; auto.
    - destruct (y_stack y) as [|a rest]; [auto|].
      destruct (finish_request V (y_sv y) a r) as [[s' os] x] eqn:F.
      pose proof (finish_closed V _ _ _ _ _ _ O F) as Hk.
      destruct (finish_shell V _ _ _ _ _ _ F) as (A1 & A2 & A3 & A4 & A5 & A6 & A7).
      rewrite emit_hooks by exact Hk.
      match goal with |- context [escaped ?z ?w] => destruct (escaped_frame z w) as [E1 E2] end.
      rewrite E1, E2. cbn. rewrite server_events_app. cbn. rewrite app_nil_r. intuition congruence.
  Qed.
  Lemma run_silent ls : forall y, sv_open (y_sv y) = false ->
    sv_open (y_sv (yrun V cap y ls)) = false /\ sv_reg (y_sv (yrun V cap y ls)) = sv_reg (y_sv y) /\
    server_events (y_log (yrun V cap y ls)) = server_events (y_log y).
  Proof.
    induction ls as [|l ls IH]; intros y O; [auto|]. cbn [yrun]. destruct (step_silent y l O) as (A & B & C).
    destruct (IH _ A) as (A' & B' & C'). rewrite B', C', B, C. auto.
  Qed.

  Lemma told_app c a b : told c (a ++ b) = told c a ++ told c b.
  Proof. apply flat_map_app. Qed.
  Lemma told_none c log : (forall p, ~ In (EvTell c p) log) -> told c log = [].
  Proof.
    induction log as [|e log IH]; intro H; [reflexivity|]. cbn [told flat_map].
    fold (told c log). rewrite IH by (intros p J; apply (H p); cbn; auto). destruct e; auto.
    destruct (String.eqb_spec c0 c); [|reflexivity]. subst. exfalso. apply (H p). cbn. auto.
  Qed.

  Lemma told_deliver c y to p : told c (y_log (deliver cap y to p)) = told c (y_log y).
  Proof.
    unfold deliver. destruct (_ && _); [reflexivity|]. cbn [y_log]. rewrite told_app. cbn. rewrite app_nil_r. reflexivity.
  Qed.

  (** what the notices leave in the log *)
  Lemma told_notices c' c m r l : forall os y, NoDup (map fst l) ->
    Forall2 (fun (ct : string * string) o => exists p, o = Sent (fst ct) p /\
               forall srv2 st2, loads V (snd ct) srv2 st2 p = Ok notice) l os ->
    (forall ct, In ct l -> fst ct <> c) ->
    exists new, told c' (y_log (emit cap y c m r os)) = told c' (y_log y) ++ new /\
      match dget l c' with
      | Some t => exists p, new = [p] /\ forall srv2 st2, loads V t srv2 st2 p = Ok notice
      | None => new = []
      end.
  Proof.
    induction l as [|[d t] l IH]; intros os y ND F Ne; inversion F as [|? ? ? ? Hx F']; subst.
    - exists []. rewrite app_nil_r. cbn. auto.
    - destruct Hx as (p & -> & L). cbn [fst snd] in *. inversion ND; subst. cbn [emit].
      assert (Nd : d <> c) by (apply (Ne (d, t)); cbn; auto).
      destruct (String.eqb_spec d c); [contradiction|].
      destruct (IH l' (deliver cap (logged y (EvTell d p)) d p)) as (new & E & C); auto.
      { intros ct J. apply Ne. cbn. auto. }
      rewrite E, told_deliver. cbn [logged y_log]. rewrite told_app, <- app_assoc. 
      exists (told c' [EvTell d p] ++ new). split; [reflexivity|].
      cbn [told flat_map]. cbn [dget]. change (eqb c' d) with (String.eqb c' d). rewrite (String.eqb_sym c' d).
      destruct (String.eqb_spec d c') as [->|N]; [|exact C].
      assert (D : dget l c' = None) by (apply dget_None; exact H1).
      rewrite D in C. subst new. exists p. auto.
  Qed.

  Lemma dget_filter (l : dict string string) c c' : c' <> c ->
    dget (filter (fun ct => negb (String.eqb (fst ct) c)) l) c' = dget l c'.
  Proof.
    intro N. induction l as [|[k v] l IH]; [reflexivity|]. cbn [filter fst]. destruct (String.eqb_spec k c); cbn [negb].
    - subst. cbn [dget]. change (eqb c' c) with (String.eqb c' c). destruct (String.eqb_spec c' c); [contradiction|exact IH].
    - cbn [dget]. destruct (eqb c' k); [reflexivity|exact IH].
  Qed.
  Lemma dget_filter_same (l : dict string string) c :
    dget (filter (fun ct => negb (String.eqb (fst ct) c)) l) c = None.
  Proof.
    induction l as [|[k v] l IH]; [reflexivity|]. cbn [filter fst]. destruct (String.eqb_spec k c); cbn [negb]; [exact IH|].
    cbn [dget]. change (eqb c k) with (String.eqb c k). destruct (String.eqb_spec c k); [congruence|exact IH].
  Qed.
  Lemma NoDup_filter_keys (l : dict string string) f : NoDup (dkeys l) -> NoDup (map fst (filter f l)).
  Proof.
    unfold dkeys. induction l as [|x l IH]; cbn; [constructor|]. intro N. inversion N; subst.
    destruct (f x); [|auto]. cbn. constructor; [|auto]. intro H. apply H1. apply in_map_iff in H.
    destruct H as (z & E & J). apply filter_In in J. apply in_map_iff. exists z. tauto.
  Qed.

  Lemma replied_once c m r p log : NoDup (all_rep log) -> In (EvReply c m r p) log -> replied c (m_req m) log = [p].
  Proof.
    induction log as [|e log IH]; [intros _ []|]. intros N [->|H].
    - cbn in N. inversion N as [|x l Nx N']; subst. cbn. rewrite String.eqb_refl, Z.eqb_refl. cbn. f_equal.
      assert (G : forall l, ~ In (c, m_req m) (all_rep l) -> replied c (m_req m) l = []).
      { clear. induction l as [|e l IH]; [reflexivity|]. intro H. change (e :: l) with ([e] ++ l) in *. unfold replied, all_rep in *. rewrite flat_map_app in *.
        destruct e; cbn [flat_map app] in *; try (apply IH; exact H).
        rewrite IH by (cbn in H; tauto). cbn [In] in H. destruct (String.eqb_spec c0 c) as [->|]; [|reflexivity].
        destruct (Z.eqb_spec (m_req m0) (m_req m)) as [E|]; [|reflexivity]. rewrite E in H. exfalso. auto. }
      apply G. exact Nx.
    - assert (N' : NoDup (all_rep log)).
      { unfold all_rep in N. cbn [flat_map] in N. destruct e; try exact N. inversion N; assumption. }
      specialize (IH N' H). unfold replied in *. cbn [flat_map]. destruct e; try exact IH. cbn in N. inversion N as [|x l Nx _]; subst.
      destruct (String.eqb_spec c0 c) as [->|]; [|exact IH]. destruct (Z.eqb_spec (m_req m0) (m_req m)) as [E|]; [|exact IH].
      exfalso. apply Nx. rewrite E. apply in_flat_map. exists (EvReply c m r p). cbn. auto.
  Qed.

  Lemma replied_le_one ls c rid : joins_supported (sv_sers s) ls ->
    (List.length (replied c rid (y_log (yrun V cap (yinit s) ls))) <= 1)%nat.
  Proof.
    intro J. pose proof (i_once _ _ _ _ _ (run_inv ls J)) as N.
    destruct (replied c rid (y_log (yrun V cap (yinit s) ls))) as [|p l] eqn:E; [cbn; lia|].
    assert (H : In p (replied c rid (y_log (yrun V cap (yinit s) ls)))) by (rewrite E; cbn; auto).
    apply in_flat_map in H. destruct H as (e & I & H). destruct e; try destruct H.
    destruct (String.eqb_spec c0 c) as [->|]; [|destruct H]. destruct (Z.eqb_spec (m_req m) rid) as [<-|]; [|destruct H].
    rewrite (replied_once c m r p0 _ N I) in E. injection E as <- <-. cbn. lia.
  Qed.

  Lemma reply_true k m p : replies V (c_ser k) m (Ok (VBool true)) p -> m_rt m <> "proxy" -> pending k (m_req m) ->
    ve_utf8 V (c_ser k) = true /\ futures_ok k ->
    finished (fst (client_recv V k p)) (m_req m) (Ok (VBool true)).
  Proof.
    intros R Np P [_ F]. apply dkey_dget in P. destruct P as [b P].
    assert (Si : simple V (c_ser k) (m_rt m) (VBool true)).
    { split; [exact Np|]. split; [|split; reflexivity]. unfold carried. pose proof (gv_limit V GV).
      destruct (String.eqb (c_ser k) "msgpack"); split; cbn; auto; lia. }
    inversion R as [|v f p' L Fs|v e p' Ns L]; subst; [|contradiction].
    unfold client_recv. rewrite L, (Fs Si). unfold seen. cbn [bind jnf].
    replace (if String.eqb (c_ser k) "msgpack" then VBool true else VBool true) with (VBool true) by (destruct (String.eqb _ _); reflexivity).
    rewrite process_reply_ok, P. cbn [fst]. unfold finished, complete. destruct b; cbn [set_done set_futs c_done]; [|apply dget_dset_same].
    rewrite disconnected_done. cbn [set_done set_futs c_futs c_done].
    destruct (smem (m_req m) (dkeys (ddel (c_futs k) (m_req m)))) eqn:S; [|apply dget_dset_same].
    apply smem_In, dkey_dget in S. destruct S as [x S]. rewrite dget_ddel_same in S by (apply F). discriminate.
  Qed.

  Lemma closing ls c m opts : joins_supported (sv_sers s) ls ->
    let y := yrun V cap (yinit s) ls in
    sv_open (y_sv y) = true -> next_request y c = Some m -> m_action m = "close" -> options V (y_sv y) m = Ok opts ->
    let y' := ystep V cap y (SRecv c) in
    (forall c', c' <> c -> executed_for c' (y_log y) <> [] ->
       exists p, told c' (y_log y') = [p] /\
         forall k srv st, dget (y_cl y) c' = Some k -> loads V (c_ser k) srv st p = Ok notice) /\
    (forall c', c' = c \/ executed_for c' (y_log y) = [] -> told c' (y_log y') = []) /\
    (0 <= m_req m -> exists p, replied c (m_req m) (y_log y') = [p] /\
       forall k, dget (y_cl y) c = Some k -> pending k (m_req m) -> m_rt m <> "proxy" ->
         finished (fst (client_recv V k p)) (m_req m) (Ok (VBool true))) /\
    sv_reg (y_sv y') = false /\
    forall ls', sv_reg (y_sv (yrun V cap y' ls')) = false /\
                server_events (y_log (yrun V cap y' ls')) = server_events (y_log y').
  Proof.
    intros J y O NQ A Op. pose proof (run_inv ls J) as I. pose proof (run_sock ls J) as K. fold y in I, K.
    pose proof (open_reads y I O) as CR. pose proof (next_up V _ y c I) as Q. rewrite NQ in Q. destruct Q as (rest & Q).
    cbn [ystep]. rewrite CR, Q.
    destruct (known_client V _ y c m I rest Q) as (k & Kc & Es & R & U & Sm).
    rewrite (read_frames _ c m R). cbn [logged set_up y_sv y_stack]. pose proof (i_sers _ _ _ _ _ I) as Sers.
    pose proof Sm as Sm'. rewrite <- Sers in Sm'.
    destruct (close_answer V GV (y_sv y) c m opts U Sm' O A) as (s' & os & o & B & N & An & O' & C' & R' & Cl' & _).
    { intros c' t H. rewrite Sers. apply (sers_known V _ y I c' t H). }
    { apply (k_reg _ K O). }
    { exact Op. }
    rewrite B, emit_app. set (y1 := set_sv _ s'). set (y2 := emit cap y1 c m (Ok (VBool true)) os).
    set (y3 := emit cap y2 c m (Ok (VBool true)) o).
    cbn [escaped]. change (escaped (logged y3 (EvDone c m (Ok (VBool true)) None)) None) with (logged y3 (EvDone c m (Ok (VBool true)) None)).
    set (y' := logged y3 _).
    assert (Sv : y_sv y' = s').
    { unfold y', y3, y2. cbn [logged y_sv]. destruct (emit_frame cap o (emit cap y1 c m (Ok (VBool true)) os) c m (Ok (VBool true))) as (F & _).
      rewrite F. destruct (emit_frame cap os y1 c m (Ok (VBool true))) as (F' & _). rewrite F'. reflexivity. }
    assert (T0 : forall c', told c' (y_log y) = []).
    { intro c'. apply told_none. intros p H. destruct (i_tell _ _ _ _ _ I _ _ H) as (E & _). congruence. }
    assert (To : forall c', told c' (y_log y') = told c' (y_log y2)).
    { intro c'. unfold y'. cbn [logged y_log]. rewrite told_app. cbn. rewrite app_nil_r.
      unfold y3. unfold answer in An. destruct (0 <=? m_req m).
      - destruct An as (p & -> & _). cbn [emit]. rewrite String.eqb_refl, told_deliver. cbn [logged y_log].
        rewrite told_app. cbn. rewrite app_nil_r. reflexivity.
      - rewrite emit_hooks by exact An. reflexivity. }
    set (l := sv_clients (with_client (y_sv y) c m)) in *.
    assert (NDl : NoDup (dkeys l)) by (apply NoDup_dset; apply (i_keys _ _ _ _ _ I)).
    assert (TN : forall c', exists new, told c' (y_log y') = new /\
      match dget (filter (fun ct => negb (String.eqb (fst ct) c)) l) c' with
      | Some t => exists p, new = [p] /\ forall srv2 st2, loads V t srv2 st2 p = Ok notice
      | None => new = []
      end).
    { intro c'. rewrite To. destruct (told_notices c' c m (Ok (VBool true)) _ os y1 (NoDup_filter_keys l _ NDl) N) as (new & E & X).
      { intros ct H. apply filter_In in H. destruct H as [_ H]. destruct (String.eqb_spec (fst ct) c); [discriminate|assumption]. }
      exists new. split; [|exact X]. unfold y2. rewrite E. unfold y1. cbn [set_sv logged set_up y_log].
      rewrite told_app, T0. reflexivity. }
    repeat (apply conj).
    - intros c' Ne X. destruct (TN c') as (new & E & H). rewrite dget_filter in H by exact Ne.
      destruct (executed_for c' (y_log y)) as [|m' ms] eqn:Ex; [congruence|].
      assert (X' : In (EvExec c' m') (y_log y)) by (apply in_exec; rewrite Ex; cbn; auto).
      pose proof (i_known _ _ _ _ _ I _ _ X') as D. unfold l, with_client in H. cbn [set_clients sv_clients] in H.
      rewrite dget_dset_other in H by congruence. rewrite D in H. destruct H as (p & -> & L). exists p. split; [exact E|].
      intros k' srv st K'. destruct (i_sent _ _ _ _ _ I _ _ (exec_sent V _ _ _ _ _ _ I X')) as (k'' & K'' & Es' & _).
      rewrite K' in K''. injection K'' as <-. rewrite <- Es'. apply L.
    - intros c' H. destruct (TN c') as (new & -> & H'). destruct (String.eqb_spec c' c) as [->|Ne].
      + rewrite dget_filter_same in H'. exact H'.
      + destruct H as [H|H]; [contradiction|]. rewrite dget_filter in H' by exact Ne.
        destruct (dget l c') as [t|] eqn:D; [|exact H']. exfalso.
        unfold l, with_client in D. cbn [set_clients sv_clients] in D. rewrite dget_dset_other in D by congruence.
        apply dget_In in D. destruct (i_clients _ _ _ _ _ I _ _ D) as (m' & X & _). apply in_exec in X. rewrite H in X. destruct X.
    - intro Z0. unfold answer in An. pose proof Z0 as Z1. apply Z.leb_le in Z0. rewrite Z0 in An. destruct An as (p & -> & Rp). exists p. split.
      + assert (I' : Inv V (sv_sers s) [] None (ystep V cap y (SRecv c))) by (apply inv_step; [exact GV|exact I|exact Logic.I]).
        assert (Ey : ystep V cap y (SRecv c) = y').
        { cbn [ystep]. rewrite CR, Q, (read_frames _ c m R). cbn [logged set_up y_sv y_stack]. rewrite B, emit_app. reflexivity. }
        rewrite Ey in I'. apply (replied_once c m (Ok (VBool true)) p _ (i_once _ _ _ _ _ I')).
        unfold y', y3. cbn [emit]. rewrite String.eqb_refl. cbn [logged y_log]. apply in_or_app. left.
        unfold deliver. destruct (_ && _); cbn [y_log logged]; [|apply in_or_app; left]; apply in_or_app; right; cbn; auto.
      + intros k1 K1 P Np. rewrite Kc in K1. injection K1 as <-. rewrite Es in Rp.
        apply (reply_true k m p Rp Np P). apply (i_cl _ _ _ _ _ I _ _ Kc).
    - rewrite Sv. exact R'.
    - intro ls'. destruct (run_silent ls' y') as (_ & E1 & E2); [rewrite Sv; exact O'|]. split; [|exact E2].
      rewrite E1, Sv. exact R'.
  Qed.
End Runs2.
