(** Waiting respects its timeout. *)
From Verif Require Import Py ObjTableModel SerModel FrameModel ServerModel ClientModel WaitModel.

Section Wait.
  Variable V : venv.
  Variable W : wcfg.
  Variable start : Z.

  (** how long after the timeout the loop may still notice it *)
  Definition slack : Z :=
    w_setup W + (match w_mode W with Qt => 50 * ms | _ => 0 end) + Z.max (w_msg W) (match w_mode W with Poll => w_serve W | _ => 0 end).

  Definition bounds_ok : Prop := 0 <= w_setup W /\ 0 <= w_msg W /\ 0 <= w_serve W.
  Definition block : Z := match w_mode W with Qt => 50 * ms | _ => 0 end.

  Definition winv (t : Z) (s : wst) : Prop :=
    s_start s = start /\ start <= s_now s /\
    match s_phase s with
    | PBegin t0 => t0 = start /\ s_now s <= start + w_setup W
    | PCheck => s_now s <= start + t + slack
    | PSetup it t0 => exists i, it = Some i /\ 0 <= i /\ i = t - (t0 - start) /\ t0 <= s_now s <= t0 + w_setup W
    | PBlock dl => exists d, dl = Some d /\ s_now s <= start + t + w_setup W + block /\ d <= start + t + w_setup W + block /\
                     (w_mode W = Plain -> start + t - ms < d)
    | PMsg _ t0 => t0 <= s_now s <= t0 + w_msg W /\ t0 <= start + t + w_setup W + block
    | PServe t0 => w_mode W = Poll /\ t0 <= s_now s <= t0 + w_serve W /\ t0 <= start + t + w_setup W + block
    | PEnd TimedOut => True
    | PEnd _ => True
    end.

  Lemma slack_eq : slack = w_setup W + block + Z.max (w_msg W) (match w_mode W with Poll => w_serve W | _ => 0 end).
  Proof. reflexivity. Qed.

  (** what is known at the moment TimeoutError is raised *)
  Definition raised_at (t : Z) (s : wst) : Prop :=
    start + t - ms < s_now s /\ s_now s <= start + t + slack /\
    (start + t < s_now s \/ (s_in s = [] /\ w_mode W = Plain)).

  Lemma ms_pos : 0 < ms. Proof. reflexivity. Qed.
  Lemma floor_ms i m : 0 < m -> i - m < i / m * m <= i.
  Proof. intro H. pose proof (Z.div_mod i m). pose proof (Z.mod_pos_bound i m H). nia. Qed.

  Lemma winv_step t s l s' : bounds_ok -> 0 <= t -> w_timeout W = Some t -> winv t s -> wstep V W s l = Some s' ->
    winv t s' /\ (l = WGo -> s_phase s' = PEnd TimedOut -> raised_at t s').
  Proof.
    intros (B1 & B2 & B3) T TW (S0 & N0 & P) H. pose proof slack_eq as SE. pose proof ms_pos as MP. destruct l as [d|p| |]; cbn [wstep] in H.
    - destruct (may_tick W s d) eqn:M; [|discriminate]. injection H as <-. split; [|discriminate].
      unfold may_tick in M. apply andb_prop in M. destruct M as [D M]. apply Z.leb_le in D.
      split; [exact S0|]. split; [cbn; lia|]. cbn [s_phase s_now].
      destruct (s_phase s) as [t0| |it t0|dl|p t0|t0|r].
      + apply Z.leb_le in M. lia.
      + discriminate.
      + destruct P as (i & -> & P1 & P2 & P3). apply Z.leb_le in M. exists i. repeat split; auto; lia.
      + destruct P as (e & -> & P1 & P2 & P3). apply andb_prop in M. destruct M as [_ M]. apply Z.leb_le in M.
        exists e. repeat split; auto; lia.
      + apply Z.leb_le in M. lia.
      + apply Z.leb_le in M. destruct P as (P0 & P1 & P2). repeat split; auto; lia.
      + exact P.
    - injection H as <-. split; [|discriminate]. split; [exact S0|]. split; [exact N0|]. exact P.
    - injection H as <-. split; [|discriminate]. split; [exact S0|]. split; [exact N0|]. exact P.
    - unfold wgo in H. destruct (s_phase s) as [t0| |it t0|dl|p t0|t0|r].
      + injection H as <-. split; [|discriminate]. split; [exact S0|]. split; [exact N0|]. cbn. destruct P as [-> P].
        unfold block in SE. destruct (w_mode W); lia.
      + destruct (dget (c_done (s_cl s)) (w_rid W)).
        { injection H as <-. split; [|discriminate]. split; [exact S0|]. split; [exact N0|]. exact I. }
        rewrite TW in H. destruct (t - (s_now s - s_start s) <? 0) eqn:Q; injection H as <-.
        * apply Z.ltb_lt in Q. split; [split; [exact S0|]; split; [exact N0|]; exact I|]. intros _ _.
          unfold raised_at. cbn [s_now set_phase s_in]. repeat split; try lia. 
        * apply Z.ltb_ge in Q. split; [|discriminate]. split; [exact S0|]. split; [exact N0|]. cbn.
          eexists. repeat split; try reflexivity; lia.
      + destruct P as (i & -> & P1 & P2 & P3). injection H as <-. split; [|discriminate].
        split; [exact S0|]. split; [exact N0|]. cbn [s_phase set_phase s_now].
        pose proof (floor_ms i ms MP) as F1. pose proof (floor_ms i sec) as F2.
        assert (Sp : 0 < sec) by reflexivity. specialize (F2 Sp).
        assert (F3 : 0 <= i / sec * ms <= i). { unfold sec in *. pose proof (Z.div_pos i (1000 * ms) P1 Sp). nia. }
        unfold deadline, block. destruct (w_mode W); eexists; (split; [reflexivity|]); repeat split; try lia; try discriminate.
      + destruct P as (d & -> & P1 & P2 & P3). destruct (s_in s) as [|p r] eqn:IN.
        * destruct (w_mode W) eqn:MW; destruct (s_req s) as [|n] eqn:RQ;
            try (destruct (d <=? s_now s) eqn:Q; [|discriminate]; apply Z.leb_le in Q); injection H as <-;
            (split; [split; [exact S0|]; split; [exact N0|]; cbn [s_phase set_phase s_now]; rewrite ?SE; repeat split; try exact MW; try lia|]);
            try discriminate; intros _ _; unfold raised_at; cbn [s_now set_phase s_in];
            specialize (P3 eq_refl); rewrite SE; unfold block in *; rewrite ?MW in *; repeat split; try lia; right; split; auto.
        * injection H as <-. split; [|discriminate]. split; [exact S0|]. split; [exact N0|]. cbn. lia.
      + destruct (client_recv V (s_cl s) p) as [k x]. injection H as <-. split.
        * split; [exact S0|]. split; [exact N0|]. cbn [s_phase s_now]. destruct x; [exact I|]. rewrite SE. lia.
        * destruct x; discriminate.
      + injection H as <-. split; [|discriminate]. split; [exact S0|]. split; [exact N0|]. cbn [s_phase s_now set_phase].
        destruct P as (MW & P). rewrite SE, MW. lia.
      + discriminate.
  Qed.

  Lemma wrun_app ls ls' : forall s, wrun V W s (ls ++ ls') = match wrun V W s ls with Some s' => wrun V W s' ls' | None => None end.
  Proof. induction ls as [|l r IH]; intro s; [reflexivity|]. cbn. destruct (wstep V W s l); [apply IH|reflexivity]. Qed.

  Lemma winv_run t ls : bounds_ok -> 0 <= t -> w_timeout W = Some t -> forall s s', winv t s -> wrun V W s ls = Some s' -> winv t s'.
  Proof.
    intros B T TW. induction ls as [|l r IH]; intros s s' I H; cbn in H; [congruence|].
    destruct (wstep V W s l) as [s1|] eqn:E; [|discriminate]. destruct (winv_step t s l s1 B T TW I E) as [I1 _]. eauto.
  Qed.

  Lemma winv_start t k inbox req : bounds_ok -> winv t (wstart start k inbox req).
  Proof. intros (B & _). split; [reflexivity|]. cbn. lia. Qed.

  (** the step that raises TimeoutError *)
  Lemma timeout_when t k inbox req ls s s' : bounds_ok -> 0 <= t -> w_timeout W = Some t ->
    wrun V W (wstart start k inbox req) ls = Some s -> wstep V W s WGo = Some s' -> s_phase s' = PEnd TimedOut ->
    raised_at t s'.
  Proof.
    intros B T TW H E P. pose proof (winv_run t ls B T TW _ _ (winv_start t k inbox req B) H) as I.
    destruct (winv_step t s WGo s' B T TW I E) as [_ R]. auto.
  Qed.

  (** as long as the call has not ended the bound has not passed *)
  Lemma still_waiting t k inbox req ls s : bounds_ok -> 0 <= t -> w_timeout W = Some t ->
    wrun V W (wstart start k inbox req) ls = Some s -> (forall r, s_phase s <> PEnd r) -> s_now s <= start + t + slack.
  Proof.
    intros B T TW H N. pose proof (winv_run t ls B T TW _ _ (winv_start t k inbox req B) H) as (S0 & N0 & P).
    destruct B as (B1 & B2 & B3). pose proof ms_pos as MP. rewrite slack_eq.
    destruct (s_phase s) as [t0| |it t0|dl|p t0|t0|r].
    - unfold block. destruct (w_mode W); lia.
    - rewrite slack_eq in P. lia.
    - destruct P as (i & -> & P1 & P2 & P3). unfold block. destruct (w_mode W); lia.
    - destruct P as (d & -> & P1 & _). lia.
    - lia.
    - destruct P as (MW & P). rewrite MW. lia.
    - exfalso. eapply N. reflexivity.
  Qed.

  (** and it is never stuck: the loop can go on, or is blocked and time can pass *)
  Lemma never_stuck t k inbox req ls s : bounds_ok -> 0 <= t -> w_timeout W = Some t ->
    wrun V W (wstart start k inbox req) ls = Some s -> (forall r, s_phase s <> PEnd r) ->
    (exists s', wstep V W s WGo = Some s') \/ (exists d s', 0 < d /\ wstep V W s (WTick d) = Some s').
  Proof.
    intros B T TW H N. pose proof (winv_run t ls B T TW _ _ (winv_start t k inbox req B) H) as (S0 & N0 & P).
    cbn [wstep]. unfold wgo, may_tick. destruct (s_phase s) as [t0| |it t0|dl|p t0|t0|r].
    - left. eexists. reflexivity.
    - left. destruct (dget _ _); [eexists; reflexivity|]. rewrite TW. destruct (_ <? 0); eexists; reflexivity.
    - left. eexists. reflexivity.
    - destruct P as (d & -> & _). destruct (s_in s); [|left; eexists; reflexivity].
      destruct (d <=? s_now s) eqn:Q.
      + left. destruct (w_mode W), (s_req s); eexists; reflexivity.
      + apply Z.leb_gt in Q. destruct (w_mode W) eqn:MW; [right|destruct (s_req s) as [|n] eqn:RQ; [right|left; eexists; reflexivity]|right];
          exists (d - s_now s); (assert (L : 0 <=? d - s_now s = true) by (apply Z.leb_le; lia)); rewrite L; cbn [andb Nat.eqb];
          (assert (L2 : s_now s + (d - s_now s) <=? d = true) by (apply Z.leb_le; lia)); rewrite L2; eexists; (split; [lia|reflexivity]).
    - left. destruct (client_recv V (s_cl s) p). eexists. reflexivity.
    - left. eexists. reflexivity.
    - exfalso. eapply N. reflexivity.
  Qed.

  (** TimeoutError is raised only while the future is not complete. *)
  Definition uinv (s : wst) : Prop :=
    match s_phase s with
    | PSetup _ _ | PBlock _ | PEnd TimedOut => dget (c_done (s_cl s)) (w_rid W) = None
    | _ => True
    end.
  Lemma unfinished k inbox req ls s :
    wrun V W (wstart start k inbox req) ls = Some s -> s_phase s = PEnd TimedOut -> dget (c_done (s_cl s)) (w_rid W) = None.
  Proof.
    intros H P. assert (I : uinv s).
    { revert H. generalize (wstart start k inbox req) (I : uinv (wstart start k inbox req)).
      induction ls as [|l r IH]; intros s0 I0 H; cbn in H; [congruence|].
      destruct (wstep V W s0 l) as [s1|] eqn:E; [|discriminate]. apply (IH s1); [|exact H]. clear IH H.
      destruct l; cbn [wstep] in E.
      - destruct (may_tick W s0 d); [|discriminate]. injection E as <-. exact I0.
      - injection E as <-. exact I0.
      - injection E as <-. exact I0.
      - unfold wgo in E. unfold uinv in *. destruct (s_phase s0) as [t0| |it t0|dl|p t0|t0|r0].
        + injection E as <-. exact I.
        + destruct (dget _ _) eqn:G; [injection E as <-; exact I|].
          destruct (w_timeout W); [|injection E as <-; exact G].
          match type of E with (if ?b then _ else _) = _ => destruct b end; injection E as <-; exact G.
        + injection E as <-. exact I0.
        + destruct (s_in s0); [|injection E as <-; exact I].
          destruct (w_mode W), (s_req s0); destruct dl; try discriminate;
            try (destruct (_ <=? _); [|discriminate]); injection E as <-; first [exact I|exact I0].
        + destruct (client_recv V (s_cl s0) p) as [k1 x]. injection E as <-. cbn. destruct x; exact I.
        + injection E as <-. exact I.
        + discriminate. }
    unfold uinv in I. rewrite P in I. exact I.
  Qed.
  Lemma timeout_window t k inbox req ls s s' : bounds_ok -> 0 <= t -> w_timeout W = Some t ->
    wrun V W (wstart start k inbox req) ls = Some s -> wstep V W s WGo = Some s' -> s_phase s' = PEnd TimedOut ->
    start + t - ms < s_now s' /\ s_now s' <= start + t + slack /\
    (start + t < s_now s' \/ (s_in s' = [] /\ w_mode W = Plain)) /\
    (forall o, dget (c_done (s_cl s')) (w_rid W) <> Some o).
  Proof.
    intros B T TW H E P. destruct (timeout_when t k inbox req ls s s' B T TW H E P) as (A & C & D).
    repeat (apply conj; [assumption|]). intro o. rewrite (unfinished k inbox req (ls ++ [WGo]) s'); [discriminate| |exact P].
    rewrite wrun_app, H. cbn [wrun]. rewrite E. reflexivity.
  Qed.

  (** Without a timeout there is no TimeoutError. *)
  Definition ninv (s : wst) : Prop :=
    match s_phase s with
    | PSetup it _ => it = None
    | PBlock dl => dl = None \/ w_mode W = Qt
    | PEnd TimedOut => False
    | _ => True
    end.
  Lemma no_timeout k inbox req ls s : w_timeout W = None ->
    wrun V W (wstart start k inbox req) ls = Some s -> s_phase s <> PEnd TimedOut.
  Proof.
    intros TW H. assert (I : ninv s).
    { revert H. generalize (wstart start k inbox req) (I : ninv (wstart start k inbox req)).
      induction ls as [|l r IH]; intros s0 I0 H; cbn in H; [congruence|].
      destruct (wstep V W s0 l) as [s1|] eqn:E; [|discriminate]. apply (IH s1); [|exact H]. clear IH H.
      destruct l; cbn [wstep] in E.
      - destruct (may_tick W s0 d); [|discriminate]. injection E as <-. exact I0.
      - injection E as <-. exact I0.
      - injection E as <-. exact I0.
      - unfold wgo in E. unfold ninv in *. destruct (s_phase s0) as [t0| |it t0|dl|p t0|t0|r0].
        + injection E as <-. exact I.
        + destruct (dget _ _); [injection E as <-; exact I|]. rewrite TW in E. injection E as <-. reflexivity.
        + subst it. injection E as <-. cbn. unfold deadline. destruct (w_mode W); auto.
        + destruct (s_in s0).
          * destruct (w_mode W) eqn:MW, (s_req s0), dl; try discriminate; try (destruct (z <=? s_now s0); [|discriminate]); injection E as <-;
              try exact I; destruct I0; discriminate.
          * injection E as <-. exact I.
        + destruct (client_recv V (s_cl s0) p) as [k1 x]. injection E as <-. cbn. destruct x; exact I.
        + injection E as <-. exact I.
        + discriminate. }
    intro P. unfold ninv in I. rewrite P in I. exact I.
  Qed.

  (** What is returned is the future's outcome. *)
  Definition rinv (s : wst) : Prop :=
    match s_phase s with PEnd (Returned o) => dget (c_done (s_cl s)) (w_rid W) = Some o | _ => True end.
  Lemma returned_outcome k inbox req ls s o :
    wrun V W (wstart start k inbox req) ls = Some s -> s_phase s = PEnd (Returned o) -> dget (c_done (s_cl s)) (w_rid W) = Some o.
  Proof.
    intros H P. assert (I : rinv s).
    { revert H. generalize (wstart start k inbox req) (I : rinv (wstart start k inbox req)).
      induction ls as [|l r IH]; intros s0 I0 H; cbn in H; [congruence|].
      destruct (wstep V W s0 l) as [s1|] eqn:E; [|discriminate]. apply (IH s1); [|exact H]. clear IH H.
      destruct l; cbn [wstep] in E.
      - destruct (may_tick W s0 d); [|discriminate]. injection E as <-. exact I0.
      - injection E as <-. exact I0.
      - injection E as <-. exact I0.
      - unfold wgo in E. unfold rinv in *. destruct (s_phase s0) as [t0| |it t0|dl|p t0|t0|r0].
        + injection E as <-. exact I.
        + destruct (dget _ _) eqn:G; [injection E as <-; exact G|].
          destruct (w_timeout W); [|injection E as <-; exact I].
          match type of E with (if ?b then _ else _) = _ => destruct b end; injection E as <-; exact I.
        + injection E as <-. exact I.
        + destruct (s_in s0); [|injection E as <-; exact I].
          destruct (w_mode W), (s_req s0); destruct dl; try discriminate;
            try (destruct (_ <=? _); [|discriminate]); injection E as <-; exact I.
        + destruct (client_recv V (s_cl s0) p) as [k1 x]. injection E as <-. cbn. destruct x; exact I.
        + injection E as <-. exact I.
        + discriminate. }
    unfold rinv in I. rewrite P in I. exact I.
  Qed.

  (** a completed future is returned whatever the timeout *)
  Lemma done_returns now k inbox req o : dget (c_done k) (w_rid W) = Some o ->
    exists s, wrun V W (wstart now k inbox req) [WGo; WGo] = Some s /\ s_phase s = PEnd (Returned o).
  Proof. intro D. cbn. rewrite D. eexists. split; reflexivity. Qed.

  (** A loop that looks at the clock in time and finds the reply next in line
      delivers it. *)
  Lemma next_returned s p r k o : s_phase s = PCheck -> s_in s = p :: r ->
    dget (c_done (s_cl s)) (w_rid W) = None ->
    (forall t, w_timeout W = Some t -> s_now s <= s_start s + t) ->
    client_recv V (s_cl s) p = (k, None) -> dget (c_done k) (w_rid W) = Some o ->
    exists s', wrun V W s [WGo; WGo; WGo; WGo; WGo] = Some s' /\ s_phase s' = PEnd (Returned o).
  Proof.
    intros P IN D T R Do. cbn [wrun wstep]. unfold wgo at 1. rewrite P, D.
    destruct (w_timeout W) as [t|].
    - specialize (T t eq_refl). assert (Q : t - (s_now s - s_start s) <? 0 = false) by (apply Z.ltb_ge; lia). rewrite Q.
      cbn. rewrite IN. cbn. rewrite R. cbn. rewrite Do. eexists. split; reflexivity.
    - cbn. rewrite IN. cbn. rewrite R. cbn. rewrite Do. eexists. split; reflexivity.
  Qed.
End Wait.
