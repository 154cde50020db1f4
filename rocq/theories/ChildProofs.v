From Verif Require Import Py ChildModel ChildSpec.
Local Open Scope list_scope.

Lemma each_nil P : each P [].
Proof. intros b t e a H. destruct b; discriminate. Qed.
Lemma each_snoc P l t e : each P l -> P l t e -> each P (l ++ [(t, e)]).
Proof.
  intros H He b t' e' a Heq. destruct a as [|x a].
  - apply app_inj_tail in Heq. destruct Heq as [-> Heq]. inversion Heq; subst. exact He.
  - assert (exists a' y, x :: a = a' ++ [y]) as (a' & y & Ha).
    { destruct (exists_last (l := x :: a)) as (a' & y & Ha); [discriminate|]. exists a', y. exact Ha. }
    rewrite Ha in Heq. rewrite app_comm_cons, app_assoc in Heq. apply app_inj_tail in Heq. destruct Heq as [Heq _].
    apply (H b t' e' a'). exact Heq.
Qed.
Lemma latest_snoc l t e :
  latest_call (l ++ [(t, e)]) = match e with EvCall k to => Some (t, k, to) | _ => latest_call l end.
Proof.
  induction l as [|[t' e'] l IH]; cbn [app latest_call].
  - destruct e; reflexivity.
  - rewrite IH. destruct e; reflexivity.
Qed.
Lemma exited_with_snoc c l t e : exited_with c (l ++ [(t, e)]) <-> exited_with c l \/ e = EvExit c.
Proof.
  unfold exited_with. split.
  - intros [t' H]. apply in_app_or in H. destruct H as [H|[H|[]]]; [left; eauto|right; congruence].
  - intros [[t' H]| ->]; [exists t'; apply in_or_app; auto|exists t; apply in_or_app; right; left; reflexivity].
Qed.
Lemma exited_snoc l t e : exited (l ++ [(t, e)]) <-> exited l \/ exists c, e = EvExit c.
Proof.
  unfold exited. split.
  - intros [c H]. apply exited_with_snoc in H. destruct H as [H|H]; eauto.
  - intros [[c H]|[c H]]; exists c; apply exited_with_snoc; auto.
Qed.

Lemma crun_app K a : forall s b, crun K s (a ++ b) = match crun K s a with Some s' => crun K s' b | None => None end.
Proof. induction a as [|l a IH]; intros s b; cbn [app crun]; [reflexivity|]. destruct (cstep K s l); auto. Qed.
Lemma crun_snoc K a l s : crun K s (a ++ [l]) = match crun K s a with Some s' => cstep K s' l | None => None end.
Proof. rewrite crun_app. destruct (crun K s a); [|reflexivity]. cbn. destruct (cstep K c l); reflexivity. Qed.
Lemma crun_inv K (P : cst -> Prop) (Q : clab -> Prop) :
  (forall s l s', P s -> Q l -> cstep K s l = Some s' -> P s') ->
  forall ls s s', P s -> Forall Q ls -> crun K s ls = Some s' -> P s'.
Proof.
  intros H. induction ls as [|l ls IH]; intros s s' Hp Hq Hr; cbn [crun] in Hr.
  - inversion Hr; subst; auto.
  - inversion Hq as [|x y Q1 Q2 Heq]; subst. destruct (cstep K s l) as [s1|] eqn:E; [|discriminate].
    exact (IH s1 s' (H s l s1 Hp Q1 E) Q2 Hr).
Qed.
Lemma all_true ls : Forall (fun _ : clab => True) ls.
Proof. induction ls; constructor; auto. Qed.

Lemma update_nil {A} i (f : A -> A) : update [] i f = [].
Proof. destruct i; reflexivity. Qed.
Lemma update_length {A} (l : list A) : forall i f, List.length (update l i f) = List.length l.
Proof. induction l as [|x l IH]; intros [|i] f; cbn; auto. Qed.
Lemma nth_update {A} (l : list A) : forall i j f,
  nth_error (update l i f) j = if Nat.eqb j i then option_map f (nth_error l j) else nth_error l j.
Proof.
  induction l as [|x l IH]; intros i j f.
  - rewrite update_nil. destruct (Nat.eqb j i), j; reflexivity.
  - destruct i as [|i], j as [|j]; cbn; auto.
Qed.

Ltac destr_if H :=
  repeat match type of H with
  | context [if ?b then _ else _] => let E := fresh "E" in destruct b eqn:E; try discriminate
  | context [match ?b with Some _ => _ | None => _ end] => let E := fresh "E" in destruct b eqn:E; try discriminate
  end.
Ltac zb := repeat match goal with
  | H : (_ <? _) = true |- _ => apply Z.ltb_lt in H
  | H : (_ <? _) = false |- _ => apply Z.ltb_ge in H
  | H : (_ <=? _) = true |- _ => apply Z.leb_le in H
  | H : (_ <=? _) = false |- _ => apply Z.leb_gt in H
  | H : (_ && _) = true |- _ => apply andb_prop in H; destruct H
  | H : (_ || _) = true |- _ => apply orb_prop in H
  end.

(** * What a finished call says *)
Definition sound_end (log : list (Z * cev)) (t : Z) (e : cev) : Prop :=
  match e with
  | EvReturn k (Some c) => exited_with c log
  | EvReturn k None => k <> CWait /\ exited log
  | EvRaise k TimeoutError =>
      k <> CStop -> exists tc to, latest_call log = Some (tc, k, to) /\ tc + allowed k to <= t
  | _ => True
  end.
Definition since (s : cst) (start : Z) : Prop :=
  exists tc to, latest_call (c_log s) = Some (tc, c_call s, to) /\
    c_timeout s = allowed (c_call s) to /\ tc <= start /\ start <= c_now s.
Definition phase_ok (s : cst) : Prop :=
  match c_phase s with
  | PIdle => True
  | PAsk _ => exists tc to, latest_call (c_log s) = Some (tc, c_call s, to) /\ c_call s = CStop /\ c_timeout s = to /\ tc <= c_now s
  | PCom start _ | PPoll start _ _ | PSleep start _ _ => since s start
  | PTop start fin _ | PSelect start fin _ | PRead start fin _ _ | PReap start fin _ _ | PNap start fin _ _ =>
      since s start /\ start + c_timeout s <= fin
  end.
Definition good (s : cst) : Prop :=
  match c_exit s with Some c => exited_with c (c_log s) | None => ~ exited (c_log s) end /\
  each sound_end (c_log s) /\ phase_ok s.

Lemma good_new t n : good (new_child t n).
Proof. split; [intros (c & t' & [])|]. split; [apply each_nil|exact I]. Qed.

Lemma since_more (s s' : cst) start :
  since s start -> latest_call (c_log s') = latest_call (c_log s) -> c_call s' = c_call s -> c_timeout s' = c_timeout s ->
  c_now s <= c_now s' -> since s' start.
Proof. intros (tc & to & A & B & C & D) E F G H. exists tc, to. rewrite E, F, G. repeat split; auto; lia. Qed.

Lemma phase_same (s s' : cst) :
  phase_ok s -> c_phase s' = c_phase s -> latest_call (c_log s') = latest_call (c_log s) -> c_call s' = c_call s ->
  c_timeout s' = c_timeout s -> c_now s <= c_now s' -> phase_ok s'.
Proof.
  unfold phase_ok. intros H Hp Hl Hc Ht Hn. rewrite Hp.
  destruct (c_phase s); auto; try (eapply since_more; eauto; fail).
  1: { destruct H as (tc & to & A & B & C & D). exists tc, to. rewrite Hl, Hc, Ht. repeat split; auto; lia. }
  all: destruct H as [H H']; split; [eapply since_more; eauto|rewrite Ht; exact H'].
Qed.

Lemma good_end (s : cst) (e : cev) :
  good s -> (forall c, e <> EvExit c) -> (match e with EvCall _ _ => False | _ => True end) -> sound_end (c_log s) (c_now s) e ->
  good (at_phase (happened s e) PIdle).
Proof.
  intros (A & B & C) Hne Hnc Hs. split; [|split; [|exact I]].
  - cbn [at_phase happened c_exit c_log]. destruct (c_exit s) as [c|].
    + apply exited_with_snoc. auto.
    + rewrite exited_snoc. intros [H|[c H]]; [auto|]. apply (Hne c H).
  - cbn [at_phase happened c_log]. apply each_snoc; auto.
Qed.
Lemma good_phase (s : cst) p : good s -> phase_ok (at_phase s p) -> good (at_phase s p).
Proof. intros (A & B & C) H. split; [exact A|]. split; [exact B|exact H]. Qed.
Lemma good_returns s c : good s -> c_exit s = Some c -> good (returns s (Some c)).
Proof. intros G E. apply good_end; auto; try discriminate; try exact I. destruct G as (A & _). rewrite E in A. exact A. Qed.
Lemma good_times s start : good s -> since s start -> start + c_timeout s <= c_now s -> good (raises s TimeoutError).
Proof.
  intros G (tc & to & A & B & C & D) H. apply good_end; auto; try discriminate; try exact I.
  cbn [sound_end]. intros Hk. exists tc, to. split; [exact A|]. rewrite <- B. lia.
Qed.
Lemma good_raises s e : good s -> (c_call s = CStop \/ e <> TimeoutError) -> good (raises s e).
Proof.
  intros G H. apply good_end; auto; try discriminate; try exact I.
  cbn [sound_end]. destruct e; auto. intros Hk. destruct H; contradiction.
Qed.

Lemma good_go K s s' : good s -> go K s = Some s' -> good s'.
Proof.
  intros G H. pose proof G as (A & B & C). unfold go in H. unfold phase_ok in C.
  destruct (c_phase s) eqn:Hp; try discriminate.
  - inversion H; subst; clear H. apply good_phase; [exact G|]. cbn [phase_ok at_phase c_phase]. split.
    + (eapply since_more; eauto; cbn; lia).
    + cbn. destruct C as (tc & to & _ & _ & _ & D). lia.
  - destruct C as [C1 C2]. destr_if H; inversion H; subst; clear H; zb.
    + eapply good_times; eauto. lia.
    + apply good_phase; [exact G|]. cbn. split; [|exact C2]. (eapply since_more; eauto; cbn; lia).
    + apply good_phase; [exact G|]. cbn. split; [|exact C2]. (eapply since_more; eauto; cbn; lia).
  - destruct C as [C1 C2]. destr_if H; inversion H; subst; clear H; zb.
    + eapply good_times; eauto. lia.
    + apply good_phase; [exact G|]. cbn. split; [|exact C2]. (eapply since_more; eauto; cbn; lia).
  - destruct C as [C1 C2]. destruct ready as [|i r].
    + inversion H; subst; clear H. apply good_phase; [exact G|]. cbn. split; [|exact C2]. (eapply since_more; eauto; cbn; lia).
    + destr_if H. inversion H; subst; clear H. split; [exact A|]. split; [exact B|].
      cbn. split; [|exact C2]. (eapply since_more; eauto; cbn; lia).
  - destruct C as [C1 C2]. destruct (c_exit s) eqn:Ex.
    + inversion H; subst; clear H. apply good_phase; [exact G|]. cbn. (eapply since_more; eauto; cbn; lia).
    + destr_if H; inversion H; subst; clear H; zb.
      * eapply good_times; eauto. lia.
      * apply good_phase; [exact G|]. cbn. split; [|exact C2]. (eapply since_more; eauto; cbn; lia).
  - destruct C as [C1 C2]. destr_if H. inversion H; subst; clear H. apply good_phase; [exact G|].
    cbn. split; [|exact C2]. (eapply since_more; eauto; cbn; lia).
  - destruct (c_exit s) eqn:Ex.
    + inversion H; subst; clear H. apply good_returns; auto.
    + destr_if H; inversion H; subst; clear H; zb.
      * eapply good_times; eauto. lia.
      * apply good_phase; [exact G|]. cbn. (eapply since_more; eauto; cbn; lia).
  - destr_if H. inversion H; subst; clear H. apply good_phase; [exact G|]. cbn. (eapply since_more; eauto; cbn; lia).
Qed.

Lemma good_call s k t : good s -> good (begin_call s k t).
Proof.
  intros (A & B & C).
  set (s1 := mkC (c_now s) (c_exit s) (c_pipes s) k t (c_phase s) (c_log s ++ [(c_now s, EvCall k t)])).
  assert (A1 : match c_exit s with Some c => exited_with c (c_log s1) | None => ~ exited (c_log s1) end).
  { destruct (c_exit s); cbn [s1 c_log]; [apply exited_with_snoc; auto|]. rewrite exited_snoc. intros [H|[c H]]; [auto|discriminate]. }
  assert (B1 : each sound_end (c_log s1)) by (apply each_snoc; [exact B|exact I]).
  assert (L1 : latest_call (c_log s1) = Some (c_now s, k, t)) by (cbn [s1 c_log]; rewrite latest_snoc; reflexivity).
  assert (W : k <> CKill -> since (at_phase s1 (PCom (c_now s) (c_now s))) (c_now s)).
  { intros Hk. exists (c_now s), t. cbn [at_phase c_log c_call c_timeout c_now]. rewrite L1. cbn [s1 c_call c_timeout c_now].
    repeat split; try lia. destruct k; auto. contradiction. }
  unfold begin_call. fold s1. destruct k.
  - split; [exact A1|]. split; [exact B1|]. apply W. discriminate.
  - destruct (c_exit s) eqn:Ex.
    + unfold returns. split; [|split; [|exact I]]; cbn [at_phase happened c_log c_exit s1].
      * try rewrite Ex. apply exited_with_snoc. left. exact A1.
      * apply each_snoc; [exact B1|]. cbn. split; [discriminate|]. exists z. exact A1.
    + split; [cbn [at_phase c_exit s1]; try rewrite Ex; exact A1|]. split; [exact B1|].
      cbn. exists (c_now s), t. rewrite <- L1. repeat split; lia.
  - destruct (c_exit s) eqn:Ex.
    + unfold returns. split; [|split; [|exact I]]; cbn [at_phase happened c_log c_exit s1].
      * try rewrite Ex. apply exited_with_snoc. left. exact A1.
      * apply each_snoc; [exact B1|]. cbn. split; [discriminate|]. exists z. exact A1.
    + split; [|split]; cbn [at_phase happened c_log c_exit].
      * try rewrite Ex. change (~ exited (c_log s1 ++ [(c_now s, EvSignal)])). rewrite exited_snoc. intros [H|[c H]]; [auto|discriminate].
      * apply each_snoc; [exact B1|exact I].
      * cbn [phase_ok at_phase c_phase]. exists (c_now s), t.
        cbn [at_phase happened c_log c_call c_timeout c_now s1]. rewrite latest_snoc. rewrite latest_snoc.
        repeat split; try lia.
Qed.

Lemma good_step K s l s' : good s -> cstep K s l = Some s' -> good s'.
Proof.
  intros G H. pose proof G as (A & B & C). destruct l; cbn [cstep] in H.
  - destr_if H. inversion H; subst; clear H. split; [exact A|]. split; [exact B|].
    eapply phase_same; eauto. unfold may_tick in E. zb. cbn; lia.
  - inversion H; subst; clear H. split; [exact A|]. split; [exact B|]. (eapply phase_same; eauto; cbn; lia).
  - inversion H; subst; clear H. split; [exact A|]. split; [exact B|]. (eapply phase_same; eauto; cbn; lia).
  - destruct (c_exit s) eqn:Ex; [discriminate|]. inversion H; subst; clear H.
    split; [apply exited_with_snoc; auto|]. split; [apply each_snoc; [exact B|exact I]|].
    eapply phase_same; eauto; cbn; try lia. apply latest_snoc.
  - inversion H; subst; clear H. split; [exact A|]. split; [exact B|]. (eapply phase_same; eauto; cbn; lia).
  - destruct (c_phase s); try discriminate. inversion H; subst; clear H. apply good_call; auto.
  - unfold phase_ok in C. destruct (c_phase s) eqn:Hp; try discriminate.
    destruct C as (tc & to & C1 & C2 & C3 & C4).
    destruct r as [[|]|e]; inversion H; subst; clear H.
    + apply good_phase; [exact G|]. cbn. exists tc, (c_timeout s). cbn. rewrite C1, C2. repeat split; auto; lia.
    + apply good_raises; auto.
    + apply good_raises; auto.
  - unfold phase_ok in C. destruct (c_phase s) eqn:Hp; try discriminate. destr_if H. inversion H; subst; clear H.
    apply good_phase; [exact G|]. cbn. (eapply since_more; eauto; cbn; lia).
  - eapply good_go; eauto.
Qed.
Lemma good_run K t n ls s : crun K (new_child t n) ls = Some s -> good s.
Proof. intros H. eapply (crun_inv K good (fun _ => True)); eauto using good_new, all_true. intros; eapply good_step; eauto. Qed.

(** * Without captured output *)
Definition not_yet (log : list (Z * cev)) (t : Z) (e : cev) : Prop :=
  match e with EvRaise k TimeoutError => k <> CStop -> ~ exited log | _ => True end.
Definition bare (s : cst) : Prop :=
  c_pipes s = [] /\ match c_phase s with PSelect _ _ _ | PRead _ _ _ _ => False | PAsk _ => c_call s = CStop | _ => True end /\
  match c_exit s with Some c => True | None => ~ exited (c_log s) end /\ each not_yet (c_log s).
Lemma bare_new t : bare (new_child t 0).
Proof. split; [reflexivity|]. split; [exact I|]. split; [intros (c & t' & [])|apply each_nil]. Qed.
Lemma bare_raise s e : bare s -> (c_call s = CStop \/ c_exit s = None) -> bare (raises s e).
Proof.
  intros (A & B & C & D) H. split; [exact A|]. split; [exact I|]. cbn [raises at_phase happened c_exit c_log]. split.
  - destruct (c_exit s); auto. rewrite exited_snoc. intros [X|[c X]]; [auto|discriminate].
  - apply each_snoc; auto. cbn. destruct e; auto. intros Hk. destruct H as [H|H]; [contradiction|]. rewrite H in C. exact C.
Qed.
Lemma bare_phase s p : bare s -> match p with PSelect _ _ _ | PRead _ _ _ _ => False | PAsk _ => c_call s = CStop | _ => True end -> bare (at_phase s p).
Proof. intros (A & B & C & D) H. repeat split; auto. Qed.
Lemma bare_log s e : bare s -> (match e with EvRaise _ _ | EvExit _ => False | _ => True end) -> bare (happened s e).
Proof.
  intros (A & B & C & D) H. split; [exact A|]. split; [exact B|]. cbn [happened c_exit c_log]. split.
  - destruct (c_exit s); auto. rewrite exited_snoc. intros [X|[c X]]; [auto|subst; contradiction].
  - apply each_snoc; auto. destruct e; try exact I; contradiction.
Qed.
Lemma bare_step K s l s' : bare s -> cstep K s l = Some s' -> bare s'.
Proof.
  intros G H. pose proof G as (A & B & C & D). destruct l; cbn [cstep] in H.
  - destr_if H. inversion H; subst; clear H. repeat split; auto.
  - inversion H; subst; clear H. split; [cbn; rewrite A; apply update_nil|]. repeat split; auto.
  - inversion H; subst; clear H. split; [cbn; rewrite A; apply update_nil|]. repeat split; auto.
  - destruct (c_exit s) eqn:Ex; [discriminate|]. inversion H; subst; clear H.
    split; [exact A|]. split; [exact B|]. split; [exact I|]. apply each_snoc; [exact D|exact I].
  - inversion H; subst; clear H. split; [cbn; rewrite A; apply update_nil|]. repeat split; auto.
  - destruct (c_phase s) eqn:Hp; try discriminate. inversion H; subst; clear H. unfold begin_call. rewrite ?Hp.
    set (s1 := mkC (c_now s) (c_exit s) (c_pipes s) k timeout PIdle (c_log s ++ [(c_now s, EvCall k timeout)])).
    assert (B1 : bare s1).
    { split; [exact A|]. split; [exact I|]. cbn [s1 c_exit c_log]. split; [|apply each_snoc; [exact D|exact I]].
      destruct (c_exit s); auto. rewrite exited_snoc. intros [X|[c X]]; [auto|discriminate]. }
    destruct k; cbn [c_phase].
    + apply bare_phase; [exact B1|exact I].
    + destruct (c_exit s) eqn:Ex.
      * apply bare_phase; [|exact I]. apply bare_log; [exact B1|exact I].
      * apply bare_phase; [exact B1|reflexivity].
    + destruct (c_exit s) eqn:Ex.
      * apply bare_phase; [|exact I]. apply bare_log; [exact B1|exact I].
      * apply bare_phase; [|exact I]. apply bare_log; [|exact I]. destruct B1 as (X1 & X2 & X3 & X4). repeat split; auto.
  - destruct (c_phase s) eqn:Hp; try discriminate.
    destruct r as [[|]|e]; inversion H; subst; clear H.
    + (apply bare_phase; [exact G|try exact I; auto]).
    + apply bare_raise; auto.
    + apply bare_raise; auto.
  - destruct (c_phase s) eqn:Hp; try discriminate. destr_if H. inversion H; subst; clear H. (apply bare_phase; [exact G|try exact I; auto]).
  - unfold go in H. destruct (c_phase s) eqn:Hp; try discriminate; try contradiction.
    + inversion H; subst; clear H. (apply bare_phase; [exact G|try exact I; auto]).
    + rewrite A in H. cbn in H. inversion H; subst; clear H. (apply bare_phase; [exact G|try exact I; auto]).
    + destruct (c_exit s) eqn:Ex; [|destr_if H]; inversion H; subst; clear H; ((apply bare_phase; [exact G|exact I]) || (apply bare_raise; [exact G|auto])).
    + destr_if H; inversion H; subst; clear H; (apply bare_phase; [exact G|try exact I; auto]).
    + destruct (c_exit s) eqn:Ex; [|destr_if H]; inversion H; subst; clear H; try (((apply bare_phase; [exact G|exact I]) || (apply bare_raise; [exact G|auto])); fail).
      apply bare_phase; [|exact I]. apply bare_log; [exact G|exact I].
    + destr_if H; inversion H; subst; clear H; (apply bare_phase; [exact G|try exact I; auto]).
Qed.
Lemma bare_run K t ls s : crun K (new_child t 0) ls = Some s -> bare s.
Proof. intros H. eapply (crun_inv K bare (fun _ => True)); eauto using bare_new, all_true. intros; eapply bare_step; eauto. Qed.
