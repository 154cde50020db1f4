From Verif Require Import Py ChildModel ChildSpec ChildProofs.
Local Open Scope list_scope.

Lemma readable_writes b p : readable p = true -> readable (writes b p) = true.
Proof.
  unfold readable, writes. destruct (pp_writers p) eqn:W; [|rewrite W; auto]. cbn. destruct (pp_open p); cbn; [|auto].
  destruct (pp_buf p); cbn; [discriminate|auto].
Qed.
Lemma readable_hup p : readable p = true -> readable (hangs_up p) = true.
Proof. unfold readable, hangs_up. cbn. destruct (pp_open p); cbn; [|auto]. destruct (pp_buf p); auto. Qed.
Lemma update_blocked l i f j :
  (forall p, readable p = true -> readable (f p) = true) -> blocked l j = false -> blocked (update l i f) j = false.
Proof.
  unfold blocked. intros Hf. rewrite nth_update. destruct (Nat.eqb j i); [|auto].
  destruct (nth_error l j); cbn; [|auto]. intros H. apply negb_false_iff in H. rewrite Hf; auto.
Qed.
Lemma update_other l i f j : j <> i -> blocked (update l i f) j = blocked l j.
Proof. intros H. unfold blocked. rewrite nth_update. apply Nat.eqb_neq in H. rewrite H. reflexivity. Qed.
Lemma positions_ge l : forall i j, In j (positions i l) -> (i <= j)%nat.
Proof.
  induction l as [|p l IH]; intros i j H; cbn [positions] in H; [contradiction|].
  apply in_app_or in H. destruct H as [H|H].
  - destruct (readable p); [destruct H as [->|[]]; lia|contradiction].
  - apply IH in H. lia.
Qed.
Lemma positions_nodup l : forall i, NoDup (positions i l).
Proof.
  induction l as [|p l IH]; intros i; cbn [positions]; [constructor|].
  destruct (readable p); cbn [app]; [|apply IH]. constructor; [|apply IH].
  intros H. apply positions_ge in H. lia.
Qed.
Lemma positions_len l : forall i, (List.length (positions i l) <= List.length l)%nat.
Proof. induction l as [|p l IH]; intros i; cbn [positions]; [auto|]. rewrite app_length. specialize (IH (S i)). destruct (readable p); cbn; lia. Qed.
Lemma positions_readable l : forall i j, In j (positions i l) -> exists p, nth_error l (j - i) = Some p /\ readable p = true.
Proof.
  induction l as [|p l IH]; intros i j H; cbn [positions] in H; [contradiction|].
  apply in_app_or in H. destruct H as [H|H].
  - destruct (readable p) eqn:E; [destruct H as [->|[]]|contradiction]. rewrite Nat.sub_diag. exists p. auto.
  - pose proof (positions_ge _ _ _ H). apply IH in H. destruct H as (q & H & R). exists q. split; [|exact R].
    replace (j - i)%nat with (S (j - S i)) by lia. exact H.
Qed.
Lemma positions_ok l j : In j (positions 0 l) -> blocked l j = false.
Proof. intros H. apply positions_readable in H. destruct H as (p & H & R). rewrite Nat.sub_0_r in H. unfold blocked. rewrite H, R. reflexivity. Qed.

Lemma up_ms_bound x : 0 <= x -> x <= up_ms x < x + millis.
Proof.
  intros H. unfold up_ms, millis.
  pose proof (Z.div_mod (x + 1000000 - 1) 1000000 ltac:(lia)).
  pose proof (Z.mod_pos_bound (x + 1000000 - 1) 1000000 ltac:(lia)). lia.
Qed.

Section Time.
  Variable K : ccfg.
  Hypothesis S0 : 0 <= k_setup K.
  Hypothesis A0 : 0 <= k_ask K.
  Notation SS := (k_setup K).

  Definition since_by (s : cst) (start : Z) : Prop :=
    exists tc to, latest_call (c_log s) = Some (tc, c_call s, to) /\ c_timeout s = allowed (c_call s) to /\
      start <= tc + match c_call s with CStop => Z.max 0 to + k_ask K | _ => 0 end.
  Definition TT (s : cst) : Z := Z.max 0 (c_timeout s).
  Definition timed_phase (s : cst) : Prop :=
    let now := c_now s in
    match c_phase s with
    | PIdle => True
    | PAsk t0 => exists to, latest_call (c_log s) = Some (t0, c_call s, to) /\ c_call s = CStop /\ c_timeout s = to /\
        now <= t0 + TT s + k_ask K
    | PCom start t0 => since_by s start /\ t0 = start /\ now <= start + SS
    | PTop start fin t0 => since_by s start /\ fin <= start + TT s + SS /\ t0 <= start + TT s + 4 * SS /\ now <= t0 + SS
    | PSelect start fin dl => since_by s start /\ fin <= start + TT s + SS /\ dl <= fin + millis /\ now <= dl
    | PRead start fin r t0 => since_by s start /\ fin <= start + TT s + SS /\ t0 + Z.of_nat (List.length r) * SS <= fin + 2 * SS /\
        now <= t0 + SS /\ NoDup r /\ forall j, In j r -> blocked (c_pipes s) j = false
    | PReap start fin d t0 => since_by s start /\ fin <= start + TT s + SS /\ t0 <= start + TT s + 5 * SS /\ now <= t0 + SS /\ 0 <= d
    | PNap start fin d dl => since_by s start /\ fin <= start + TT s + SS /\ dl <= fin /\ now <= dl /\ 0 <= d
    | PPoll start d t0 => since_by s start /\ t0 <= start + TT s + 6 * SS + 100 * millis /\ now <= t0 + SS /\ 0 <= d <= 100 * millis
    | PSleep start d dl => since_by s start /\ dl <= start + TT s + 100 * millis /\ now <= dl /\ 0 <= d <= 100 * millis
    end.
  Definition in_time (before : list (Z * cev)) (t : Z) (e : cev) : Prop :=
    ends e = true -> exists tc k to, latest_call before = Some (tc, k, to) /\ t <= deadline K k tc to.
  Definition timed (n : nat) (s : cst) : Prop :=
    List.length (c_pipes s) = n /\ each in_time (c_log s) /\ timed_phase s.

  Lemma busy_bound s : timed_phase s -> busy s ->
    exists tc to, latest_call (c_log s) = Some (tc, c_call s, to) /\ c_now s <= deadline K (c_call s) tc to.
  Proof.
    unfold timed_phase, busy, TT, deadline, millis. intros H Hb.
    assert (W : forall start, since_by s start -> c_now s <= start + Z.max 0 (c_timeout s) + 100 * 1000000 + 7 * SS ->
      exists tc to, latest_call (c_log s) = Some (tc, c_call s, to) /\
        c_now s <= tc + Z.max 0 (allowed (c_call s) to) + match c_call s with CStop => Z.max 0 to + k_ask K | _ => 0 end + 100 * 1000000 + 7 * SS).
    { intros start (tc & to & B1 & B2 & B3) Hn. exists tc, to. split; [exact B1|]. rewrite <- B2. lia. }
    destruct (c_phase s); try contradiction.
    - destruct H as (to & H1 & H2 & H3 & H4). exists t0, to. split; [exact H1|]. rewrite H2 in *. cbn [allowed]. rewrite H3 in *. lia.
    - destruct H as (H1 & H2 & H3). apply (W _ H1). lia.
    - destruct H as (H1 & H2 & H3 & H4). apply (W _ H1). lia.
    - destruct H as (H1 & H2 & H3 & H4). unfold millis in *. apply (W _ H1). lia.
    - destruct H as (H1 & H2 & H3 & H4 & _). apply (W _ H1). nia.
    - destruct H as (H1 & H2 & H3 & H4). apply (W _ H1). lia.
    - destruct H as (H1 & H2 & H3 & H4). apply (W _ H1). lia.
    - destruct H as (H1 & H2 & H3 & H4). apply (W _ H1). lia.
    - destruct H as (H1 & H2 & H3 & H4). apply (W _ H1). lia.
  Qed.

  Lemma timed_new t n : timed n (new_child t n).
  Proof. split; [apply repeat_length|]. split; [apply each_nil|exact I]. Qed.
  Lemma timed_end n s e : timed n s -> busy s -> timed n (at_phase (happened s e) PIdle).
  Proof.
    intros (A & B & C) Hb. split; [exact A|]. split; [|exact I]. cbn [at_phase happened c_log].
    apply each_snoc; [exact B|]. intros _. destruct (busy_bound s C Hb) as (tc & to & H1 & H2). eauto.
  Qed.
  Lemma timed_go n s s' : (n <= 2)%nat -> timed n s -> go K s = Some s' -> timed n s'.
  Proof.
    intros Hn G H. pose proof G as (A & B & C). unfold go in H. unfold timed_phase in C.
    destruct (c_phase s) eqn:Hp; try discriminate.
    - inversion H; subst; clear H. destruct C as (C1 & C2 & C3). split; [auto|]. split; [exact B|].
      cbn -[Z.mul Z.add millis up_ms]. split; [exact C1|]. unfold TT in *. cbn -[Z.mul Z.add millis up_ms]. lia.
    - destruct C as (C1 & C2 & C3 & C4). destr_if H; inversion H; subst; clear H; zb.
      + apply timed_end; auto. unfold busy. rewrite Hp. discriminate.
      + split; [auto|]. split; [exact B|]. cbn -[Z.mul Z.add millis up_ms]. split; [exact C1|]. pose proof (up_ms_bound (fin - c_now s) ltac:(lia)).
        unfold TT in *. cbn -[Z.mul Z.add millis up_ms]. lia.
      + split; [auto|]. split; [exact B|]. cbn -[Z.mul Z.add millis up_ms]. split; [exact C1|]. unfold TT in *. cbn -[Z.mul Z.add millis up_ms]. lia.
    - destruct C as (C1 & C2 & C3 & C4). destr_if H; inversion H; subst; clear H; zb.
      + apply timed_end; auto. unfold busy. rewrite Hp. discriminate.
      + split; [auto|]. split; [exact B|]. cbn -[Z.mul Z.add millis up_ms]. split; [exact C1|]. split; [exact C2|].
        pose proof (positions_len (c_pipes s) 0). repeat split; try nia.
        * apply positions_nodup.
        * apply positions_ok.
    - destruct C as (C1 & C2 & C3 & C4 & C5 & C6). destruct ready as [|i r].
      + inversion H; subst; clear H. split; [auto|]. split; [exact B|]. cbn -[Z.mul Z.add millis up_ms]. split; [exact C1|]. cbn [List.length] in C3. change (Z.of_nat 0) with 0 in C3. unfold TT in *. cbn -[Z.mul Z.add millis up_ms]. lia.
      + destr_if H. inversion H; subst; clear H. split; [cbn; rewrite update_length; reflexivity|]. split; [exact B|].
        cbn -[Z.mul Z.add millis up_ms]. split; [exact C1|]. split; [exact C2|]. inversion C5; subst. cbn [List.length] in C3. repeat split; try lia; auto.
        intros j Hj. rewrite update_other; [apply C6; right; exact Hj|]. intros ->. contradiction.
    - destruct C as (C1 & C2 & C3 & C4). destruct (c_exit s) eqn:Ex.
      + inversion H; subst; clear H. split; [auto|]. split; [exact B|]. cbn -[Z.mul Z.add millis up_ms]. split; [exact C1|]. unfold TT, millis in *. cbn -[Z.mul Z.add millis up_ms]. lia.
      + set (x := 2 * d) in H. assert (x = 2 * d) by reflexivity. clearbody x. destr_if H; inversion H; subst; clear H; zb.
        * apply timed_end; auto. unfold busy. rewrite Hp. discriminate.
        * split; [auto|]. split; [exact B|]. cbn -[Z.mul Z.add millis up_ms]. split; [exact C1|]. unfold TT, millis in *. cbn -[Z.mul Z.add millis up_ms]. lia.
    - destruct C as (C1 & C2 & C3 & C4). destr_if H; inversion H; subst; clear H; zb.
      split; [auto|]. split; [exact B|]. cbn -[Z.mul Z.add millis up_ms]. split; [exact C1|]. unfold TT in *. cbn -[Z.mul Z.add millis up_ms]. lia.
    - destruct C as (C1 & C2 & C3 & C4). destruct (c_exit s) eqn:Ex.
      + inversion H; subst; clear H. apply timed_end; auto. unfold busy. rewrite Hp. discriminate.
      + destr_if H; inversion H; subst; clear H; zb.
        * apply timed_end; auto. unfold busy. rewrite Hp. discriminate.
        * split; [auto|]. split; [exact B|]. cbn -[Z.mul Z.add millis up_ms]. split; [exact C1|]. unfold TT, millis in *. cbn -[Z.mul Z.add millis up_ms]. 
          destruct C1 as (tc & to & _). lia.
    - destruct C as (C1 & C2 & C3 & C4). set (x := 2 * d) in H. assert (x = 2 * d) by reflexivity. clearbody x. destr_if H; inversion H; subst; clear H; zb.
      split; [auto|]. split; [exact B|]. cbn -[Z.mul Z.add millis up_ms]. split; [exact C1|]. unfold TT, millis in *. cbn -[Z.mul Z.add millis up_ms]. lia.
  Qed.
  Lemma timed_pipes n s l : timed n s -> List.length l = List.length (c_pipes s) ->
    (forall j, blocked (c_pipes s) j = false -> blocked l j = false) -> timed n (with_pipes s l).
  Proof.
    intros (A & B & C) H Hb. split; [cbn; congruence|]. split; [exact B|].
    unfold timed_phase in *. cbn -[Z.mul Z.add millis up_ms]. destruct (c_phase s); auto.
    destruct C as (C1 & C2 & C3 & C4 & C5 & C6). repeat (split; auto).
  Qed.
  Lemma timed_same (s s' : cst) : timed_phase s -> c_phase s' = c_phase s -> latest_call (c_log s') = latest_call (c_log s) ->
    c_call s' = c_call s -> c_timeout s' = c_timeout s -> c_now s' = c_now s -> c_pipes s' = c_pipes s -> timed_phase s'.
  Proof.
    unfold timed_phase, since_by, TT. intros H Hp Hl Hc Ht Hn Hq. rewrite Hp, Hl, Hc, Ht, Hn, Hq. exact H.
  Qed.
  Lemma timed_call n s k t : timed n s -> c_phase s = PIdle -> timed n (begin_call s k t).
  Proof.
    intros (A & B & C) Hp.
    assert (B1 : each in_time (c_log s ++ [(c_now s, EvCall k t)])) by (apply each_snoc; [exact B|discriminate]).
    assert (L1 : latest_call (c_log s ++ [(c_now s, EvCall k t)]) = Some (c_now s, k, t)) by apply latest_snoc.
    unfold begin_call. destruct k.
    - split; [exact A|]. split; [exact B1|]. cbn -[Z.mul Z.add millis up_ms]. split; [|lia]. exists (c_now s), t. cbn -[Z.mul Z.add millis up_ms]. rewrite L1. repeat split; lia.
    - destruct (c_exit s).
      + split; [exact A|]. split; [|exact I]. cbn -[Z.mul Z.add millis up_ms]. apply each_snoc; [exact B1|]. intros _. exists (c_now s), CStop, t.
        split; [exact L1|]. unfold deadline, allowed. lia.
      + split; [exact A|]. split; [exact B1|]. cbn -[Z.mul Z.add millis up_ms]. exists t. unfold TT. cbn -[Z.mul Z.add millis up_ms]. repeat split; auto. lia.
    - destruct (c_exit s).
      + split; [exact A|]. split; [|exact I]. cbn -[Z.mul Z.add millis up_ms]. apply each_snoc; [exact B1|]. intros _. exists (c_now s), CKill, t.
        split; [exact L1|]. unfold deadline, allowed. lia.
      + split; [exact A|]. split; [cbn; apply each_snoc; [exact B1|discriminate]|]. cbn -[Z.mul Z.add millis up_ms]. split; [|lia].
        exists (c_now s), t. cbn -[Z.mul Z.add millis up_ms]. rewrite latest_snoc. rewrite L1. repeat split; try lia.
  Qed.
  Lemma timed_step n s l s' : (n <= 2)%nat -> timed n s -> polls l = false \/ n = 0%nat -> cstep K s l = Some s' -> timed n s'.
  Proof.
    intros Hn G Hl H. pose proof G as (A & B & C). destruct l; cbn [cstep] in H.
    - destr_if H. inversion H; subst; clear H. unfold may_tick in E. apply andb_prop in E. destruct E as [E0 E]. zb.
      split; [auto|]. split; [exact B|]. unfold timed_phase in *. cbn -[Z.mul Z.add millis up_ms]. destruct (c_phase s) eqn:Hp; auto.
      + zb. destruct C as (to & C1 & C2 & C3 & C4). exists to. unfold TT in *. cbn -[Z.mul Z.add millis up_ms]. repeat split; auto; lia.
      + zb. destruct C as (C1 & C2 & C3). split; [exact C1|]. lia.
      + zb. destruct C as (C1 & C2 & C3). split; [exact C1|]. unfold TT in *. cbn -[Z.mul Z.add millis up_ms]. lia.
      + zb. destruct C as (C1 & C2 & C3). split; [exact C1|]. unfold TT in *. cbn -[Z.mul Z.add millis up_ms]. lia.
      + destruct C as (C1 & C2 & C3 & C4 & C5 & C6). split; [exact C1|]. split; [exact C2|]. split; [exact C3|].
        split; [|auto]. destruct ready as [|i r]; [zb; lia|]. rewrite (C6 i) in E; [|left; reflexivity]. cbn in E. zb. lia.
      + zb. destruct C as (C1 & C2 & C3). split; [exact C1|]. unfold TT in *. cbn -[Z.mul Z.add millis up_ms]. lia.
      + zb. destruct C as (C1 & C2 & C3). split; [exact C1|]. unfold TT in *. cbn -[Z.mul Z.add millis up_ms]. lia.
      + zb. destruct C as (C1 & C2 & C3). split; [exact C1|]. unfold TT in *. cbn -[Z.mul Z.add millis up_ms]. lia.
      + zb. destruct C as (C1 & C2 & C3). split; [exact C1|]. unfold TT in *. cbn -[Z.mul Z.add millis up_ms]. lia.
    - inversion H; subst; clear H. apply timed_pipes; auto; [apply update_length|]. intros j. apply update_blocked, readable_writes.
    - inversion H; subst; clear H. apply timed_pipes; auto; [apply update_length|]. intros j. apply update_blocked, readable_hup.
    - destruct (c_exit s); [discriminate|]. inversion H; subst; clear H. split; [auto|]. split; [apply each_snoc; [exact B|discriminate]|].
      eapply timed_same; eauto; cbn -[Z.mul Z.add millis up_ms]. apply latest_snoc.
    - destruct Hl as [Hl| ->]; [discriminate|]. inversion H; subst; clear H.
      destruct (c_pipes s) eqn:Hq; [|discriminate]. rewrite update_nil.
      apply timed_pipes; [exact G|rewrite Hq; reflexivity|]. rewrite Hq. auto.
    - destruct (c_phase s) eqn:Hp; try discriminate. inversion H; subst; clear H. apply timed_call; auto.
    - unfold timed_phase in C. destruct (c_phase s) eqn:Hp; try discriminate.
      destruct C as (to & C1 & C2 & C3 & C4).
      destruct r as [[|]|e]; inversion H; subst; clear H.
      + split; [auto|]. split; [exact B|]. cbn -[Z.mul Z.add millis up_ms]. split; [|lia]. exists t0, (c_timeout s). cbn -[Z.mul Z.add millis up_ms]. rewrite C1. rewrite C2. repeat split; auto.
        unfold TT in C4. lia.
      + apply timed_end; auto. unfold busy. rewrite Hp. discriminate.
      + apply timed_end; auto. unfold busy. rewrite Hp. discriminate.
    - unfold timed_phase in C. destruct (c_phase s) eqn:Hp; try discriminate. destr_if H. inversion H; subst; clear H.
      destruct C as (C1 & C2 & C3). split; [auto|]. split; [exact B|]. cbn -[Z.mul Z.add millis up_ms]. split; [exact C1|]. unfold TT, millis. cbn -[Z.mul Z.add millis up_ms]. lia.
    - eapply timed_go; eauto.
  Qed.
  Lemma timed_run t n ls s : (n <= 2)%nat -> unpolled n ls -> crun K (new_child t n) ls = Some s -> timed n s.
  Proof.
    intros Hn Hu H. refine (crun_inv K (timed n) (fun l => polls l = false \/ n = 0%nat) _ ls (new_child t n) s (timed_new t n) _ H).
    - intros; eapply timed_step; eauto.
    - destruct Hu as [Hu|Hu].
      + clear H. induction ls; constructor; auto.
      + clear H. induction ls as [|l ls IH]; [constructor|]. cbn in Hu. apply andb_prop in Hu. destruct Hu as [U1 U2].
        constructor; [left; apply negb_true_iff; exact U1|auto].
  Qed.

  (** the caller is never stuck *)
  Lemma proceeds n s : timed n s -> busy s -> can_go_on K s.
  Proof.
    intros (_ & _ & C) Hb. unfold timed_phase, busy, can_go_on in *.
    destruct (c_phase s) eqn:Hp; try contradiction.
    - exists [LReply (Ok true)]. eexists. split; [auto|]. cbn -[Z.mul Z.add millis up_ms]. rewrite Hp. reflexivity.
    - exists [LGo]. eexists. split; [auto|]. cbn -[Z.mul Z.add millis up_ms]. unfold go. rewrite Hp. reflexivity.
    - exists [LGo]. cbn -[Z.mul Z.add millis up_ms]. unfold go. rewrite Hp.
      destruct (existsb pp_open (c_pipes s)); [destruct (fin - c_now s <? 0)|]; eexists; (split; [auto|reflexivity]).
    - destruct C as (_ & _ & _ & C). destruct (existsb readable (c_pipes s) || (dl <=? c_now s)) eqn:E.
      + exists [LGo]. cbn -[Z.mul Z.add millis up_ms]. unfold go. rewrite Hp, E. destruct (fin <? c_now s); eexists; (split; [auto|reflexivity]).
      + apply orb_false_elim in E. destruct E as [E1 E2]. zb. exists [LTick (dl - c_now s); LGo]. cbn [crun cstep]. unfold may_tick. rewrite Hp, E1.
        replace (0 <=? dl - c_now s) with true by (symmetry; apply Z.leb_le; lia).
        replace (c_now s + (dl - c_now s)) with dl by lia. rewrite Z.leb_refl. cbn [andb negb].
        unfold go. cbn [c_phase c_pipes c_now]. rewrite E1, Z.leb_refl. cbn [orb].
        destruct (fin <? dl); eexists; (split; [right; right; exists (dl - c_now s); split; [lia|reflexivity]|reflexivity]).
    - destruct C as (_ & _ & _ & _ & _ & C). exists [LGo]. cbn -[Z.mul Z.add millis up_ms]. unfold go. rewrite Hp. destruct ready as [|i r].
      + eexists; (split; [auto|reflexivity]).
      + rewrite (C i); [|left; reflexivity]. eexists; (split; [auto|reflexivity]).
    - exists [LGo]. cbn -[Z.mul Z.add millis up_ms]. unfold go. rewrite Hp.
      destruct (c_exit s); [|destruct (fin - c_now s <=? 0)]; eexists; (split; [auto|reflexivity]).
    - destruct (dl <=? c_now s) eqn:E.
      + exists [LGo]. cbn -[Z.mul Z.add millis up_ms]. unfold go. rewrite Hp, E. eexists; (split; [auto|reflexivity]).
      + zb. exists [LTick (dl - c_now s); LGo]. cbn [crun cstep]. unfold may_tick. rewrite Hp.
        replace (0 <=? dl - c_now s) with true by (symmetry; apply Z.leb_le; lia).
        replace (c_now s + (dl - c_now s)) with dl by lia. rewrite Z.leb_refl. cbn [andb negb].
        unfold go. cbn [c_phase c_pipes c_now]. rewrite Z.leb_refl.
        eexists; (split; [right; right; exists (dl - c_now s); split; [lia|reflexivity]|reflexivity]).
    - exists [LGo]. cbn -[Z.mul Z.add millis up_ms]. unfold go. rewrite Hp.
      destruct (c_exit s); [|destruct (c_timeout s <? c_now s - start)]; eexists; (split; [auto|reflexivity]).
    - destruct (dl <=? c_now s) eqn:E.
      + exists [LGo]. cbn -[Z.mul Z.add millis up_ms]. unfold go. rewrite Hp, E. eexists; (split; [auto|reflexivity]).
      + zb. exists [LTick (dl - c_now s); LGo]. cbn [crun cstep]. unfold may_tick. rewrite Hp.
        replace (0 <=? dl - c_now s) with true by (symmetry; apply Z.leb_le; lia).
        replace (c_now s + (dl - c_now s)) with dl by lia. rewrite Z.leb_refl. cbn [andb negb].
        unfold go. cbn [c_phase c_pipes c_now]. rewrite Z.leb_refl.
        eexists; (split; [right; right; exists (dl - c_now s); split; [lia|reflexivity]|reflexivity]).
  Qed.
End Time.
