From Verif Require Import Py LocalModel LocalSpec LocalProofs.
Local Open Scope nat_scope.
Local Open Scope list_scope.

(** the thread a server was started in *)
Definition placed (st : lst) (s t : nat) : Prop := exists v, server_is st s v /\ v_thread v = Some t.

Lemma register_ok st t s st1 : register st t s = (st1, Ok tt) -> placed st1 s t.
Proof.
  unfold register. destruct (nth_error (l_servers st) s) as [v|] eqn:E; [|discriminate]. destruct (v_thread v) as [t'|] eqn:T.
  - destruct (Nat.eqb t' t) eqn:Et; [|discriminate]. intros [= <-]. apply Nat.eqb_eq in Et. subst. exists v. auto.
  - destruct (get_server st t); [discriminate|]. intros [= <-]. eexists. split; [unfold server_is; cbn; eapply nset_same; eauto|reflexivity].
Qed.
Lemma start_places st o t s : starts o t s -> snd (lstep st o) = Ok tt -> placed (fst (lstep st o)) s t.
Proof.
  intros [->| ->] R; cbn [lstep] in *.
  - destruct (register st t s) as [st1 x] eqn:G. cbn in *. subst. eapply register_ok; eauto.
  - destruct (register st t s) as [st1 [[]|e]] eqn:G; [|discriminate R]. pose proof (register_ok _ _ _ _ G) as (v & V & T).
    unfold server_is in V. rewrite V in *. cbn [fst]. set (v' := mkSv (v_kind v) (v_thread v) true (v_closed v) (v_asked v)).
    assert (V' : nth_error (l_servers (set_server st1 s v')) s = Some v') by (cbn; eapply nset_same; eauto).
    destruct (v_asked v && negb (v_closed v)); [|exists v'; auto].
    unfold closes. rewrite V'. eexists. split; [unfold server_is; cbn [l_servers]; eapply nset_same; eauto|exact T].
Qed.
Lemma placed_later os os' s t : placed (lrun os) s t -> placed (lrun (os ++ os')) s t.
Proof. intros (v & V & T). destruct (server_later os os' s v V) as (v' & V' & _ & B & _). exists v'. auto. Qed.
Lemma placed_unique st s t t' : placed st s t -> placed st s t' -> t = t'.
Proof. unfold placed, server_is. intros (v & V & T) (v' & V' & T'). congruence. Qed.
Lemma started_placed os t s : was_started os t s -> placed (lrun os) s t.
Proof.
  intros (os1 & o & os2 & -> & St & R). replace (os1 ++ o :: os2) with ((os1 ++ [o]) ++ os2) by (rewrite <- app_assoc; reflexivity).
  apply placed_later. rewrite lrun_snoc. apply start_places; auto.
Qed.

(** where the servers are changes with a start only *)
Lemma placed_same st st' s t : l_servers st' = l_servers st -> placed st' s t -> placed st s t.
Proof. unfold placed, server_is. intros ->. auto. Qed.
Lemma placed_set st x v v' s t : nth_error (l_servers st) x = Some v -> v_thread v' = v_thread v -> placed (set_server st x v') s t -> placed st s t.
Proof.
  unfold placed, server_is. cbn. intros E T (w & W & Tw). apply nset_inv in W. destruct W as [(-> & -> & _)|(_ & W)]; [|eauto].
  exists v. split; [exact E|congruence].
Qed.
Lemma placed_closes st x s t : placed (closes st x) s t -> placed st s t.
Proof.
  unfold closes. destruct (nth_error (l_servers st) x) as [v|] eqn:E; [|auto]. intros (w & W & Tw). unfold server_is in W. cbn in W.
  apply nset_inv in W. destruct W as [(-> & -> & _)|(_ & W)]; [|exists w; auto]. exists v. auto.
Qed.
Lemma placed_register st t0 x s t : placed (fst (register st t0 x)) s t ->
  placed st s t \/ (t0 = t /\ x = s /\ snd (register st t0 x) = Ok tt).
Proof.
  unfold register. destruct (nth_error (l_servers st) x) as [v|] eqn:E; [|auto]. destruct (v_thread v) as [t'|] eqn:T; [auto|].
  destruct (get_server st t0); [auto|]. cbn [fst snd]. intros (w & W & Tw). unfold server_is in W. cbn in W.
  apply nset_inv in W. destruct W as [(-> & -> & _)|(_ & W)]; [|left; exists w; auto]. right. cbn in Tw. injection Tw as ->. auto.
Qed.
Lemma placed_step (H : nat -> nat -> Prop) st o s t : Inv H st -> (forall t s, get_server st t = Some s -> H t s) ->
  placed (fst (lstep st o)) s t -> placed st s t \/ (starts o t s /\ snd (lstep st o) = Ok tt).
Proof.
  intros I HG P. destruct o as [q|t0 x|t0 x|t0 x r|c x|t0 x]; cbn [lstep] in *.
  - left. destruct P as (v & V & T). unfold server_is in V. cbn in V. apply nth_snoc in V. destruct V as [V|[_ ->]]; [exists v; auto|discriminate].
  - apply placed_register in P. destruct P as [P|(-> & -> & R)]; [auto|]. right. split; [left; reflexivity|exact R].
  - pose proof (placed_register st t0 x s t) as Q. destruct (register st t0 x) as [st1 [[]|e]] eqn:R; cbn [fst snd] in *.
    + assert (P1 : placed st1 s t).
      { destruct (nth_error (l_servers st1) x) as [v|] eqn:E; [|exact P]. cbn [fst] in P.
        destruct (v_asked v && negb (v_closed v)); [apply placed_closes in P|]; (eapply placed_set; [exact E| |exact P]); reflexivity. }
      destruct (Q P1) as [Q1|(-> & -> & _)]; [auto|]. right. split; [right; reflexivity|].
      destruct (register_ok _ _ _ _ R) as (v & V & _). unfold server_is in V. rewrite V. reflexivity.
    + destruct (Q P) as [Q1|(_ & _ & Q1)]; [auto|discriminate].
  - left. pose proof (new_client_inv H st t0 x r HG I) as (_ & A & _). destruct (new_client st t0 x r) as [st1 y]. eapply placed_same; eauto.
  - left. unfold wait_turn in P. destruct (gp_frame st c) as (A & _). destruct (get_poller st c) as [st1 p]. cbn [fst] in *. eapply placed_same; [exact A|].
    revert P. repeat match goal with |- context [match ?x with _ => _ end] => destruct x end; auto.
  - left. unfold close in P. destruct (get_client_inv H st t0 x HG I) as (_ & A & _). destruct (get_client st t0 x) as [st1 [c|e]]; cbn [fst] in *; [|eapply placed_same; eauto].
    destruct (gp_frame st1 c) as (B & _). eapply placed_same; [exact A|].
    destruct (nth_error (l_clients st1) c) as [k|]; [|exact P]. destruct (c_disc k); [exact P|].
    destruct (attended st1 t0 c x).
    + destruct (match nth_error (l_servers st1) x with Some v => v_closed v | None => false end); cbn [fst] in P; [|apply placed_closes in P]; eapply placed_same; eauto.
    + cbn [fst] in P. destruct (nth_error (l_servers (fst (get_poller st1 c))) x) as [v|] eqn:E; [|eapply placed_same; eauto].
      eapply placed_same; [exact B|]. eapply placed_set; [exact E| |exact P]. reflexivity.
Qed.
Lemma placed_started os s t : placed (lrun os) s t -> was_started os t s.
Proof.
  induction os as [|o os IH] using rev_ind; intros P.
  - destruct P as (v & V & _). unfold server_is in V. destruct s; discriminate.
  - rewrite lrun_snoc in P. apply (placed_step (had os)) in P; [|apply run_inv|intros; apply had_now; assumption].
    destruct P as [P|[St R]].
    + destruct (IH P) as (a & o' & b & -> & X). exists a, o', (b ++ [o]). rewrite <- app_assoc. auto.
    + exists os, o, []. auto.
Qed.

(** * get_server *)
Lemma found_iff os t s : get_server (lrun os) t = Some s <-> was_started os t s /\ is_open (lrun os) s.
Proof.
  split.
  - intros G. destruct (i_at _ _ (run_inv os) t s G) as (v & V1 & V2 & V3). split; [apply placed_started; exists v; auto|exists v; auto].
  - intros [W (v & V & C)]. apply started_placed in W. destruct W as (v' & V' & T). unfold server_is in *. rewrite V in V'. injection V' as <-.
    exact (i_open _ _ (run_inv os) s v t V C T).
Qed.
Lemma second_refused os o t s s' : starts o t s -> get_server (lrun os) t = Some s' -> (exists v, server_is (lrun os) s v) ->
  (forall t', ~ was_started os t' s) -> lstep (lrun os) o = (lrun os, Err KeyError).
Proof.
  intros St G (v & V) N. assert (T : v_thread v = None).
  { destruct (v_thread v) as [t'|] eqn:T; [|reflexivity]. destruct (N t'). apply placed_started. exists v. auto. }
  assert (R : register (lrun os) t s = (lrun os, Err KeyError)) by (unfold register; unfold server_is in V; rewrite V, T, G; reflexivity).
  destruct St as [->| ->]; cbn [lstep]; rewrite R; reflexivity.
Qed.
Lemma moved_refused os o t s t' : starts o t s -> was_started os t' s -> t' <> t -> lstep (lrun os) o = (lrun os, Err AssertionError).
Proof.
  intros St W N. apply started_placed in W. destruct W as (v & V & T).
  assert (R : register (lrun os) t s = (lrun os, Err AssertionError)).
  { unfold register. unfold server_is in V. rewrite V, T. apply Nat.eqb_neq in N. rewrite N. reflexivity. }
  destruct St as [->| ->]; cbn [lstep]; rewrite R; reflexivity.
Qed.
Lemma closed_silent os t s : was_started os t s -> is_closed (lrun os) s ->
  lstep (lrun os) (LLazy t s) = (lrun os, Ok tt) /\ get_server (lrun os) t <> Some s.
Proof.
  intros W (v & V & C). split.
  - apply started_placed in W. destruct W as (v' & V' & T). cbn [lstep]. unfold register. unfold server_is in V'. rewrite V', T, Nat.eqb_refl. reflexivity.
  - intros G. apply found_iff in G. destruct G as [_ (v' & V' & C')]. unfold server_is in *. congruence.
Qed.
Lemma fresh_started os t s : (exists v, server_is (lrun os) s v) -> (forall t', ~ was_started os t' s) -> (forall s', get_server (lrun os) t <> Some s') ->
  snd (lstep (lrun os) (LLazy t s)) = Ok tt.
Proof.
  intros (v & V) N G. assert (T : v_thread v = None).
  { destruct (v_thread v) as [t'|] eqn:T; [|reflexivity]. destruct (N t'). apply placed_started. exists v. auto. }
  cbn [lstep]. unfold register. unfold server_is in V. rewrite V, T. destruct (get_server (lrun os) t) as [s'|] eqn:E; [destruct (G s' eq_refl)|reflexivity].
Qed.
