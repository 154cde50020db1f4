From Verif Require Import Py ChildModel ChildSpec ChildProofs.
Local Open Scope list_scope.

(** * A pipe that stays open *)
Definition held (i : nat) (s : cst) : Prop :=
  (exists p, nth_error (c_pipes s) i = Some p /\ pp_writers p = true /\ pp_open p = true) /\
  match c_phase s with PReap _ _ _ _ | PNap _ _ _ _ | PPoll _ _ _ | PSleep _ _ _ => False | _ => True end /\
  forall t k c, ~ In (t, EvReturn k (Some c)) (c_log s).
Lemma not_in_snoc (l : list (Z * cev)) t e :
  (forall t k c, ~ In (t, EvReturn k (Some c)) l) -> (forall k c, e <> EvReturn k (Some c)) ->
  forall t' k c, ~ In (t', EvReturn k (Some c)) (l ++ [(t, e)]).
Proof. intros H He t' k c X. apply in_app_or in X. destruct X as [X|[X|[]]]; [apply (H _ _ _ X)|]. inversion X. eapply He; eauto. Qed.
Lemma held_new t n i : (i < n)%nat -> held i (new_child t n).
Proof.
  intros H. split; [|split; [exact I|intros ? ? ? []]]. exists new_pipe. repeat split.
  cbn. revert i H. induction n; intros i H; [lia|]. destruct i; cbn; [reflexivity|apply IHn; lia].
Qed.
Lemma held_open i s : held i s -> existsb pp_open (c_pipes s) = true.
Proof.
  intros ((p & H & _ & O1) & _). apply existsb_exists. exists p. split; [|exact O1]. eapply nth_error_In; eauto.
Qed.
Lemma held_upd i j f (l : list pipe) :
  (exists p, nth_error l i = Some p /\ pp_writers p = true /\ pp_open p = true) ->
  (forall p, nth_error l j = Some p -> i = j -> pp_writers p = true -> pp_open p = true -> pp_writers (f p) = true /\ pp_open (f p) = true) ->
  exists p, nth_error (update l j f) i = Some p /\ pp_writers p = true /\ pp_open p = true.
Proof.
  intros (p & A & B & C) H. rewrite nth_update. destruct (Nat.eqb i j) eqn:E.
  - apply Nat.eqb_eq in E. subst j. rewrite A. exists (f p). split; [reflexivity|]. eapply H; eauto.
  - exists p. auto.
Qed.
Lemma held_step K i s l s' : k_stdin_closed K = false -> held i s -> hangs i l = false -> cstep K s l = Some s' -> held i s'.
Proof.
  intros HK G Hl H. pose proof G as (A & B & C). destruct l; cbn [cstep] in H.
  - destr_if H. inversion H; subst; clear H. repeat split; auto.
  - inversion H; subst; clear H. split; [|split; auto]. apply held_upd; auto.
    intros p _ _ W O1. unfold writes. rewrite W. auto.
  - inversion H; subst; clear H. split; [|split; auto]. cbn in Hl. apply Nat.eqb_neq in Hl. apply held_upd; [exact A|]. intros; contradiction.
  - destruct (c_exit s); [discriminate|]. inversion H; subst; clear H. split; [auto|]. split; [auto|]. apply not_in_snoc; auto. discriminate.
  - inversion H; subst; clear H. split; [|split; auto]. apply held_upd; auto.
  - destruct (c_phase s); try discriminate. inversion H; subst; clear H. unfold begin_call.
    destruct k; [|destruct (c_exit s)|destruct (c_exit s)]; (split; [exact A|]; split; [exact I|]); cbn;
      repeat (apply not_in_snoc; [|discriminate]); auto.
  - destruct (c_phase s) eqn:Hp; try discriminate. destruct r as [[|]|e]; inversion H; subst; clear H; (split; [exact A|]; split; [exact I|]); cbn; auto;
      (apply not_in_snoc; [auto|discriminate]).
  - destruct (c_phase s) eqn:Hp; try discriminate. rewrite HK in H. discriminate.
  - unfold go in H. rewrite (held_open _ _ G) in H. destruct (c_phase s) eqn:Hp; try discriminate; try contradiction.
    + inversion H; subst; clear H. split; [exact A|]. split; [exact I|]. auto.
    + destr_if H; inversion H; subst; clear H; (split; [exact A|]; split; [exact I|]); cbn; auto. apply not_in_snoc; [auto|discriminate].
    + destr_if H; inversion H; subst; clear H; (split; [exact A|]; split; [exact I|]); cbn; auto. apply not_in_snoc; [auto|discriminate].
    + destruct ready as [|j r].
      * inversion H; subst; clear H. split; [exact A|]. split; [exact I|]. auto.
      * destr_if H. inversion H; subst; clear H. split; [|split; [exact I|auto]]. apply held_upd; auto.
        intros p Hn _ W O1. unfold blocked in E. rewrite Hn in E. apply negb_false_iff in E. unfold readable in E. rewrite W, O1 in E.
        unfold take. destruct (pp_buf p); [discriminate|]. cbn. auto.
Qed.
Lemma held_run K i t n ls s : k_stdin_closed K = false -> (i < n)%nat -> forallb (fun l => negb (hangs i l)) ls = true ->
  crun K (new_child t n) ls = Some s -> forall t' k c, ~ In (t', EvReturn k (Some c)) (c_log s).
Proof.
  intros HK Hi Hf H. refine (proj2 (proj2 (crun_inv K (held i) (fun l => hangs i l = false) _ ls _ s (held_new t n i Hi) _ H))).
  - intros; eapply held_step; eauto.
  - clear H. induction ls as [|l ls IH]; [constructor|]. cbn in Hf. apply andb_prop in Hf. destruct Hf as [F1 F2].
    constructor; [apply negb_true_iff; exact F1|auto].
Qed.

(** * A read that never returns *)
Definition stuck (i : nat) (m : nat) (s : cst) : Prop :=
  (exists start fin r t0, c_phase s = PRead start fin (i :: r) t0) /\
  (exists p, nth_error (c_pipes s) i = Some p /\ pp_writers p = true /\ pp_buf p = []) /\
  ended_calls (c_log s) = m.
Lemma ended_snoc l t e : ends e = false -> ended_calls (l ++ [(t, e)]) = ended_calls l.
Proof. intros H. unfold ended_calls. rewrite filter_app. cbn [filter snd]. rewrite H. rewrite app_nil_r. reflexivity. Qed.
Lemma stuck_blocked i m s : stuck i m s -> blocked (c_pipes s) i = true.
Proof.
  intros (_ & (p & A & B & C) & _). unfold blocked. rewrite A. apply negb_true_iff. unfold readable. rewrite C, B. apply andb_false_r.
Qed.
Lemma stuck_upd i j f (l : list pipe) :
  (exists p, nth_error l i = Some p /\ pp_writers p = true /\ pp_buf p = []) ->
  (i = j -> forall p, pp_writers p = true -> pp_buf p = [] -> pp_writers (f p) = true /\ pp_buf (f p) = []) ->
  exists p, nth_error (update l j f) i = Some p /\ pp_writers p = true /\ pp_buf p = [].
Proof.
  intros (p & A & B & C) H. rewrite nth_update. destruct (Nat.eqb i j) eqn:E.
  - apply Nat.eqb_eq in E. rewrite A. exists (f p). split; [reflexivity|]. eapply H; eauto.
  - exists p. auto.
Qed.
Lemma stuck_step K i m s l s' : stuck i m s -> writes_to i l = false -> cstep K s l = Some s' -> stuck i m s'.
Proof.
  intros G Hl H. pose proof G as (A & B & C). pose proof A as (start & fin & r & t0 & Hp). destruct l; cbn [cstep] in H; try (rewrite Hp in H; discriminate).
  - destr_if H. inversion H; subst; clear H. repeat split; auto.
  - inversion H; subst; clear H. split; [exact A|]. split; [|reflexivity]. cbn in Hl. apply Nat.eqb_neq in Hl. apply stuck_upd; [exact B|]. intros; contradiction.
  - inversion H; subst; clear H. split; [exact A|]. split; [|reflexivity]. cbn in Hl. apply Nat.eqb_neq in Hl. apply stuck_upd; [exact B|]. intros; contradiction.
  - destruct (c_exit s); [discriminate|]. inversion H; subst; clear H. split; [exact A|]. split; [exact B|]. apply ended_snoc. reflexivity.
  - inversion H; subst; clear H. split; [exact A|]. split; [|reflexivity]. apply stuck_upd; auto.
    intros _ p W E. cbn. rewrite E. destruct n; auto.
  - unfold go in H. rewrite Hp in H. rewrite (stuck_blocked _ _ _ G) in H. discriminate.
Qed.
Lemma stuck_run K i m ls s s' : stuck i m s -> forallb (fun l => negb (writes_to i l)) ls = true -> crun K s ls = Some s' -> stuck i m s'.
Proof.
  intros G Hf H. refine (crun_inv K (stuck i m) (fun l => writes_to i l = false) _ ls s s' G _ H).
  - intros; eapply stuck_step; eauto.
  - clear H. induction ls as [|l ls IH]; [constructor|]. cbn in Hf. apply andb_prop in Hf. destruct Hf as [F1 F2].
    constructor; [apply negb_true_iff; exact F1|auto].
Qed.

Lemma repeat_positions n : forall j, positions j (repeat new_pipe n) = [].
Proof. induction n; intros j; cbn; auto. Qed.
Lemma repeat_readable n : existsb readable (repeat new_pipe n) = false.
Proof. induction n; cbn; auto. Qed.
Lemma repeat_open n : (0 < n)%nat -> existsb pp_open (repeat new_pipe n) = true.
Proof. destruct n; [lia|]. reflexivity. Qed.
Lemma update_positions n b : b <> [] -> forall i j, (i < n)%nat -> positions j (update (repeat new_pipe n) i (writes b)) = [(j + i)%nat].
Proof.
  intros Hb. induction n as [|n IH]; intros i j H; [lia|]. destruct i as [|i]; cbn [repeat update positions].
  - rewrite repeat_positions. unfold readable, writes. cbn. destruct b; [contradiction|]. rewrite Nat.add_0_r. reflexivity.
  - rewrite IH; [|lia]. cbn. f_equal. lia.
Qed.
Lemma update_readable n b : b <> [] -> forall i, (i < n)%nat -> existsb readable (update (repeat new_pipe n) i (writes b)) = true.
Proof.
  intros Hb. induction n as [|n IH]; intros i H; [lia|]. destruct i as [|i]; cbn [repeat update existsb].
  - unfold readable, writes. cbn. destruct b; [contradiction|]. reflexivity.
  - rewrite IH; [|lia]. apply orb_true_r.
Qed.
Lemma update_open n b i : (0 < n)%nat -> existsb pp_open (update (repeat new_pipe n) i (writes b)) = true.
Proof. destruct n; [lia|]. intros _. destruct i; reflexivity. Qed.
Lemma nth_repeat_new n i : (i < n)%nat -> nth_error (repeat new_pipe n) i = Some new_pipe.
Proof. revert i. induction n; intros i H; [lia|]. destruct i; cbn; [reflexivity|apply IHn; lia]. Qed.

Lemma overtaken_stuck K t n i timeout b s : 0 <= timeout -> (i < n)%nat -> b <> [] ->
  crun K (new_child t n) (overtaken i timeout b) = Some s -> stuck i 0 s.
Proof.
  intros Ht Hi Hb H. unfold overtaken, new_child in H.
  cbn -[repeat update up_ms Z.add Z.sub existsb positions] in H.
  rewrite repeat_open in H by lia.
  replace (t + timeout - t <? 0) with false in H by (symmetry; apply Z.ltb_ge; lia).
  unfold go in H. cbn -[repeat update up_ms Z.add Z.sub existsb positions] in H.
  rewrite update_readable in H; auto. cbn [orb] in H.
  replace (t + timeout <? t) with false in H by (symmetry; apply Z.ltb_ge; lia).
  cbn -[repeat update up_ms Z.add Z.sub existsb positions] in H. rewrite update_positions in H; auto.
  inversion H; subst; clear H. split; [cbn; eauto|]. split; [|reflexivity].
  cbn -[repeat update]. rewrite nth_update, Nat.eqb_refl, nth_update, Nat.eqb_refl, nth_repeat_new; auto.
  eexists. split; [reflexivity|]. cbn. split; [reflexivity|]. apply skipn_all.
Qed.
Lemma overtaken_possible K t n i timeout b : 0 <= timeout -> (i < n)%nat -> b <> [] ->
  exists s, crun K (new_child t n) (overtaken i timeout b) = Some s.
Proof.
  intros Ht Hi Hb. unfold overtaken, new_child.
  cbn -[repeat update up_ms Z.add Z.sub existsb positions].
  rewrite repeat_open by lia.
  replace (t + timeout - t <? 0) with false by (symmetry; apply Z.ltb_ge; lia).
  unfold go. cbn -[repeat update up_ms Z.add Z.sub existsb positions].
  rewrite update_readable; auto. cbn [orb].
  replace (t + timeout <? t) with false by (symmetry; apply Z.ltb_ge; lia).
  eexists. reflexivity.
Qed.
Lemma stuck_tick K i m s d : stuck i m s -> 0 <= d -> exists s', cstep K s (LTick d) = Some s' /\ c_now s' = c_now s + d.
Proof.
  intros G Hd. pose proof G as ((start & fin & r & t0 & Hp) & _). cbn. unfold may_tick. rewrite Hp, (stuck_blocked _ _ _ G).
  replace (0 <=? d) with true by (symmetry; apply Z.leb_le; lia). eexists. split; reflexivity.
Qed.

(** * Output taken by communicate *)
Definition counted (p : pipe) : Prop :=
  (List.length (pp_polled p) + List.length (pp_buf p) + List.length (pp_taken p) = List.length (pp_written p))%nat.
Definition taken_from (i : nat) (s : cst) : Prop :=
  exists p, nth_error (c_pipes s) i = Some p /\ counted p /\ pp_taken p <> [].
Lemma taken_upd i j f (l : list pipe) :
  (exists p, nth_error l i = Some p /\ counted p /\ pp_taken p <> []) ->
  (forall p, counted p -> pp_taken p <> [] -> counted (f p) /\ pp_taken (f p) <> []) ->
  exists p, nth_error (update l j f) i = Some p /\ counted p /\ pp_taken p <> [].
Proof.
  intros (p & A & B & C) H. rewrite nth_update. destruct (Nat.eqb i j) eqn:E.
  - rewrite A. exists (f p). split; [reflexivity|]. eapply H; eauto.
  - exists p. auto.
Qed.
Lemma counted_take n p : counted p -> counted (take n p).
Proof.
  unfold counted, take. intros H. destruct (pp_buf p) as [|x b] eqn:E; [exact H|].
  set (bb := x :: b) in *. cbn [pp_polled pp_buf pp_taken pp_written]. rewrite app_length, <- H.
  rewrite <- (firstn_skipn n bb) at 3. rewrite app_length. lia.
Qed.
Lemma counted_reads n p : counted p -> counted (poller_reads n p).
Proof.
  unfold counted, poller_reads. intros H. cbn [pp_polled pp_buf pp_taken pp_written]. rewrite app_length, <- H.
  rewrite <- (firstn_skipn n (pp_buf p)) at 3. rewrite app_length. lia.
Qed.
Lemma counted_writes b p : counted p -> counted (writes b p).
Proof. unfold counted, writes. intros H. destruct (pp_writers p); [|exact H]. cbn. rewrite !app_length. lia. Qed.
Lemma taken_step K i s l s' : taken_from i s -> cstep K s l = Some s' -> taken_from i s'.
Proof.
  unfold taken_from. intros G H. destruct l; cbn [cstep] in H.
  - destr_if H. inversion H; subst; clear H. exact G.
  - inversion H; subst; clear H. apply taken_upd; auto. intros p A B. split; [apply counted_writes; auto|].
    unfold writes. destruct (pp_writers p); auto.
  - inversion H; subst; clear H. apply taken_upd; auto.
  - destruct (c_exit s); [discriminate|]. inversion H; subst; clear H. exact G.
  - inversion H; subst; clear H. apply taken_upd; auto. intros p A B. split; [apply counted_reads; auto|exact B].
  - destruct (c_phase s); try discriminate. inversion H; subst; clear H. unfold begin_call.
    destruct k; [|destruct (c_exit s)|destruct (c_exit s)]; exact G.
  - destruct (c_phase s) eqn:Hp; try discriminate. destruct r as [[|]|e]; inversion H; subst; clear H; exact G.
  - destruct (c_phase s) eqn:Hp; try discriminate. destr_if H. inversion H; subst; clear H. exact G.
  - unfold go in H. destruct (c_phase s) eqn:Hp; try discriminate.
    4: { destruct ready as [|j r]; [inversion H; subst; exact G|]. destr_if H. inversion H; subst; clear H.
         apply taken_upd; auto. intros p A B. split; [apply counted_take; auto|]. unfold take. destruct (pp_buf p); [exact B|].
         cbn. destruct (pp_taken p); [contradiction|discriminate]. }
    all: destr_if H; inversion H; subst; exact G.
Qed.
Lemma taken_run K i ls s s' : taken_from i s -> crun K s ls = Some s' -> taken_from i s'.
Proof.
  intros G H. refine (crun_inv K (taken_from i) (fun l => True) _ ls s s' G (all_true ls) H).
  intros; eapply taken_step; eauto.
Qed.
Lemma waited_taken K t n i timeout b s : (0 < k_chunk K)%nat -> 0 <= timeout -> (i < n)%nat -> b <> [] ->
  crun K (new_child t n) (waited_first i timeout b) = Some s -> taken_from i s.
Proof.
  intros Hc Ht Hi Hb H. unfold waited_first, new_child in H.
  cbn -[repeat update up_ms Z.add Z.sub existsb positions] in H.
  rewrite update_open in H by lia.
  replace (t + timeout - t <? 0) with false in H by (symmetry; apply Z.ltb_ge; lia).
  unfold go in H. cbn -[repeat update up_ms Z.add Z.sub existsb positions] in H.
  rewrite update_readable in H; auto. cbn [orb] in H.
  replace (t + timeout <? t) with false in H by (symmetry; apply Z.ltb_ge; lia).
  cbn -[repeat update up_ms Z.add Z.sub existsb positions] in H. rewrite update_positions in H; auto.
  cbn -[repeat update up_ms Z.add Z.sub existsb positions blocked] in H. destr_if H. inversion H; subst; clear H. unfold taken_from.
  cbn -[repeat update]. rewrite nth_update, Nat.eqb_refl, nth_update, Nat.eqb_refl, nth_repeat_new; auto.
  eexists. split; [reflexivity|]. cbn. split.
  - apply counted_take. unfold counted; cbn; lia.
  - unfold take. cbn. destruct b; [contradiction|]. destruct (k_chunk K); [lia|]. discriminate.
Qed.
Lemma waited_possible K t n i timeout b : 0 <= timeout -> (i < n)%nat -> b <> [] ->
  exists s, crun K (new_child t n) (waited_first i timeout b) = Some s.
Proof.
  intros Ht Hi Hb. unfold waited_first, new_child.
  cbn -[repeat update up_ms Z.add Z.sub existsb positions].
  rewrite update_open by lia.
  replace (t + timeout - t <? 0) with false by (symmetry; apply Z.ltb_ge; lia).
  unfold go. cbn -[repeat update up_ms Z.add Z.sub existsb positions].
  rewrite update_readable; auto. cbn [orb].
  replace (t + timeout <? t) with false by (symmetry; apply Z.ltb_ge; lia).
  cbn -[repeat update up_ms Z.add Z.sub existsb positions]. rewrite update_positions; auto.
  cbn -[repeat update up_ms Z.add Z.sub existsb positions blocked].
  replace (blocked (update (repeat new_pipe n) i (writes b)) i) with false; [eexists; reflexivity|].
  unfold blocked. rewrite nth_update, Nat.eqb_refl, nth_repeat_new; auto. cbn. unfold readable, writes. cbn. destruct b; [contradiction|reflexivity].
Qed.
Lemma taken_less i s : taken_from i s -> exists p, nth_error (c_pipes s) i = Some p /\ (List.length (pp_polled p) < List.length (pp_written p))%nat.
Proof.
  intros (p & A & B & C). exists p. split; [exact A|]. unfold counted in B. destruct (pp_taken p); [contradiction|]. cbn in B. lia.
Qed.

(** while nobody waits, PipePoller is the only reader *)
Definition only_polled (s : cst) : Prop :=
  c_phase s = PIdle /\ forall p, In p (c_pipes s) -> pp_polled p ++ pp_buf p = pp_written p.
Lemma in_update {A} (l : list A) i f (P : A -> Prop) : (forall p, In p l -> P p) -> (forall p, P p -> P (f p)) -> forall p, In p (update l i f) -> P p.
Proof.
  revert i. induction l as [|x l IH]; intros i H Hf p Hp; [destruct i; contradiction|].
  destruct i as [|i]; cbn in Hp; destruct Hp as [<-|Hp]; auto.
  - apply Hf. apply H. left. reflexivity.
  - apply H. right. exact Hp.
  - apply H. left. reflexivity.
  - apply (IH i); auto. intros q Hq. apply H. right. exact Hq.
Qed.
Lemma polled_step K s l s' : only_polled s -> is_call l = false -> cstep K s l = Some s' -> only_polled s'.
Proof.
  intros (A & B) Hl H. destruct l; cbn [cstep] in H; try discriminate; try (rewrite A in H; discriminate).
  - destr_if H. inversion H; subst; clear H. split; auto.
  - inversion H; subst; clear H. split; [exact A|]. cbn. apply (in_update _ _ _ (fun p => pp_polled p ++ pp_buf p = pp_written p)); auto.
    intros p Hp. unfold writes. destruct (pp_writers p); [|exact Hp]. cbn. rewrite app_assoc, Hp. reflexivity.
  - inversion H; subst; clear H. split; [exact A|]. cbn. apply (in_update _ _ _ (fun p => pp_polled p ++ pp_buf p = pp_written p)); auto.
  - destruct (c_exit s); [discriminate|]. inversion H; subst; clear H. split; auto.
  - inversion H; subst; clear H. split; [exact A|]. cbn. apply (in_update _ _ _ (fun p => pp_polled p ++ pp_buf p = pp_written p)); auto.
    intros p Hp. unfold poller_reads. cbn. rewrite <- app_assoc, firstn_skipn. exact Hp.
  - unfold go in H. rewrite A in H. discriminate.
Qed.
Lemma polled_run K t n ls s : forallb (fun l => negb (is_call l)) ls = true -> crun K (new_child t n) ls = Some s ->
  forall p, In p (c_pipes s) -> pp_polled p ++ pp_buf p = pp_written p.
Proof.
  intros Hf H. refine (proj2 (crun_inv K only_polled (fun l => is_call l = false) _ ls _ s _ _ H)).
  - intros; eapply polled_step; eauto.
  - split; [reflexivity|]. cbn. intros p Hp. apply repeat_spec in Hp. subst. reflexivity.
  - clear H. induction ls as [|l ls IH]; [constructor|]. cbn in Hf. apply andb_prop in Hf. destruct Hf as [F1 F2].
    constructor; [apply negb_true_iff; exact F1|auto].
Qed.

(** * stop asks and waits *)
Lemma slow_stop_run K t m : 1 <= k_setup K -> 0 <= k_ask K -> 0 < m -> let timeout := m * 1000000 in
  exists s, crun K (new_child t 2) (slow_stop timeout) = Some s /\ In (t + 2 * timeout + 1, EvRaise CStop TimeoutError) (c_log s).
Proof.
  intros HS HA Hm timeout. unfold slow_stop, new_child. cbn -[up_ms Z.add Z.sub Z.max Z.mul].
  unfold may_tick. cbn -[up_ms Z.add Z.sub Z.max Z.mul].
  replace ((0 <=? timeout) && (t + timeout <=? t + Z.max 0 timeout + k_ask K)) with true
    by (symmetry; apply andb_true_intro; split; apply Z.leb_le; lia).
  cbn -[up_ms Z.add Z.sub Z.max Z.mul]. unfold go. cbn -[up_ms Z.add Z.sub Z.max Z.mul].
  replace (t + timeout + 1 <=? t + timeout + k_setup K) with true by (symmetry; apply Z.leb_le; lia).
  cbn -[up_ms Z.add Z.sub Z.max Z.mul].
  replace (t + timeout + timeout - (t + timeout + 1) <? 0) with false by (symmetry; apply Z.ltb_ge; lia).
  cbn -[up_ms Z.add Z.sub Z.max Z.mul].
  replace (up_ms (t + timeout + timeout - (t + timeout + 1))) with timeout.
  2: { replace (t + timeout + timeout - (t + timeout + 1)) with (timeout - 1) by lia. unfold up_ms, millis, timeout.
       replace (m * 1000000 - 1 + 1000000 - 1) with (999998 + m * 1000000) by lia. rewrite Z.div_add by lia. reflexivity. }
  rewrite Z.leb_refl. replace (0 <=? timeout) with true by (symmetry; apply Z.leb_le; lia).
  cbn -[up_ms Z.add Z.sub Z.max Z.mul]. rewrite Z.leb_refl.
  replace (t + timeout + timeout <? t + timeout + 1 + timeout) with true by (symmetry; apply Z.ltb_lt; lia).
  eexists. split; [reflexivity|]. cbn -[Z.add Z.mul]. right. left. f_equal. lia.
Qed.
