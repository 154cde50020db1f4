(** Lemmas about the thread of a log server. *)
From Verif Require Import Py LogStopModel LogStopSpec.
Local Open Scope nat_scope.

Section L.
Variables (f : bool) (lev0 : Z).
Notation step := (vstep f lev0). Notation run := (vrun f lev0). Notation want := (wanted f lev0).

Lemma want_app a b : want (a ++ b)%list = (want a ++ want b)%list.
Proof. apply flat_map_app. Qed.
Lemma passes l id : (if (f && (l <? lev0)%Z)%bool then [] else [id]) = want [Rec l id].
Proof. cbn. rewrite app_nil_r. destruct f; cbn; [|reflexivity]. destruct (Z.ltb_spec l lev0), (Z.leb_spec lev0 l); try lia; reflexivity. Qed.
Lemma run_cons s e es : run s (e :: es) = run (step s e) es.
Proof. reflexivity. Qed.
Lemma run_app s a b : run s (a ++ b)%list = run (run s a) b.
Proof. apply fold_left_app. Qed.
Lemma arr_app a b : arrived (a ++ b)%list = (arrived a ++ arrived b)%list.
Proof. apply flat_map_app. Qed.

(** everything is passed on or waits, in order *)
Lemma split_inv es : forall s, exists l, (v_waiting s ++ arrived es)%list = (l ++ v_waiting (run s es))%list /\ v_passed (run s es) = (v_passed s ++ want l)%list.
Proof.
  induction es as [|e es IH]; intro s; [exists []; cbn; rewrite !app_nil_r; auto|]. rewrite run_cons. destruct (IH (step s e)) as (l & A & B).
  destruct e as [m| |]; cbn [vstep] in *.
  - exists l. cbn [arrived flat_map]. cbn [v_waiting v_passed] in A, B. rewrite <- A, <- app_assoc. auto.
  - exists l. cbn [arrived flat_map app]. auto.
  - cbn [arrived flat_map app]. fold (arrived es). unfold thread in A, B |- *. destruct (v_place s) eqn:P.
    + destruct (v_running s); exists l; auto.
    + destruct (v_waiting s) as [|m r] eqn:W; [exists l; auto|]. exists (m :: l). unfold receive in *. destruct m as [k id|]; cbn [v_waiting v_passed] in A, B |- *.
      * rewrite <- app_assoc in B. rewrite !passes in *. change (Rec k id :: l) with ([Rec k id] ++ l)%list. rewrite want_app. split; [|exact B]. cbn [app]. now rewrite <- A.
      * split; [cbn [app]; now rewrite <- A|exact B].
    + exists l; auto.
    + exists l; auto.
Qed.
Lemma in_order es : exists a b, arrived es = (a ++ b)%list /\ v_passed (run lsrv0 es) = want a.
Proof. destruct (split_inv es lsrv0) as (l & A & B). exists l, (v_waiting (run lsrv0 es)). split; [exact A|exact B]. Qed.

(** undisturbed: everything is passed on *)
Lemma live_step s : v_running s = true -> (v_place s = AtTest \/ v_place s = AtPoll) -> ~ In Junk (v_waiting s) ->
  let s' := run s [Thread; Thread] in
  v_running s' = true /\ (v_place s' = AtTest \/ v_place s' = AtPoll) /\ ~ In Junk (v_waiting s') /\ List.length (v_waiting s') = pred (List.length (v_waiting s)).
Proof.
  intros R P J s'. subst s'. cbn [vrun fold_left vstep]. unfold thread at 2 4 6 8. destruct s as [ru w pl pa c]. cbn in R, J. subst ru. cbn [v_place v_running v_waiting v_passed v_closed].
  destruct P as [P|P]; cbn in P; subst pl.
  - cbn. destruct w as [|[k id|] w]; cbn; repeat split; auto; try (intro I; apply J; right; exact I). exfalso. apply J. now left.
  - destruct w as [|[k id|] w]; cbn; repeat split; auto; try (intro I; apply J; right; exact I); exfalso; apply J; now left.
Qed.
Lemma live es : proper es -> unstopped es -> forall s, v_running s = true -> (v_place s = AtTest \/ v_place s = AtPoll) -> ~ In Junk (v_waiting s) ->
  v_running (run s es) = true /\ (v_place (run s es) = AtTest \/ v_place (run s es) = AtPoll) /\ ~ In Junk (v_waiting (run s es)).
Proof.
  induction es as [|e es IH]; intros PR U s R P J; [auto|]. rewrite run_cons.
  assert (PR' : proper es) by (intro I; apply PR; right; exact I). assert (U' : unstopped es) by (intro I; apply U; right; exact I).
  destruct e as [m| |].
  - apply IH; cbn; auto. intro I. apply in_app_or in I. destruct I as [I|[->|[]]]; [now apply J|apply PR; now left].
  - exfalso. apply U. now left.
  - cbn [vstep]. destruct s as [ru w pl pa c]. cbn in R, J. subst ru. unfold thread. cbn [v_place v_running v_waiting]. destruct P as [P|P]; cbn in P; subst pl.
    + apply IH; cbn; auto.
    + destruct w as [|[k id|] w]; cbn; [apply IH; cbn; auto| |exfalso; apply J; now left]. apply IH; cbn; auto. intro I. apply J. right. exact I.
Qed.
Lemma drains n : forall s, v_running s = true -> (v_place s = AtTest \/ v_place s = AtPoll) -> ~ In Junk (v_waiting s) ->
  List.length (v_waiting s) <= n -> v_waiting (run s (repeat Thread (2 * n))) = [].
Proof.
  induction n as [|n IH]; intros s R P J L.
  - cbn. destruct (v_waiting s); [reflexivity|cbn in L; lia].
  - replace (2 * S n) with (2 + 2 * n) by lia. rewrite repeat_app, run_app. destruct (live_step s R P J) as (A & B & C & D).
    change (repeat Thread 2) with [Thread; Thread]. apply IH; auto. rewrite D. lia.
Qed.
Lemma all_passed es : proper es -> unstopped es ->
  v_passed (run lsrv0 (es ++ repeat Thread (2 * List.length (arrived es)))%list) = want (arrived es).
Proof.
  intros P U. destruct (split_inv (es ++ repeat Thread (2 * List.length (arrived es))) lsrv0) as (l & A & B). rewrite B. cbn [v_passed lsrv0 app]. f_equal.
  destruct (live es P U lsrv0 eq_refl (or_introl eq_refl) (fun x => x)) as (R & Q & J).
  assert (W : v_waiting (run lsrv0 (es ++ repeat Thread (2 * List.length (arrived es)))%list) = []).
  { rewrite run_app. apply drains; auto. destruct (split_inv es lsrv0) as (l' & A' & _). cbn [lsrv0 v_waiting app] in A'. rewrite A', app_length. lia. }
  rewrite W, app_nil_r in A. cbn [lsrv0 v_waiting app] in A. rewrite <- A, arr_app.
  replace (arrived (repeat Thread (2 * List.length (arrived es)))) with (@nil lmsg); [now rewrite app_nil_r|].
  generalize (2 * List.length (arrived es)). intro k. induction k; [reflexivity|exact IHk].
Qed.

(** after stop *)
Lemma stopped_at es : forall s, v_running s = false -> v_place s <> AtPoll ->
  v_passed (run s es) = v_passed s /\ v_running (run s es) = false /\ v_place (run s es) <> AtPoll.
Proof.
  induction es as [|e es IH]; intros s R P; [auto|]. rewrite run_cons.
  assert (X : v_running (step s e) = false /\ v_place (step s e) <> AtPoll /\ v_passed (step s e) = v_passed s).
  { destruct e; cbn; auto. unfold thread. destruct (v_place s) eqn:Q; cbn; try congruence; rewrite ?R, ?Q; cbn; repeat split; auto; try congruence. }
  destruct X as (A & B & C). destruct (IH _ A B) as (D & E & F). rewrite D. auto.
Qed.
Lemma one_more es : forall s, v_running s = false -> exists l, v_passed (run s es) = (v_passed s ++ l)%list /\ List.length l <= 1.
Proof.
  induction es as [|e es IH]; intros s R; [exists []; cbn; rewrite app_nil_r; auto|]. rewrite run_cons. destruct e as [m| |].
  - apply (IH (step s (Arrives m))). exact R.
  - apply (IH (step s Stop)). reflexivity.
  - destruct (v_place s) eqn:P.
    + destruct (stopped_at (Thread :: es) s R ltac:(congruence)) as (A & _). rewrite run_cons in A. exists []. rewrite A, app_nil_r. auto.
    + cbn [vstep]. unfold thread. rewrite P. destruct (v_waiting s) as [|[k id|] w].
      * apply (IH (mkLS (v_running s) [] AtTest (v_passed s) (v_closed s))). exact R.
      * unfold receive. match goal with |- context [run ?x es] => destruct (stopped_at es x R ltac:(discriminate)) as (A & _) end. rewrite A. cbn [v_passed].
        eexists. split; [reflexivity|]. destruct (f && _)%bool; cbn; lia.
      * unfold receive. match goal with |- context [run ?x es] => destruct (stopped_at es x R ltac:(discriminate)) as (A & _) end. rewrite A. cbn [v_passed].
        exists []. rewrite app_nil_r. auto.
    + destruct (stopped_at (Thread :: es) s R ltac:(congruence)) as (A & _). rewrite run_cons in A. exists []. rewrite A, app_nil_r. auto.
    + destruct (stopped_at (Thread :: es) s R ltac:(congruence)) as (A & _). rewrite run_cons in A. exists []. rewrite A, app_nil_r. auto.
Qed.
Lemma at_most_one es es' : exists l, v_passed (run lsrv0 (es ++ Stop :: es')%list) = (v_passed (run lsrv0 es) ++ l)%list /\ List.length l <= 1.
Proof. rewrite run_app, run_cons. apply (one_more es' (step (run lsrv0 es) Stop)). reflexivity. Qed.
Definition fin (s : lsrv) : Prop := v_running s = false /\ v_place s = Finished /\ v_closed s = true.
Lemma fin_stays es : forall s, fin s -> fin (run s es).
Proof.
  induction es as [|e es IH]; intros s F; [exact F|]. rewrite run_cons. apply IH. destruct F as (A & B & C). destruct e; cbn.
  - repeat split; auto.
  - repeat split; auto.
  - unfold thread. rewrite B. repeat split; auto.
Qed.
Lemma ends_test es : forall s, proper es -> v_running s = false -> v_place s = AtTest -> 1 <= turns es -> fin (run s es).
Proof.
  induction es as [|e es IH]; intros s PR R P T; [cbn in T; lia|]. rewrite run_cons. assert (PR' : proper es) by (intro I; apply PR; right; exact I).
  destruct e; [apply IH; auto|apply IH; auto|]. apply fin_stays. cbn. unfold thread. rewrite P, R. repeat split.
Qed.
Lemma ends_any es : forall s, proper es -> v_running s = false -> (v_place s = AtTest \/ v_place s = AtPoll \/ fin s) -> ~ In Junk (v_waiting s) -> 2 <= turns es -> fin (run s es).
Proof.
  induction es as [|e es IH]; intros s PR R P J T; [cbn in T; lia|].
  destruct P as [P|[P|P]]; [apply ends_test; auto; cbn in *; lia| |apply fin_stays; exact P].
  rewrite run_cons. assert (PR' : proper es) by (intro I; apply PR; right; exact I). destruct e as [m| |].
  - apply IH; auto. cbn. intro I. apply in_app_or in I. destruct I as [I|[->|[]]]; [now apply J|apply PR; now left].
  - apply IH; auto.
  - cbn in T. fold (turns es) in T. cbn [vstep]. unfold thread. rewrite P. destruct (v_waiting s) as [|[k id|] w].
    + apply ends_test; auto. lia.
    + apply ends_test; auto. lia.
    + exfalso. apply J. now left.
Qed.
Lemma closes es es' : proper (es ++ es')%list -> unstopped es -> 2 <= turns es' ->
  let s := run lsrv0 (es ++ Stop :: es')%list in v_place s = Finished /\ v_closed s = true.
Proof.
  intros PR U T s. subst s. rewrite run_app, run_cons. assert (P1 : proper es) by (intro I; apply PR, in_or_app; auto). assert (P2 : proper es') by (intro I; apply PR, in_or_app; auto).
  destruct (live es P1 U lsrv0 eq_refl (or_introl eq_refl) (fun x => x)) as (R & Q & J).
  destruct (ends_any es' (step (run lsrv0 es) Stop) P2 eq_refl) as (_ & A & B); auto. cbn. destruct Q as [Q|Q]; auto.
Qed.

(** junk *)
Lemma died es : forall s, v_place s = Died -> v_passed (run s es) = v_passed s /\ v_place (run s es) = Died /\ v_closed (run s es) = v_closed s.
Proof.
  induction es as [|e es IH]; intros s P; [auto|]. rewrite run_cons. assert (X : v_place (step s e) = Died /\ v_passed (step s e) = v_passed s /\ v_closed (step s e) = v_closed s).
  { destruct e; cbn; auto. unfold thread. rewrite P. auto. }
  destruct X as (A & B & C). destruct (IH _ A) as (D & E & F). rewrite D, F. auto.
Qed.
Lemma junk_turns k : forall s w, v_running s = true -> (v_place s = AtTest \/ v_place s = AtPoll) -> v_waiting s = Junk :: w -> 2 <= k ->
  v_place (run s (repeat Thread k)) = Died /\ v_passed (run s (repeat Thread k)) = v_passed s /\ v_closed (run s (repeat Thread k)) = v_closed s.
Proof.
  intros s w R P W K. destruct k as [|[|k]]; try lia. cbn [repeat]. rewrite !run_cons. cbn [vstep].
  destruct P as [P|P].
  - replace (thread f lev0 (thread f lev0 s)) with (mkLS true w Died (v_passed s) (v_closed s)); [apply (died (repeat Thread k) (mkLS true w Died (v_passed s) (v_closed s)) eq_refl) || (destruct (died (repeat Thread k) (mkLS true w Died (v_passed s) (v_closed s)) eq_refl) as (A & B & C); auto)|].
    unfold thread at 2. rewrite P, R. unfold thread. cbn. rewrite W. reflexivity.
  - replace (thread f lev0 (thread f lev0 s)) with (mkLS true w Died (v_passed s) (v_closed s)); [destruct (died (repeat Thread k) (mkLS true w Died (v_passed s) (v_closed s)) eq_refl) as (A & B & C); auto|].
    unfold thread at 2. rewrite P, W. cbn. rewrite R. reflexivity.
Qed.
Lemma junk_ends es es' : proper es -> unstopped es ->
  let s := run lsrv0 (es ++ repeat Thread (2 * List.length (arrived es)) ++ [Arrives Junk; Thread; Thread] ++ es')%list in
  v_passed s = want (arrived es) /\ v_closed s = false.
Proof.
  intros P U s. subst s. rewrite app_assoc, run_app. set (s1 := run lsrv0 _).
  assert (V : v_passed s1 = want (arrived es)) by (apply all_passed; auto).
  assert (L : v_running s1 = true /\ (v_place s1 = AtTest \/ v_place s1 = AtPoll) /\ ~ In Junk (v_waiting s1)).
  { apply live; cbn; auto; intro I; apply in_app_or in I; destruct I as [I|I]; try (now apply P); try (now apply U); apply repeat_spec in I; discriminate I. }
  assert (W : v_waiting s1 = []).
  { unfold s1. rewrite run_app. destruct (live es P U lsrv0 eq_refl (or_introl eq_refl) (fun x => x)) as (R & Q & J). apply drains; auto.
    destruct (split_inv es lsrv0) as (l' & A' & _). cbn [lsrv0 v_waiting app] in A'. rewrite A', app_length. lia. }
  assert (C : v_closed s1 = false).
  { assert (G : forall es s, unstopped es -> v_running s = true -> v_closed s = false -> v_closed (run s es) = false).
    { clear. induction es as [|e es IH]; intros s U R C; [exact C|]. rewrite run_cons. assert (U' : unstopped es) by (intro I; apply U; right; exact I).
      destruct e; [apply IH; auto|exfalso; apply U; now left|]. apply IH; auto; cbn; unfold thread; destruct (v_place s); auto; rewrite ?R; auto;
      destruct (v_waiting s) as [|[k id|] w]; auto. }
    apply G; auto. intro I. apply in_app_or in I. destruct I as [I|I]; [now apply U|apply repeat_spec in I; discriminate I]. }
  clearbody s1. destruct L as (R & Q & _). cbn [app]. rewrite run_cons.
  change (Thread :: Thread :: es')%list with ([Thread; Thread] ++ es')%list. rewrite run_app.
  destruct (junk_turns 2 (step s1 (Arrives Junk)) [] R Q ltac:(cbn; rewrite W; reflexivity) ltac:(lia)) as (A & B & D).
  cbn [repeat] in A, B, D. destruct (died es' _ A) as (X & _ & Y). rewrite X, Y, B, D. split; [exact V|exact C].
Qed.

(** what waits at stop *)
Lemma waiting_lost ms es : (forall e, In e es -> e = Thread) ->
  v_passed (run lsrv0 (map Arrives ms ++ Stop :: es)%list) = [].
Proof.
  intro H. rewrite run_app, run_cons. assert (A : run lsrv0 (map Arrives ms) = mkLS true ms AtTest [] false).
  { assert (G : forall w, run (mkLS true w AtTest [] false) (map Arrives ms) = mkLS true (w ++ ms) AtTest [] false).
    { induction ms as [|m ms IH]; intro w; [cbn; now rewrite app_nil_r|]. cbn [map]. rewrite run_cons. cbn [vstep v_running v_waiting v_place v_passed v_closed]. rewrite IH, <- app_assoc. reflexivity. }
    apply (G []). }
  rewrite A. destruct (stopped_at es (step (mkLS true ms AtTest [] false) Stop) eq_refl ltac:(discriminate)) as (B & _). exact B.
Qed.
End L.
