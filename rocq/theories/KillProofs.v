From Verif Require Import Py KillModel KillSpec.
Local Open Scope list_scope.

Lemma find_pid_in s pid r : find_pid s pid = Some r -> In r (t_rows s) /\ r_pid r = pid.
Proof. intros H. apply find_some in H. destruct H as [A B]. apply Z.eqb_eq in B. auto. Qed.
Lemma find_unique (l : list row) r : NoDup (map r_pid l) -> In r l -> find (by_pid (r_pid r)) l = Some r.
Proof.
  induction l as [|x l IH]; intros N H; [contradiction|]. cbn [find]. unfold by_pid at 1.
  inversion N; subst. destruct H as [->|H].
  - rewrite Z.eqb_refl. reflexivity.
  - destruct (Z.eqb (r_pid x) (r_pid r)) eqn:E; [|auto]. apply Z.eqb_eq in E.
    exfalso. apply H2. rewrite E. apply in_map. exact H.
Qed.
Lemma find_unique_pid (l : list row) r pid : NoDup (map r_pid l) -> In r l -> r_pid r = pid -> find (by_pid pid) l = Some r.
Proof. intros A B <-. apply find_unique; auto. Qed.
Lemma nodup_pid (l : list row) r r' : NoDup (map r_pid l) -> In r l -> In r' l -> r_pid r = r_pid r' -> r = r'.
Proof.
  intros N A B E. pose proof (find_unique l r N A) as X. pose proof (find_unique l r' N B) as Y. rewrite E in X. congruence.
Qed.

Lemma exits_in who l r : In r (exits who l) -> exists r0, In r0 l /\ r_pid r0 = r_pid r /\ r_who r0 = r_who r /\ r_mine r0 = r_mine r /\
  (r_zombie r = false -> r0 = r).
Proof.
  induction l as [|x l IH]; cbn [exits]; [contradiction|].
  destruct (Nat.eqb (r_who x) who).
  - destruct (r_mine x) eqn:M.
    + intros [<-|H]; [exists x|exists r]; cbn; repeat split; auto. discriminate.
    + intros H. exists r. repeat split; auto. right. exact H.
  - intros [->|H]; [exists r; repeat split; auto; left; reflexivity|]. destruct (IH H) as (r0 & A & B). exists r0. split; [right; exact A|exact B].
Qed.
Lemma exits_pids who l : NoDup (map r_pid l) -> NoDup (map r_pid (exits who l)).
Proof.
  induction l as [|x l IH]; intros N; cbn [exits]; [exact N|]. inversion N; subst.
  destruct (Nat.eqb (r_who x) who).
  - destruct (r_mine x); [exact N|auto].
  - cbn. constructor; auto. intros H. apply in_map_iff in H. destruct H as (r & E & H). apply exits_in in H.
    destruct H as (r0 & A & B & _). apply H1. rewrite <- E, <- B. apply in_map. exact A.
Qed.
Lemma exits_keeps who l r : In r l -> r_mine r = true -> exists r', In r' (exits who l) /\ r_pid r' = r_pid r /\ r_who r' = r_who r /\ r_mine r' = true.
Proof.
  induction l as [|x l IH]; intros H M; [contradiction|]. cbn [exits].
  destruct (Nat.eqb (r_who x) who).
  - destruct H as [->|H].
    + rewrite M. eexists. split; [left; reflexivity|]. auto.
    + exists r. destruct (r_mine x); repeat split; auto. right. exact H.
  - destruct H as [->|H]; [exists r; repeat split; auto; left; reflexivity|].
    destruct (IH H M) as (r' & A & B). exists r'. split; [right; exact A|exact B].
Qed.
Lemma exits_gone who l r : In r (exits who l) -> NoDup (map r_who l) -> r_who r = who -> r_zombie r = true.
Proof.
  induction l as [|x l IH]; cbn [exits]; [contradiction|]. intros H N E. inversion N; subst.
  destruct (Nat.eqb (r_who x) (r_who r)) eqn:E.
  - apply Nat.eqb_eq in E. destruct (r_mine x).
    + destruct H as [<-|H]; [reflexivity|]. exfalso. apply H2. rewrite E. apply in_map. exact H.
    + exfalso. apply H2. rewrite E. apply in_map. exact H.
  - apply Nat.eqb_neq in E. destruct H as [->|H]; [contradiction|auto].
Qed.
Lemma exits_whos who l : NoDup (map r_who l) -> NoDup (map r_who (exits who l)).
Proof.
  induction l as [|x l IH]; intros N; cbn [exits]; [exact N|]. inversion N; subst.
  destruct (Nat.eqb (r_who x) who).
  - destruct (r_mine x); [exact N|auto].
  - cbn. constructor; auto. intros H. apply in_map_iff in H. destruct H as (r & E & H). apply exits_in in H.
    destruct H as (r0 & A & _ & B & _). apply H1. rewrite <- E, <- B. apply in_map. exact A.
Qed.
Lemma filter_nodup {A B} (f : A -> B) g (l : list A) : NoDup (map f l) -> NoDup (map f (filter g l)).
Proof.
  induction l as [|x l IH]; intros N; cbn; [constructor|]. inversion N; subst. destruct (g x); cbn; auto.
  constructor; auto. intros H. apply in_map_iff in H. destruct H as (y & E & H). apply filter_In in H. apply H1. rewrite <- E. apply in_map. apply H.
Qed.
Lemma set_nth_length {A} (l : list A) : forall i x, List.length (set_nth l i x) = List.length l.
Proof. induction l; intros [|i] x; cbn; auto. Qed.
Lemma nth_set {A} (l : list A) : forall i j x, nth_error (set_nth l i x) j = if Nat.eqb j i then match nth_error l j with Some _ => Some x | None => None end else nth_error l j.
Proof.
  induction l as [|y l IH]; intros i j x.
  - destruct i, j; cbn; auto. destruct (Nat.eqb j i); reflexivity.
  - destruct i as [|i], j as [|j]; cbn; auto.
Qed.
Lemma map_set {A B} (f : A -> B) (l : list A) : forall i x y, nth_error l i = Some y -> f x = f y -> map f (set_nth l i x) = map f l.
Proof. induction l as [|z l IH]; intros [|i] x y H E; cbn in *; try discriminate; [inversion H; congruence|f_equal; eauto]. Qed.

(** every child whose exit code is not known is in the table, under its number *)
Definition ksane (s : kst) : Prop :=
  NoDup (map r_pid (t_rows s)) /\ NoDup (map r_who (t_rows s)) /\ (forall r, In r (t_rows s) -> (r_who r < t_next s)%nat) /\
  NoDup (map made_for (t_handles s)) /\ (forall h, In h (t_handles s) -> (made_for h < t_next s)%nat) /\
  (forall who pid, In (HChild who pid false) (t_handles s) ->
     exists r, In r (t_rows s) /\ r_pid r = pid /\ r_who r = who /\ r_mine r = true) /\
  (forall h w, In (h, w) (t_signals s) -> forall x, nth_error (t_handles s) h = Some x -> is_child x = true -> made_for x = w) /\
  (forall h w, In (h, w) (t_signals s) -> (h < List.length (t_handles s))%nat).

Lemma ksane_empty : ksane kempty.
Proof. unfold ksane. cbn. repeat split; try constructor; intros; contradiction. Qed.
Lemma nodup_snoc {A} (l : list A) x : NoDup l -> ~ In x l -> NoDup (l ++ [x]).
Proof.
  induction l as [|y l IH]; intros N H; cbn; [constructor; auto; constructor|]. inversion N; subst. constructor.
  - intros X. apply in_app_or in X. destruct X as [X|[->|[]]]; [auto|]. apply H. left. reflexivity.
  - apply IH; auto. intros X. apply H. right. exact X.
Qed.

Lemma enters_sane s pid mine hs s' : ksane s ->
  (hs = [] \/ (hs = [HChild (t_next s) pid false] /\ mine = true) \/ hs = [HDaemon (t_next s) pid]) ->
  enters s pid mine hs = Some s' -> ksane s'.
Proof.
  intros (A & B & C & D & E & F & G & G2) Hh H. unfold enters in H. destruct (find_pid s pid) eqn:Hf; [discriminate|].
  inversion H; subst; clear H.
  assert (Fr : ~ In pid (map r_pid (t_rows s))).
  { intros X. apply in_map_iff in X. destruct X as (r & Ep & X). unfold find_pid in Hf. eapply find_none in Hf; eauto.
    unfold by_pid in Hf. rewrite Ep, Z.eqb_refl in Hf. discriminate. }
  assert (Fw : ~ In (t_next s) (map r_who (t_rows s))).
  { intros X. apply in_map_iff in X. destruct X as (r & Ep & X). apply C in X. lia. }
  assert (Hd : forall h, In h hs -> made_for h = t_next s).
  { intros h Hh'. destruct Hh as [->|[[-> _]| ->]]; [contradiction| |]; destruct Hh' as [<-|[]]; reflexivity. }
  repeat split; cbn [t_rows t_next t_handles t_signals].
  - rewrite map_app. apply nodup_snoc; auto.
  - rewrite map_app. apply nodup_snoc; auto.
  - intros r Hr. apply in_app_or in Hr. destruct Hr as [Hr|[<-|[]]]; [apply C in Hr; lia|cbn; lia].
  - rewrite map_app. assert (X : ~ In (t_next s) (map made_for (t_handles s))).
    { intros X. apply in_map_iff in X. destruct X as (r & Ep & X). apply E in X. lia. }
    destruct Hh as [->|[[-> _]| ->]]; cbn; [rewrite app_nil_r; exact D|apply nodup_snoc; auto|apply nodup_snoc; auto].
  - intros h Hi. apply in_app_or in Hi. destruct Hi as [Hi|Hi]; [apply E in Hi; lia|]. apply Hd in Hi. lia.
  - intros who p Hi. apply in_app_or in Hi. destruct Hi as [Hi|Hi].
    + destruct (F _ _ Hi) as (r & X & Y). exists r. split; [apply in_or_app; left; exact X|exact Y].
    + destruct Hh as [->|[[-> ->]| ->]]; [contradiction| |]; destruct Hi as [Hi|[]]; inversion Hi; subst.
      eexists. split; [apply in_or_app; right; left; reflexivity|]. cbn. auto.
  - intros h w Hi x Hx. pose proof (G2 _ _ Hi). rewrite nth_error_app1 in Hx; auto. apply (G _ _ Hi); auto.
  - intros h w Hi. apply G2 in Hi. rewrite app_length. lia.
Qed.

Lemma exits_sane s who : ksane s -> ksane (mkK (exits who (t_rows s)) (t_next s) (t_handles s) (t_signals s)).
Proof.
  intros (A & B & C & D & E & F & G & G2). repeat split; cbn [t_rows t_next t_handles t_signals]; auto.
  - apply exits_pids; auto.
  - apply exits_whos; auto.
  - intros r Hr. apply exits_in in Hr. destruct Hr as (r0 & X & _ & Y & _). rewrite <- Y. apply C. exact X.
  - intros w p Hi. destruct (F _ _ Hi) as (r & X1 & X2 & X3 & X4). destruct (exits_keeps who _ _ X1 X4) as (r' & Y1 & Y2 & Y3 & Y4).
    exists r'. repeat split; auto; congruence.
Qed.

Lemma known_sane s h who pid : ksane s -> nth_error (t_handles s) h = Some (HChild who pid false) ->
  ksane (mkK (t_rows s) (t_next s) (set_nth (t_handles s) h (HChild who pid true)) (t_signals s)) /\
  (forall w p, In (HChild w p false) (set_nth (t_handles s) h (HChild who pid true)) -> w <> who).
Proof.
  intros (A & B & C & D & E & F & G & G2) Hn.
  assert (M : map made_for (set_nth (t_handles s) h (HChild who pid true)) = map made_for (t_handles s)) by (eapply map_set; eauto).
  assert (In1 : forall x, In x (set_nth (t_handles s) h (HChild who pid true)) -> x = HChild who pid true \/ exists j, j <> h /\ nth_error (t_handles s) j = Some x).
  { intros x Hx. apply In_nth_error in Hx. destruct Hx as [j Hj]. rewrite nth_set in Hj. destruct (Nat.eqb j h) eqn:Ej.
    - destruct (nth_error (t_handles s) j); [|discriminate]. left. congruence.
    - right. exists j. split; [apply Nat.eqb_neq; exact Ej|exact Hj]. }
  assert (W : forall w p, In (HChild w p false) (set_nth (t_handles s) h (HChild who pid true)) -> w <> who).
  { intros w p Hx Hw. subst w. apply In1 in Hx. destruct Hx as [Hx|(j & Hj & Hx)]; [discriminate|].
    apply Hj. apply (map_nth_error made_for) in Hx. apply (map_nth_error made_for) in Hn. cbn in Hx, Hn.
    rewrite NoDup_nth_error in D. apply D; [|congruence]. apply nth_error_Some. congruence. }
  split; [|exact W]. repeat split; cbn [t_rows t_next t_handles t_signals]; auto.
  - rewrite M. exact D.
  - intros x Hx. apply In1 in Hx. destruct Hx as [->|(j & _ & Hx)].
    + apply nth_error_In in Hn. apply E in Hn. exact Hn.
    + apply nth_error_In in Hx. auto.
  - intros w p Hx. apply In1 in Hx. destruct Hx as [Hx|(j & _ & Hx)]; [discriminate|]. apply nth_error_In in Hx. auto.
  - intros h' w Hi x Hx Hc. rewrite nth_set in Hx. destruct (Nat.eqb h' h) eqn:Eh.
    + apply Nat.eqb_eq in Eh. subst h'. rewrite Hn in Hx. inversion Hx; subst. apply (G _ _ Hi _ Hn). reflexivity.
    + apply (G _ _ Hi); auto.
  - intros h' w Hi. rewrite set_nth_length. eauto.
Qed.

Lemma polled_sane s h who pid : ksane s -> nth_error (t_handles s) h = Some (HChild who pid false) -> ksane (polled s h who pid).
Proof.
  intros S Hn. pose proof S as (A & B & C & D & E & F & G & G2). unfold polled.
  destruct (F who pid) as (r & X1 & X2 & X3 & X4); [eapply nth_error_In; eauto|].
  replace (find_pid s pid) with (Some r) by (symmetry; apply find_unique_pid; auto). rewrite X4.
  destruct (r_zombie r); [|exact S].
  destruct (known_sane s h who pid S Hn) as [(A' & B' & C' & D' & E' & F' & G' & G2') W].
  repeat split; cbn [t_rows t_next t_handles t_signals]; auto.
  - apply filter_nodup; auto.
  - apply filter_nodup; auto.
  - intros x Hx. apply filter_In in Hx. apply C. apply Hx.
  - intros w p Hi. pose proof (W _ _ Hi) as Hw. destruct (F' _ _ Hi) as (r' & Y1 & Y2 & Y3 & Y4). cbn in Y1. exists r'. repeat split; auto.
    apply filter_In. split; [exact Y1|]. apply negb_true_iff. unfold by_pid. apply Z.eqb_neq. intros Hp. apply Hw.
    assert (r' = r) by (apply (nodup_pid (t_rows s)); auto; congruence). subst r'. congruence.
Qed.
Lemma kill_sane s h pid s' : ksane s -> (forall x, nth_error (t_handles s) h = Some x -> is_child x = true -> exists who, x = HChild who pid false) ->
  (h < List.length (t_handles s))%nat ->
  os_kill s h pid = Ok s' -> ksane s'.
Proof.
  intros S Hx Hl H. unfold os_kill in H. destruct (find_pid s pid) as [r|] eqn:Hf; [|discriminate]. apply find_pid_in in Hf. destruct Hf as [R1 R2].
  inversion H; subst s'; clear H.
  assert (S1 : ksane (mkK (if r_zombie r then t_rows s else exits (r_who r) (t_rows s)) (t_next s) (t_handles s) (t_signals s))).
  { destruct (r_zombie r); [destruct s; exact S|]. apply exits_sane. exact S. }
  destruct S as (A & B & C & D & E & F & G & G2).
  destruct S1 as (A' & B' & C' & D' & E' & F' & G' & G2').
  repeat split; auto; cbn [t_rows t_next t_handles t_signals] in *.
  - intros h' w Hi x Hn Hc. apply in_app_or in Hi. destruct Hi as [Hi|[Hi|[]]]; [eauto|]. inversion Hi; subst h' w; clear Hi.
    destruct (Hx x Hn Hc) as [who ->]. cbn. apply nth_error_In in Hn. destruct (F _ _ Hn) as (r' & Y1 & Y2 & Y3 & Y4).
    assert (r' = r) by (apply (nodup_pid (t_rows s)); auto; congruence). subst r'. auto.
  - intros h' w Hi. apply in_app_or in Hi. destruct Hi as [Hi|[Hi|[]]]; [eauto|]. inversion Hi; subst. exact Hl.
Qed.
Lemma kstep_sane s o s' : ksane s -> kstep s o = Some s' -> ksane s'.
Proof.
  intros S H. destruct o; cbn [kstep] in H.
  - apply (enters_sane s pid false [] s'); auto.
  - apply (enters_sane s pid true [HChild (t_next s) pid false] s'); auto.
  - apply (enters_sane s pid false [HDaemon (t_next s) pid] s'); auto.
  - inversion H; subst. apply exits_sane; auto.
  - destruct (nth_error (t_handles s) h) as [[who pid [|]|who pid]|] eqn:Hn; try discriminate; inversion H; subst; auto. apply polled_sane; auto.
  - destruct (nth_error (t_handles s) h) as [[who pid [|]|who pid]|] eqn:Hn; try discriminate.
    + inversion H; subst; auto.
    + pose proof (polled_sane s h who pid S Hn) as S1.
      destruct (nth_error (t_handles (polled s h who pid)) h) as [[who' pid' [|]|who' pid']|] eqn:Hn1; try (inversion H; subst; exact S1).
      destruct (os_kill (polled s h who pid) h pid) eqn:Hk; [|inversion H; subst; exact S1].
      inversion H; subst. eapply kill_sane; eauto.
      * intros x Hx _. exists who. rewrite Hn1 in Hx. inversion Hx; subst x.
        unfold polled in Hn1. destruct (find_pid s pid) as [r|]; [destruct (r_mine r); [destruct (r_zombie r)|]|];
          cbn in Hn1; try (rewrite nth_set, Nat.eqb_refl, Hn in Hn1; discriminate). congruence.
      * apply nth_error_Some. congruence.
    + destruct (os_kill s h pid) eqn:Hk; [|inversion H; subst; exact S].
      inversion H; subst. eapply kill_sane; eauto.
      * intros x Hx Hc. rewrite Hn in Hx. inversion Hx; subst. discriminate.
      * apply nth_error_Some. congruence.
Qed.
Lemma krun_sane os : forall s s', ksane s -> krun s os = Some s' -> ksane s'.
Proof.
  induction os as [|o os IH]; intros s s' S H; cbn in H; [inversion H; subst; auto|].
  destruct (kstep s o) eqn:E; [|discriminate]. eapply IH; [|exact H]. eapply kstep_sane; eauto.
Qed.

(** a child whose exit code is known has exited *)
Definition known_gone (s : kst) : Prop :=
  forall who pid r, In (HChild who pid true) (t_handles s) -> In r (t_rows s) -> r_who r <> who.
Lemma kstep_gone s o s' : ksane s -> known_gone s -> kstep s o = Some s' -> known_gone s'.
Proof.
  intros S K H. pose proof S as (A & B & C & D & E & F & G & G2).
  assert (Ex : forall w g, known_gone (mkK (exits w (t_rows s)) (t_next s) (t_handles s) g)).
  { intros w g who pid r Hi Hr. cbn in *. apply exits_in in Hr. destruct Hr as (r0 & X & _ & Y & _). rewrite <- Y. eapply K; eauto. }
  assert (En : forall pid mine hs s', (forall x, In x hs -> x = HChild (t_next s) pid false \/ x = HDaemon (t_next s) pid) ->
             enters s pid mine hs = Some s' -> known_gone s').
  { intros pid mine hs s1 Hh He. unfold enters in He. destruct (find_pid s pid); [discriminate|]. inversion He; subst; clear He.
    intros who p r Hi Hr. cbn in *. apply in_app_or in Hi. destruct Hi as [Hi|Hi]; [|apply Hh in Hi; destruct Hi; discriminate].
    apply in_app_or in Hr. destruct Hr as [Hr|[<-|[]]]; [eapply K; eauto|]. apply E in Hi. cbn in *. lia. }
  assert (Po : forall h who pid, nth_error (t_handles s) h = Some (HChild who pid false) -> known_gone (polled s h who pid)).
  { intros h who pid Hn. unfold polled. destruct (F who pid) as (r & X1 & X2 & X3 & X4); [eapply nth_error_In; eauto|].
    replace (find_pid s pid) with (Some r) by (symmetry; apply find_unique_pid; auto). rewrite X4.
    destruct (r_zombie r); [|exact K]. intros w p r' Hi Hr. cbn in *. apply filter_In in Hr. destruct Hr as [Hr N].
    apply In_nth_error in Hi. destruct Hi as [j Hj]. rewrite nth_set in Hj. destruct (Nat.eqb j h).
    - destruct (nth_error (t_handles s) j); [|discriminate]. inversion Hj; subst w p. intros W.
      unfold by_pid in N. apply negb_true_iff, Z.eqb_neq in N. apply N. rewrite <- X2. f_equal.
      assert (M : forall l, NoDup (map r_who l) -> In r l -> In r' l -> r_who r' = r_who r -> r' = r).
      { induction l as [|y l IH]; intros Nd I1 I2 Ew; [contradiction|]. inversion Nd; subst.
        destruct I1 as [->|I1], I2 as [->|I2]; auto.
        - exfalso. apply H2. rewrite <- Ew. apply in_map. exact I2.
        - exfalso. apply H2. rewrite Ew. apply in_map. exact I1. }
      apply (M (t_rows s)); auto. congruence.
    - apply nth_error_In in Hj. eapply K; eauto. }
  destruct o; cbn [kstep] in H.
  - eapply En; [|exact H]. intros x [].
  - eapply En; [|exact H]. intros x [<-|[]]; auto.
  - eapply En; [|exact H]. intros x [<-|[]]; auto.
  - inversion H; subst. apply Ex.
  - destruct (nth_error (t_handles s) h) as [[who pid [|]|who pid]|] eqn:Hn; try discriminate; inversion H; subst; auto.
  - destruct (nth_error (t_handles s) h) as [[who pid [|]|who pid]|] eqn:Hn; try discriminate.
    + inversion H; subst; auto.
    + specialize (Po _ _ _ Hn). destruct (nth_error (t_handles (polled s h who pid)) h) as [[who' pid' [|]|who' pid']|]; try (inversion H; subst; exact Po).
      unfold os_kill in H. destruct (find_pid (polled s h who pid) pid) as [r|]; [|inversion H; subst; exact Po]. inversion H; subst; clear H.
      intros w p r' Hi Hr. cbn in *. destruct (r_zombie r); [eapply Po; eauto|]. apply exits_in in Hr. destruct Hr as (r0 & X & _ & Y & _). rewrite <- Y. eapply Po; eauto.
    + unfold os_kill in H. destruct (find_pid s pid) as [r|]; [|inversion H; subst; exact K]. inversion H; subst; clear H.
      destruct (r_zombie r); [exact K|apply Ex].
Qed.
Lemma krun_gone os : forall s s', ksane s -> known_gone s -> krun s os = Some s' -> known_gone s'.
Proof.
  induction os as [|o os IH]; intros s s' S K H; cbn in H; [inversion H; subst; auto|].
  destruct (kstep s o) eqn:E; [|discriminate]. eapply IH; [| |exact H]; [eapply kstep_sane|eapply kstep_gone]; eauto.
Qed.
Lemma exits_other who l r : In r l -> r_who r <> who -> In r (exits who l).
Proof.
  induction l as [|x l IH]; intros H N; [contradiction|]. cbn [exits]. destruct (Nat.eqb_spec (r_who x) who) as [E|E].
  - destruct H as [->|H]; [contradiction|]. destruct (r_mine x); [right|]; exact H.
  - destruct H as [->|H]; [left; reflexivity|right; auto].
Qed.
Lemma child_killed os s h who pid rc : krun kempty os = Some s -> nth_error (t_handles s) h = Some (HChild who pid rc) ->
  exists s', kstep s (KKill h) = Some s' /\ ~ alive s' who /\ forall w, w <> who -> alive s w -> alive s' w.
Proof.
  intros H Hn. pose proof (krun_sane os _ _ ksane_empty H) as S. pose proof S as (A & B & C & D & E & F & G & G2).
  assert (K : known_gone s) by (eapply krun_gone; [apply ksane_empty| |exact H]; intros ? ? ? []).
  assert (L : (h < List.length (t_handles s))%nat) by (apply nth_error_Some; congruence).
  cbn [kstep]. rewrite Hn. destruct rc.
  - exists s. split; [reflexivity|]. split; [|auto]. intros (p & r & X1 & X2 & _). apply nth_error_In in Hn. eapply K; eauto.
  - destruct (F who pid) as (r & X1 & X2 & X3 & X4); [eapply nth_error_In; eauto|].
    assert (Fp : find_pid s pid = Some r) by (apply find_unique_pid; auto).
    unfold polled. rewrite Fp, X4. destruct (r_zombie r) eqn:Z.
    + cbn [t_handles]. rewrite nth_set, Nat.eqb_refl, Hn. eexists. split; [reflexivity|]. unfold alive, running. cbn [t_rows]. split.
      * intros (p & r' & Y1 & Y2 & Y3 & Y4). apply filter_In in Y1. destruct Y1 as [Y1 N]. unfold by_pid in N. apply negb_true_iff, Z.eqb_neq in N.
        assert (Y5 : r' = r \/ r_zombie r' = true).
        { left. clear - B X1 Y1 X3 Y2. revert B X1 Y1. induction (t_rows s) as [|y l IH]; intros Nd I1 I2; [contradiction|]. inversion Nd; subst.
          destruct I1 as [->|I1], I2 as [->|I2]; auto; exfalso; apply H1; [rewrite <- Y2|rewrite Y2]; apply in_map; assumption. }
        destruct Y5 as [->|Y5]; [contradiction|congruence].
      * intros w N (p & r' & Y1 & Y2 & Y3 & Y4). exists p, r'. repeat split; auto. apply filter_In. split; [exact Y1|].
        apply negb_true_iff. unfold by_pid. apply Z.eqb_neq. intros P. assert (r' = r) by (apply (nodup_pid (t_rows s)); auto; congruence). subst r'. congruence.
    + rewrite Hn. unfold os_kill. rewrite Fp, Z. eexists. split; [reflexivity|]. unfold alive, running. cbn [t_rows]. split.
      * intros (p & r' & Y1 & Y2 & Y3 & Y4). rewrite <- X3 in Y2. pose proof (exits_gone _ _ _ Y1 B Y2). congruence.
      * intros w N (p & r' & Y1 & Y2 & Y3 & Y4). exists p, r'. repeat split; auto. apply exits_other; auto. congruence.
Qed.

Lemma child_signals os s h w x : krun kempty os = Some s -> In (h, w) (t_signals s) -> nth_error (t_handles s) h = Some x ->
  is_child x = true -> w = made_for x.
Proof. intros H Hi Hn Hc. symmetry. destruct (krun_sane os _ _ ksane_empty H) as (_ & _ & _ & _ & _ & _ & G & _). eapply G; eauto. Qed.

Lemma daemon_kills os s h who pid w s' : krun kempty os = Some s -> nth_error (t_handles s) h = Some (HDaemon who pid) ->
  running s w pid -> kstep s (KKill h) = Some s' -> t_signals s' = t_signals s ++ [(h, w)] /\ ~ alive s' w.
Proof.
  intros H Hn (r & R1 & R2 & R3 & R4) Hk. pose proof (krun_sane os _ _ ksane_empty H) as (A & B & _). cbn [kstep] in Hk. rewrite Hn in Hk.
  unfold os_kill in Hk. unfold find_pid in Hk. rewrite (find_unique_pid _ r pid A R1 R3) in Hk. inversion Hk; subst s'; clear Hk. cbn [t_signals t_rows].
  rewrite R2, R4. split; [reflexivity|].
  intros (p & r' & X1 & X2 & X3 & X4). cbn [t_rows] in X1. pose proof (exits_gone _ _ _ X1 B X2). congruence.
Qed.
