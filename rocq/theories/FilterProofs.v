(** Lemmas about filters. *)
From Verif Require Import Py FilterModel FilterSpec.

Lemma passes_all fs r : passes fs r = true <-> forall f, In f fs -> f r = true.
Proof. unfold passes. apply forallb_forall. Qed.
(** what really is asked of handler [h] *)
Definition takes (h : fhand) (r : flrec) : Prop := fh_level h <= fr_level r /\ h_handle h r = true.
Lemma call_iff hs r : forall n i, In i (call_handlers n hs r) <-> exists j h, i = (n + j)%nat /\ nth_error hs j = Some h /\ takes h r.
Proof.
  induction hs as [|h hs IH]; intros n i; cbn.
  - split; [intros []|intros (j & h & _ & E & _); destruct j; discriminate].
  - rewrite in_app_iff, IH. split.
    + intros [I|(j & h' & -> & E & T)].
      * destruct (Z.leb_spec (fh_level h) (fr_level r)); [|destruct I]. destruct (h_handle h r) eqn:Q; [|destruct I]. destruct I as [<-|[]].
        exists 0%nat, h. split; [lia|]. split; [reflexivity|]. split; auto.
      * exists (S j), h'. split; [lia|auto].
    + intros ([|j] & h' & -> & E & T); cbn in E.
      * injection E as <-. left. destruct T as [T1 T2]. rewrite T2. destruct (Z.leb_spec (fh_level h) (fr_level r)); [|lia]. left. lia.
      * right. exists j, h'. split; [lia|auto].
Qed.
Lemma logger_iff l r i : In i (logger_handle l r) <->
  fl_disabled l = false /\ (forall f, In f (fl_filters l) -> f r = true) /\ exists h, nth_error (fl_hands l) i = Some h /\ takes h r.
Proof.
  unfold logger_handle. destruct (fl_disabled l); [split; [intros []|intros [[=] _]]|].
  destruct (passes (fl_filters l) r) eqn:P.
  - rewrite call_iff. assert (P' : forall f, In f (fl_filters l) -> f r = true) by (apply passes_all; exact P). split.
    + intros (j & h & -> & E & T). split; [reflexivity|]. split; [exact P'|]. eauto.
    + intros (_ & _ & h & E & T). exists i, h. auto.
  - split; [intros []|]. intros (_ & Q & _). assert (passes (fl_filters l) r = true) by (apply passes_all; exact Q). congruence.
Qed.
Lemma local_iff l r i : In i (local_log l r) <-> lets l r /\ exists h, nth_error (fl_hands l) i = Some h /\ takes h r.
Proof.
  unfold local_log, lets. pose proof (logger_iff l r i) as Q. destruct (fl_disabled l) eqn:D.
  - split; [intros []|intros ([[=] _] & _)].
  - destruct (Z.leb_spec (fl_level l) (fr_level r)).
    + rewrite Q. intuition.
    + split; [intros []|]. intros ((_ & L & _) & _). lia.
Qed.
Lemma server_iff l r i : In i (server_log true l r) <-> lets l r /\ exists h, nth_error (fl_hands l) i = Some h /\ takes h r.
Proof.
  unfold server_log, lets. pose proof (logger_iff l r i) as Q. cbn. destruct (Z.ltb_spec (fr_level r) (fl_level l)).
  - split; [intros []|]. intros ((_ & L & _) & _). lia.
  - rewrite Q. intuition.
Qed.
Lemma wants_takes h r : wants h r -> takes h r.
Proof. intros [L F]. split; [exact L|]. unfold h_handle. assert (passes (fh_filters h) r = true) by (apply passes_all; exact F). destruct (fh_kind h); auto. Qed.
Lemma takes_wants h r : ~ own_handle h \/ fh_filters h = [] -> takes h r -> wants h r.
Proof.
  intros O [L T]. split; [exact L|]. destruct O as [O| ->]; [|intros f []]. apply passes_all. unfold h_handle in T. unfold own_handle in O.
  destruct (fh_kind h); auto; exfalso; apply O; auto.
Qed.
Lemma obeyed l r i : (forall h, In h (fl_hands l) -> ~ own_handle h \/ fh_filters h = []) ->
  (In i (local_log l r) <-> passed_on l r i) /\ (In i (server_log true l r) <-> passed_on l r i).
Proof.
  intro O. rewrite local_iff, server_iff. unfold passed_on.
  assert (E : (exists h, nth_error (fl_hands l) i = Some h /\ takes h r) <-> (exists h, nth_error (fl_hands l) i = Some h /\ wants h r)).
  { split; intros (h & E & T); exists h; split; auto; [|now apply wants_takes]. apply takes_wants; auto. apply O. eapply nth_error_In; eauto. }
  rewrite E. tauto.
Qed.
Lemma none_missed l r i : passed_on l r i -> In i (local_log l r) /\ In i (server_log true l r).
Proof. rewrite local_iff, server_iff. intros (L & h & E & W). assert (X : exists h, nth_error (fl_hands l) i = Some h /\ takes h r) by (exists h; split; auto; now apply wants_takes). auto. Qed.
Lemma at_least l r i : In i (local_log l r) -> lets l r /\ exists h, nth_error (fl_hands l) i = Some h /\ fh_level h <= fr_level r.
Proof. rewrite local_iff. intros (L & h & E & T & _). eauto. Qed.
Lemma ignored l r i h : lets l r -> nth_error (fl_hands l) i = Some h -> own_handle h -> fh_level h <= fr_level r ->
  (exists f, In f (fh_filters h) /\ f r = false) ->
  ~ passed_on l r i /\ In i (local_log l r) /\ In i (server_log true l r).
Proof.
  intros L E O V (f & I & F). split.
  - intros (_ & h' & E' & _ & W). assert (h' = h) as -> by congruence. rewrite (W f I) in F. discriminate.
  - rewrite local_iff, server_iff. assert (T : takes h r) by (split; [exact V|]; unfold h_handle; destruct O as [-> | ->]; reflexivity). split; (split; [exact L|eauto]).
Qed.
