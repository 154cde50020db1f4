From Verif Require Import Py ObjTableModel SerModel ReentrantModel ReentrantSpec.
Require Import Permutation.
Local Open Scope nat_scope.

Definition opt {A} (o : option A) : list A := match o with Some a => [a] | None => [] end.
Definition qrids (q : list (tid * option nat * prog)) : list nat := flat_map (fun '(_, r, _) => opt r) q.
Definition frids (l : list fr) : list nat := flat_map (fun f => opt (f_rid f)) l.

(** the frame a future belongs to is newer than the one that made it *)
Fixpoint ordered (l : list fr) : Prop :=
  match l with
  | [] => True
  | f :: r => (forall x, In x (f_futs f) -> ~ In x (frids (f :: r))) /\ ordered r
  end.

Fixpoint qcost (q : list (tid * option nat * prog)) : nat :=
  match q with [] => 0 | (_, _, p) :: r => S (cost p []) + qcost r end.
Fixpoint fcost (g : nat -> value) (l : list fr) : nat :=
  match l with [] => 0 | f :: r => cost (f_prog f) (map g (f_futs f)) + fcost g r end.
Definition work (g : nat -> value) (s : rsys) : nat := qcost (r_queue s) + fcost g (r_frames s).

Definition fgood (g : nat -> value) (n : nat) (f : fr) : Prop :=
  (forall r, f_rid f = Some r -> meaning (f_prog f) (map g (f_futs f)) = g r) /\
  (forall x, In x (f_futs f) -> x < n).
Definition qgood (g : nat -> value) (e : tid * option nat * prog) : Prop :=
  let '(_, r, p) := e in forall i, r = Some i -> meaning p [] = g i.

Record Inv (g : nat -> value) (s : rsys) : Prop := {
  i_q : Forall (qgood g) (r_queue s);
  i_f : Forall (fgood g (r_next s)) (r_frames s);
  i_r : Forall (fun '(r, v) => v = g r) (r_replies s);
  i_all : Permutation (qrids (r_queue s) ++ frids (r_frames s) ++ map fst (r_replies s)) (seq 0 (r_next s));
  i_ord : ordered (r_frames s)
}.

Definition gset (g : nat -> value) (n : nat) (v : value) : nat -> value := fun r => if Nat.eqb r n then v else g r.

Lemma gset_old g n v l : (forall x, In x l -> x < n) -> map (gset g n v) l = map g l.
Proof.
  intros H. apply map_ext_in. intros a Ha. unfold gset. specialize (H a Ha).
  destruct (Nat.eqb_spec a n); [lia|easy].
Qed.
Lemma gset_new g n v : gset g n v n = v.
Proof. unfold gset. now rewrite Nat.eqb_refl. Qed.
Lemma gset_lt g n v r : r < n -> gset g n v r = g r.
Proof. unfold gset. destruct (Nat.eqb_spec r n); [lia|easy]. Qed.

(** *** splitting the lists *)
Lemma top_split t l f : top t l = Some f ->
  exists a b, l = a ++ f :: b /\ f_tid f = t /\ (forall o, upd_top t o l = a ++ opt o ++ b).
Proof.
  induction l as [|x l IH]; cbn; [easy|].
  destruct (Nat.eqb_spec (f_tid x) t) as [E|E].
  - intros [= <-]. exists [], l. repeat split; auto. intros [o|]; easy.
  - intros H. destruct (IH H) as (a & b & -> & Ht & Hu).
    exists (x :: a), b. repeat split; auto. intros o. now rewrite Hu.
Qed.

Lemma take_split t n q r p q' : take t n q = Some (r, p, q') ->
  exists a b, q = a ++ (t, r, p) :: b /\ q' = a ++ b.
Proof.
  revert n q'. induction q as [|[[t' r'] p'] q IH]; intros n q'; cbn; [easy|].
  destruct (Nat.eqb_spec t' t) as [E|E].
  - subst. destruct n as [|n].
    + intros [= <- <- <-]. now exists [], q.
    + destruct (take t n q) as [[[a b] c]|] eqn:T; [|easy]. intros [= <- <- <-].
      destruct (IH _ _ T) as (u & v & -> & ->). now exists ((t, r', p') :: u), v.
  - destruct (take t n q) as [[[a b] c]|] eqn:T; [|easy]. intros [= <- <- <-].
    destruct (IH _ _ T) as (u & v & -> & ->). now exists ((t', r', p') :: u), v.
Qed.

Lemma take_first t r p q : exists r' p' q', take t 0 ((t, r, p) :: q) = Some (r', p', q').
Proof. cbn. rewrite Nat.eqb_refl. eauto. Qed.

Lemma qrids_app a b : qrids (a ++ b) = qrids a ++ qrids b.
Proof. apply flat_map_app. Qed.
Lemma frids_app a b : frids (a ++ b) = frids a ++ frids b.
Proof. apply flat_map_app. Qed.
Lemma qcost_app a b : qcost (a ++ b) = qcost a + qcost b.
Proof. induction a as [|[[t r] p] a IH]; cbn; [easy|]. lia. Qed.
Lemma fcost_app g a b : fcost g (a ++ b) = fcost g a + fcost g b.
Proof. induction a as [|f a IH]; cbn; [easy|]. lia. Qed.
Lemma fcost_gset g n v l : Forall (fgood g n) l -> fcost (gset g n v) l = fcost g l.
Proof.
  induction 1 as [|f l [_ Hf] _ IH]; cbn; [easy|].
  rewrite IH, gset_old; auto.
Qed.

Lemma ordered_drop a f b : ordered (a ++ f :: b) -> ordered (a ++ b).
Proof.
  induction a as [|x a IH]; cbn [app ordered].
  - now intros [_ H].
  - intros [H O]. split; [|now apply IH]. intros y Hy HI. apply (H y Hy).
    change (In y (frids ((x :: a) ++ f :: b))). change (In y (frids ((x :: a) ++ b))) in HI.
    rewrite frids_app in *. apply in_app_or in HI. apply in_or_app.
    destruct HI as [HI|HI]; auto. right. cbn. apply in_or_app. now right.
Qed.
Lemma ordered_swap a f f' b : f_rid f' = f_rid f ->
  (forall x, In x (f_futs f') -> In x (f_futs f) \/ ~ In x (frids (a ++ f :: b))) ->
  ordered (a ++ f :: b) -> ordered (a ++ f' :: b).
Proof.
  intros Er Ef.
  assert (Efr : forall a, frids (a ++ f' :: b) = frids (a ++ f :: b))
    by (intros a0; rewrite !frids_app; cbn; now rewrite Er).
  revert Ef. induction a as [|x a IH]; cbn [app ordered]; intros Ef.
  - intros [H O]. split; auto. intros y Hy. destruct (Ef y Hy) as [Hy'|Hy'].
    + rewrite (Efr [] : frids (f' :: b) = _). now apply H.
    + now rewrite (Efr [] : frids (f' :: b) = _).
  - intros [H O]. split.
    + intros y Hy. rewrite (Efr (x :: a) : frids (x :: a ++ f' :: b) = _). now apply H.
    + apply IH; auto. intros y Hy. destruct (Ef y Hy) as [|N]; [now left|right].
      intros C. apply N. cbn. apply in_or_app. now right.
Qed.

Lemma lookup_in r l v : lookup r l = Some v -> In (r, v) l.
Proof.
  induction l as [|[r' v'] l IH]; cbn; [easy|].
  destruct (Nat.eqb_spec r' r); [intros [= ->]; subst; auto|auto].
Qed.
Lemma lookup_key r l : In r (map fst l) -> exists v, lookup r l = Some v.
Proof.
  induction l as [|[r' v'] l IH]; cbn; [easy|].
  destruct (Nat.eqb_spec r' r); eauto. intros [C|H]; [easy|auto].
Qed.

(** Arithmetic over permutations is done by counting *)
Lemma perm_count l l' : Permutation l l' <-> forall x, count_occ Nat.eq_dec l x = count_occ Nat.eq_dec l' x.
Proof. apply Permutation_count_occ. Qed.
Ltac perm := apply perm_count; let x := fresh "x" in intros x;
  repeat match goal with H : Permutation _ _ |- _ => rewrite perm_count in H; specialize (H x) end;
  rewrite ?qrids_app, ?frids_app, ?map_app, ?count_occ_app in *; cbn [qrids frids flat_map map fst opt app] in *;
  rewrite ?count_occ_app in *; cbn [count_occ] in *.

Lemma step_inv re g s l s' : Inv g s -> rstep re s l = Some s' ->
  exists g', Inv g' s' /\ (forall r, r < r_next s -> g' r = g r) /\ r_next s <= r_next s' /\
    work g s = S (work g' s').
Proof.
  intros [Iq If Ir Ia Io] H. destruct s as [fs q rs n]. cbn in Iq, If, Ir, Ia, Io.
  destruct l as [t i|t]; cbn in H.
  - (* Serve *)
    destruct (polls re t fs); [|easy].
    destruct (take t i q) as [[[r p] q']|] eqn:T; [|easy]. injection H as <-.
    destruct (take_split _ _ _ _ _ _ T) as (a & b & -> & ->).
    apply Forall_app in Iq. destruct Iq as [Iqa Iqb]. inversion Iqb as [|? ? Hp Iqb']; subst.
    exists g. split; [|split; [auto|split; [auto|]]].
    + constructor; cbn; auto.
      * apply Forall_app. auto.
      * constructor; auto. split; cbn; [|easy]. intros r0 ->. now apply Hp.
      * etransitivity; [|exact Ia]. perm. rewrite ?flat_map_app, ?count_occ_app. cbn.
        fold (qrids a). fold (qrids b). rewrite ?count_occ_app. lia.
    + unfold work. cbn. rewrite !qcost_app. cbn. lia.
  - (* Go *)
    destruct (top t fs) as [f|] eqn:T; [|easy].
    destruct (top_split _ _ _ T) as (a & b & -> & Et & Hu).
    apply Forall_app in If. destruct If as [Ifa Ifb]. inversion Ifb as [|? ? Hf Ifb']; subst.
    destruct f as [ft frid futs pr]. cbn in *.
    destruct pr as [v|t' q' p|t' q' p|i k].
    + (* Ret *)
      injection H as <-. exists g. split; [|split; [auto|split; [auto|]]].
      * constructor; cbn; auto.
        -- rewrite Hu. apply Forall_app. auto.
        -- destruct frid as [r|]; auto. apply Forall_app. split; auto. constructor; auto.
           destruct Hf as [Hf _]. now apply Hf.
        -- rewrite Hu. etransitivity; [|exact Ia]. cbn.
           destruct frid as [r|]; perm; rewrite ?count_occ_app; cbn;
             rewrite ?flat_map_app, ?count_occ_app; cbn; fold (frids a) (frids b); try destruct (Nat.eq_dec r x); lia.
        -- rewrite Hu. cbn. now apply ordered_drop in Io.
      * unfold work. cbn. rewrite Hu, !fcost_app. cbn. lia.
    + (* Async *)
      injection H as <-. destruct Hf as [Hf Hlt]. cbn in Hf, Hlt.
      assert (Fresh : forall x, In x (qrids q ++ frids (a ++ mkFr ft frid futs (Async t' q' p) :: b) ++ map fst rs) -> x < n).
      { intros x Hx. apply (Permutation_in _ Ia) in Hx. apply in_seq in Hx. lia. }
      set (g' := gset g n (meaning q' [])).
      assert (Hmap : map g' (futs ++ [n]) = map g futs ++ [meaning q' []]).
      { unfold g'. rewrite map_app, gset_old by auto. cbn. now rewrite gset_new. }
      assert (Hfr : forall f, fgood g n f -> (forall r, f_rid f = Some r -> r < n) -> fgood g' (S n) f).
      { intros f [F1 F2] F3. split; [|intros; specialize (F2 _ H); lia].
        intros r Hr. unfold g'. rewrite gset_old, gset_lt by auto. auto. }
      assert (Hfr' : forall f, In f (a ++ b) -> forall r, f_rid f = Some r -> r < n).
      { intros f Hf' r Hr. apply Fresh. apply in_or_app; right. apply in_or_app; left.
        rewrite frids_app. cbn. apply in_or_app. apply in_app_or in Hf'.
        destruct Hf' as [Hf'|Hf']; [left|right; apply in_or_app; right];
          apply in_flat_map; exists f; (split; [auto|]); rewrite Hr; cbn; auto. }
      exists g'. split; [|split; [|split; [cbn; lia|]]].
      * constructor; cbn; auto.
        -- apply Forall_app. split.
           ++ rewrite Forall_forall in *. intros [[tq rq] pq] Hi r ->. specialize (Iq _ Hi r eq_refl).
              rewrite Iq. unfold g'. rewrite gset_lt; auto. apply Fresh. apply in_or_app; left.
              apply in_flat_map. eexists. split; [exact Hi|]. cbn. auto.
           ++ constructor; auto. intros r [= <-]. unfold g'. now rewrite gset_new.
        -- rewrite Hu. cbn. rewrite Forall_forall in *. intros f Hi. apply in_app_or in Hi.
           destruct Hi as [Hi|[<-|Hi]].
           ++ apply Hfr; auto. apply Hfr', in_or_app; auto.
           ++ split; cbn.
              ** intros r Hr. rewrite Hmap. specialize (Hf r Hr). rewrite Hf. unfold g'. rewrite gset_lt; auto.
                 apply Fresh. apply in_or_app; right. apply in_or_app; left. rewrite frids_app. cbn.
                 rewrite Hr. apply in_or_app; right. cbn. auto.
              ** intros x Hx. apply in_app_or in Hx. destruct Hx as [Hx|[<-|[]]]; [specialize (Hlt _ Hx)|]; lia.
           ++ apply Hfr; auto. apply Hfr', in_or_app; auto.
        -- rewrite Forall_forall in *. intros [r v] Hi. specialize (Ir _ Hi). cbn in Ir. subst v.
           unfold g'. rewrite gset_lt; auto. apply Fresh. apply in_or_app; right. apply in_or_app; right.
           apply in_map_iff. exists (r, g r). auto.
        -- rewrite Hu. change (0 :: seq 1 n) with (seq 0 (S n)). rewrite seq_S. cbn [Nat.add]. rewrite <- Ia. perm.
           unfold qrids, frids. rewrite ?flat_map_app, ?count_occ_app. cbn. rewrite ?count_occ_app. cbn. lia.
        -- rewrite Hu. cbn. eapply ordered_swap; [| |exact Io]; cbn; [easy|].
           intros x Hx. apply in_app_or in Hx. destruct Hx as [Hx|[<-|[]]]; [now left|right].
           intros C. enough (n < n) by lia. apply Fresh. apply in_or_app; right. apply in_or_app; now left.
      * intros r Hr. unfold g'. now apply gset_lt.
      * unfold work. cbn. rewrite Hu, !fcost_app, qcost_app. cbn.
        rewrite Hmap. unfold g'. rewrite (fcost_gset _ _ _ a), (fcost_gset _ _ _ b); auto. lia.
    + (* Off *)
      injection H as <-. destruct Hf as [Hf Hlt]. cbn in Hf, Hlt.
      exists g. split; [|split; [auto|split; [auto|]]].
      * constructor; cbn; auto.
        -- apply Forall_app. split; auto. constructor; auto. cbn. easy.
        -- rewrite Hu. cbn. apply Forall_app. split; auto. constructor; auto. now split.
        -- rewrite Hu. etransitivity; [|exact Ia]. perm. unfold qrids, frids.
           rewrite ?flat_map_app, ?count_occ_app. cbn. rewrite ?count_occ_app. lia.
        -- rewrite Hu. cbn. eapply ordered_swap; [| |exact Io]; cbn; auto.
      * unfold work. cbn. rewrite Hu, !fcost_app, qcost_app. cbn. lia.
    + (* Await *)
      destruct Hf as [Hf Hlt]. cbn in Hf, Hlt.
      assert (X : exists v, nth i (map g futs) (Err AttributeError) = v /\
                s' = mkR (upd_top ft (Some (mkFr ft frid futs (k v))) (a ++ mkFr ft frid futs (Await i k) :: b)) q rs n).
      { destruct (nth_error futs i) as [r|] eqn:N.
        - destruct (lookup r rs) as [v|] eqn:L; [|easy]. injection H as <-. exists v. split; auto.
          apply nth_error_nth with (d := r) in N as N'.
          apply lookup_in in L. rewrite Forall_forall in Ir. specialize (Ir _ L). cbn in Ir. subst v.
          erewrite nth_error_nth; [reflexivity|]. now apply map_nth_error.
        - injection H as <-. exists (Err AttributeError). split; auto.
          apply nth_overflow. rewrite map_length. now apply nth_error_None. }
      destruct X as (v & Ev & ->). clear H.
      exists g. split; [|split; [auto|split; [auto|]]].
      * constructor; cbn; auto.
        -- rewrite Hu. cbn. apply Forall_app. split; auto. constructor; auto. split; cbn; auto.
           rewrite <- Ev. exact Hf.
        -- rewrite Hu. etransitivity; [|exact Ia]. perm. unfold qrids, frids.
           rewrite ?flat_map_app, ?count_occ_app. cbn. rewrite ?count_occ_app. lia.
        -- rewrite Hu. cbn. eapply ordered_swap; [| |exact Io]; cbn; auto.
      * unfold work. cbn. rewrite Hu, !fcost_app. cbn. rewrite Ev. lia.
Qed.

Lemma run_inv re g s ls s' : Inv g s -> rrun re s ls = Some s' ->
  exists g', Inv g' s' /\ (forall r, r < r_next s -> g' r = g r) /\ r_next s <= r_next s' /\
    work g s = List.length ls + work g' s'.
Proof.
  revert g s. induction ls as [|l ls IH]; cbn; intros g s I H.
  - injection H as <-. exists g. auto.
  - destruct (rstep re s l) as [s1|] eqn:S1; [|easy].
    destruct (step_inv _ _ _ _ _ I S1) as (g1 & I1 & E1 & N1 & W1).
    destruct (IH _ _ I1 H) as (g2 & I2 & E2 & N2 & W2).
    exists g2. repeat split; auto; try lia; try apply I2.
    intros r Hr. rewrite E2 by lia. auto.
Qed.

(** *** the initial state *)
Definition ginit (mains calls : list (tid * prog)) (r : nat) : value :=
  match nth_error (mains ++ calls) r with Some (_, p) => meaning p [] | None => Err AttributeError end.

Lemma combine_seq_in {A} k (l : list A) i x : In (i, x) (combine (seq k (List.length l)) l) ->
  k <= i /\ nth_error l (i - k) = Some x.
Proof.
  revert k. induction l as [|y l IH]; intros k; cbn; [easy|].
  intros [[= <- <-]|H].
  - replace (k - k) with 0 by lia. auto.
  - apply IH in H. destruct H as [H1 H2]. split; [lia|]. replace (i - k) with (S (i - S k)) by lia. auto.
Qed.

Lemma init_qrids k (l : list (tid * prog)) :
  qrids (map (fun '(i, (t, p)) => (t, Some i, p)) (combine (seq k (List.length l)) l)) = seq k (List.length l).
Proof. revert k. induction l as [|[t p] l IH]; intros k; cbn; [easy|]. f_equal. apply IH. Qed.
Lemma init_frids k (l : list (tid * prog)) :
  frids (map (fun '(i, (t, p)) => mkFr t (Some i) [] p) (combine (seq k (List.length l)) l)) = seq k (List.length l).
Proof. revert k. induction l as [|[t p] l IH]; intros k; cbn; [easy|]. f_equal. apply IH. Qed.

Lemma init_inv mains calls : Inv (ginit mains calls) (rinit mains calls).
Proof.
  unfold rinit. constructor; cbn.
  - apply Forall_forall. intros e He. apply in_map_iff in He. destruct He as ([i [t p]] & <- & Hi).
    apply combine_seq_in in Hi. destruct Hi as [Hi Hn]. intros j [= <-]. unfold ginit.
    rewrite nth_error_app2 by auto. now rewrite Hn.
  - apply Forall_forall. intros e He. apply in_map_iff in He. destruct He as ([i [t p]] & <- & Hi).
    apply combine_seq_in in Hi. destruct Hi as [Hi Hn]. rewrite Nat.sub_0_r in Hn. split; cbn; [|easy].
    intros j [= <-]. unfold ginit. rewrite nth_error_app1 by (apply nth_error_Some; congruence). now rewrite Hn.
  - constructor.
  - rewrite init_qrids, init_frids, app_nil_r, seq_app. apply Permutation_app_comm.
  - generalize (combine (seq 0 (List.length mains)) mains). intros l. induction l as [|[i [t p]] l IH]; cbn; auto.
Qed.

Lemma init_work mains calls :
  work (ginit mains calls) (rinit mains calls) = total mains + total calls + List.length calls.
Proof.
  unfold rinit, work. cbn [r_queue r_frames].
  assert (Q : forall k l, qcost (map (fun '(i, (t, p)) => (t, Some i, p)) (combine (seq k (List.length l)) l)) = total l + List.length l).
  { intros k l. revert k. induction l as [|[t p] l IH]; intros k; cbn; [easy|]. rewrite IH.
    change (fold_right (fun '(_, p0) n => cost p0 [] + n) 0 l) with (total l). lia. }
  assert (F : forall g k l, fcost g (map (fun '(i, (t, p)) => mkFr t (Some i) [] p) (combine (seq k (List.length l)) l)) = total l).
  { intros g k l. revert k. induction l as [|[t p] l IH]; intros k; cbn; [easy|]. now rewrite IH. }
  rewrite Q, F. lia.
Qed.

(** *** no deadlock *)

Lemma progress re g s : (forall t, re t = true) -> Inv g s -> ~ idle s ->
  exists t s', rstep re s (Serve t 0) = Some s' \/ rstep re s (Go t) = Some s'.
Proof.
  intros Re [Iq If Ir Ia Io] NI. destruct s as [fs q rs n]. cbn in *.
  destruct q as [|[[t r] p] q].
  - destruct fs as [|f fs]; [now destruct NI|].
    assert (T : top (f_tid f) (f :: fs) = Some f) by (cbn; now rewrite Nat.eqb_refl).
    exists (f_tid f). cbn [rstep r_frames]. rewrite T.
    destruct (f_prog f) as [v|t' q' p|t' q' p|i k] eqn:Ef; try (eexists; right; reflexivity).
    destruct (nth_error (f_futs f) i) as [r|] eqn:N; [|eexists; right; reflexivity].
    assert (L : exists v, lookup r rs = Some v).
    { apply lookup_key. apply nth_error_In in N. destruct Io as [Io _]. specialize (Io r N).
      inversion If as [|? ? [_ Hlt] _]; subst. specialize (Hlt _ N). cbn [r_next] in Hlt.
      assert (In r (seq 0 n)) as Hr by (apply in_seq; lia).
      apply (Permutation_in _ (Permutation_sym Ia)) in Hr. cbn [qrids app flat_map] in Hr.
      apply in_app_or in Hr. destruct Hr as [Hr|Hr]; [now destruct Io|auto]. }
    destruct L as [v L]. cbn [r_replies]. rewrite L. eexists; right; reflexivity.
  - exists t. cbn [rstep r_frames r_queue]. unfold polls.
    destruct (top t fs) as [f|].
    + destruct (f_prog f); try (eexists; right; reflexivity).
      rewrite Re. cbn [take]. rewrite Nat.eqb_refl. eexists; left; reflexivity.
    + cbn [take]. rewrite Nat.eqb_refl. eexists; left; reflexivity.
Qed.

(** *** the theorems *)
Theorem never_deadlocks re mains calls ls s :
  (forall t, re t = true) -> rrun re (rinit mains calls) ls = Some s -> ~ idle s ->
  exists t s', rstep re s (Serve t 0) = Some s' \/ rstep re s (Go t) = Some s'.
Proof.
  intros Re H NI. destruct (run_inv _ _ _ _ _ (init_inv mains calls) H) as (g & I & _).
  eapply progress; eauto.
Qed.

Theorem bounded_steps re mains calls ls s :
  rrun re (rinit mains calls) ls = Some s -> List.length ls <= total mains + total calls + List.length calls.
Proof.
  intros H. destruct (run_inv _ _ _ _ _ (init_inv mains calls) H) as (g & I & _ & _ & W).
  rewrite init_work in W. lia.
Qed.

Theorem right_results re mains calls ls s i t p :
  rrun re (rinit mains calls) ls = Some s -> idle s -> nth_error (mains ++ calls) i = Some (t, p) ->
  lookup i (r_replies s) = Some (meaning p []).
Proof.
  intros H [F Q] N. destruct (run_inv _ _ _ _ _ (init_inv mains calls) H) as (g & I & E & L & W).
  assert (Hi : i < r_next (rinit mains calls)).
  { cbn. rewrite <- app_length. apply nth_error_Some. congruence. }
  destruct I as [_ _ Ir Ia _]. rewrite F, Q in Ia. cbn in Ia.
  assert (In i (seq 0 (r_next s))) as Hr by (apply in_seq; lia).
  apply (Permutation_in _ (Permutation_sym Ia)) in Hr. apply lookup_key in Hr. destruct Hr as [v Hv].
  rewrite Hv. apply lookup_in in Hv. rewrite Forall_forall in Ir. specialize (Ir _ Hv). cbn in Ir.
  subst v. rewrite E by auto. unfold ginit. now rewrite N.
Qed.

(** replies are right at any time, and no request is ever answered twice *)
Theorem right_replies re mains calls ls s :
  rrun re (rinit mains calls) ls = Some s ->
  NoDup (map fst (r_replies s)) /\
  forall i t p v, nth_error (mains ++ calls) i = Some (t, p) -> In (i, v) (r_replies s) -> v = meaning p [].
Proof.
  intros H. destruct (run_inv _ _ _ _ _ (init_inv mains calls) H) as (g & I & E & L & W).
  destruct I as [_ _ Ir Ia _]. split.
  - assert (ND := seq_NoDup (r_next s) 0). apply (Permutation_NoDup (Permutation_sym Ia)) in ND.
    rewrite app_assoc in ND. revert ND. generalize (qrids (r_queue s) ++ frids (r_frames s)).
    intros l. induction l as [|x l IH]; cbn; auto. intros ND. inversion ND; auto.
  - intros i t p v N Hi. assert (Hl : i < r_next (rinit mains calls)).
    { cbn. rewrite <- app_length. apply nth_error_Some. congruence. }
    rewrite Forall_forall in Ir. specialize (Ir _ Hi). cbn in Ir. subst v. rewrite E by auto.
    unfold ginit. now rewrite N.
Qed.

(** from anywhere, the system can be (and, by [bounded_steps], is) driven to the end *)
Theorem completes re mains calls ls s :
  (forall t, re t = true) -> rrun re (rinit mains calls) ls = Some s ->
  exists ls' s', rrun re s ls' = Some s' /\ idle s'.
Proof.
  intros Re H. destruct (run_inv _ _ _ _ _ (init_inv mains calls) H) as (g & I & _).
  clear H. remember (work g s) as w eqn:Ew. revert s g I Ew.
  induction w as [|w IH]; intros s g I Ew.
  - destruct s as [[|f fs] [|e q] rs n]; [exists [], (mkR [] [] rs n); cbn; now split| | |];
      (eapply progress in I as P; [|exact Re|intros [? ?]; easy]); destruct P as (t & s' & [P|P]);
      destruct (step_inv _ _ _ _ _ I P) as (? & _ & _ & _ & W); lia.
  - assert (D : idle s \/ ~ idle s).
    { destruct s as [[|f fs] [|e q] rs n]; [left; now split|right; intros [? ?]; easy..]. }
    destruct D as [D|D]; [exists [], s; now split|].
    destruct (progress _ _ _ Re I D) as (t & s' & [P|P]);
      destruct (step_inv _ _ _ _ _ I P) as (g' & I' & _ & _ & W);
      (destruct (IH s' g' I') as (ls' & s2 & R & Q); [lia|]);
      [exists (Serve t 0 :: ls')|exists (Go t :: ls')]; exists s2; cbn [rrun]; now rewrite P.
Qed.
