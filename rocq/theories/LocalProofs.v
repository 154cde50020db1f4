From Verif Require Import Py LocalModel LocalSpec.
Local Open Scope nat_scope.
Local Open Scope list_scope.

Lemma nset_same {A} (l : list A) i x y : nth_error l i = Some y -> nth_error (nset l i x) i = Some x.
Proof. revert i. induction l as [|z l IH]; intros [|i] H; try discriminate; cbn; auto. Qed.
Lemma nset_other {A} (l : list A) i j x : i <> j -> nth_error (nset l i x) j = nth_error l j.
Proof. revert i j. induction l as [|z l IH]; intros [|i] [|j] H; cbn; auto; congruence. Qed.
Lemma nset_length {A} (l : list A) i x : List.length (nset l i x) = List.length l.
Proof. revert i. induction l as [|z l IH]; intros [|i]; cbn; auto. Qed.
Lemma nset_inv {A} (l : list A) i x j z : nth_error (nset l i x) j = Some z ->
  (j = i /\ z = x /\ exists y, nth_error l i = Some y) \/ (j <> i /\ nth_error l j = Some z).
Proof.
  intros H. destruct (Nat.eq_dec j i) as [->|N].
  - left. destruct (nth_error l i) as [y|] eqn:E.
    + rewrite (nset_same _ _ _ _ E) in H. injection H as <-. eauto.
    + exfalso. apply nth_error_None in E. assert (nth_error (nset l i x) i = None) by (apply nth_error_None; rewrite nset_length; exact E). congruence.
  - right. rewrite nset_other in H by auto. auto.
Qed.
Lemma nth_snoc {A} (l : list A) x j z : nth_error (l ++ [x]) j = Some z -> nth_error l j = Some z \/ (j = List.length l /\ z = x).
Proof.
  intros H. destruct (Nat.lt_ge_cases j (List.length l)) as [L|L].
  - rewrite nth_error_app1 in H by exact L. auto.
  - rewrite nth_error_app2 in H by exact L. right. destruct (j - List.length l) eqn:E; cbn in H; [|destruct n; discriminate].
    injection H as <-. split; [lia|reflexivity].
Qed.
Lemma nth_lt {A} (l : list A) j z : nth_error l j = Some z -> j < List.length l.
Proof. intros H. apply nth_error_Some. congruence. Qed.
Lemma nth_map {A B} (f : A -> B) l j z : nth_error (map f l) j = Some z -> exists y, nth_error l j = Some y /\ z = f y.
Proof. revert j. induction l as [|x l IH]; intros [|j] H; cbn in *; try discriminate; [injection H as <-|]; eauto. Qed.
Lemma nth_map' {A B} (f : A -> B) l j y : nth_error l j = Some y -> nth_error (map f l) j = Some (f y).
Proof. revert j. induction l as [|x l IH]; intros [|j] H; cbn in *; try discriminate; [injection H as <-|]; eauto. Qed.

(** * Invariant; [H t s]: thread [t] had server [s] at some time *)
Definition watches (st : lst) (p : poller) (s : nat) : Prop :=
  exists v, nth_error (l_servers st) s = Some v /\ match p with PQt => v_kind v <> Plain | PBoth s' => s' = s /\ v_kind v = Plain end.
Record Inv (H : nat -> nat -> Prop) (st : lst) : Prop := {
  i_nodup : NoDup (dkeys (l_at st));
  i_at : forall t s, dget (l_at st) t = Some s -> exists v, nth_error (l_servers st) s = Some v /\ v_thread v = Some t /\ v_closed v = false;
  i_open : forall s v t, nth_error (l_servers st) s = Some v -> v_closed v = false -> v_thread v = Some t -> dget (l_at st) t = Some s;
  i_new : forall s v, nth_error (l_servers st) s = Some v -> v_thread v = None -> v_closed v = false /\ v_loop v = false;
  i_disc : forall c k, nth_error (l_clients st) c = Some k -> c_disc k = true -> exists v, nth_error (l_servers st) (c_server k) = Some v /\ v_closed v = true;
  i_key : forall t s c, dget (l_keys st) (t, s) = Some c -> exists k v, nth_error (l_clients st) c = Some k /\ c_thread k = t /\ c_server k = s /\
            nth_error (l_servers st) s = Some v /\ v_thread v <> None /\ (v_thread v = Some t -> c_reent k = true);
  i_poll : forall c k p, nth_error (l_clients st) c = Some k -> c_poll k = Some p -> exists s, H (c_thread k) s /\ watches st p s
}.

Lemma inv_more (H H' : nat -> nat -> Prop) st : (forall t s, H t s -> H' t s) -> Inv H st -> Inv H' st.
Proof.
  intros M I. destruct I as [A B C D E F G]. constructor; auto.
  intros c k p X Y. destruct (G c k p X Y) as (s & P & Q). eauto.
Qed.
Lemma inv0 (H : nat -> nat -> Prop) : Inv H lst0.
Proof. constructor; cbn; try (intros; discriminate); try (intros [|] *; discriminate). constructor. Qed.

Definition same_client (k k' : client) : Prop := c_thread k' = c_thread k /\ c_server k' = c_server k /\ c_reent k' = c_reent k /\ c_disc k' = c_disc k.
Lemma gp_cases st c : fst (get_poller st c) = st \/
  exists k s p, nth_error (l_clients st) c = Some k /\ c_reent k = true /\ c_poll k = None /\ get_server st (c_thread k) = Some s /\
    p = match nth_error (l_servers st) s with Some v => match v_kind v with Qt _ => PQt | Plain => PBoth s end | None => PBoth s end /\
    get_poller st c = (set_client st c (mkCl (c_thread k) (c_server k) (c_reent k) (Some p) (c_disc k)), Some p).
Proof.
  unfold get_poller. destruct (nth_error (l_clients st) c) as [k|] eqn:E; [|left; reflexivity].
  destruct (c_reent k) eqn:R; cbn [negb]; [|left; reflexivity].
  destruct (c_poll k) eqn:P; [left; reflexivity|]. destruct (get_server st (c_thread k)) as [s|] eqn:G; [|left; reflexivity].
  right. eexists k, s, _. rewrite <- R. repeat split; auto.
Qed.
Lemma inv_gp (H : nat -> nat -> Prop) st c : (forall t s, get_server st t = Some s -> H t s) -> Inv H st -> Inv H (fst (get_poller st c)).
Proof.
  intros HG I. destruct (gp_cases st c) as [->|(k & s & p & E & R & P & G & Hp & ->)]; [exact I|].
  destruct I as [A B C D Ed F Gp]. constructor; cbn [fst set_client l_servers l_at l_clients l_keys]; auto.
  - intros j k' X Y. apply nset_inv in X. destruct X as [(-> & -> & _)|(N & X)]; [cbn in *; eapply Ed; eauto|eauto].
  - intros t s0 j X. destruct (F t s0 j X) as (k0 & v & K1 & K2 & K3 & K4 & K5 & K6).
    destruct (Nat.eq_dec j c) as [->|N].
    + assert (k0 = k) by congruence. subst k0. eexists _, v. rewrite (nset_same _ _ _ _ E). split; [reflexivity|]. cbn. auto 10.
    + exists k0, v. rewrite nset_other by auto. auto 10.
  - intros j k' q X Y. apply nset_inv in X. destruct X as [(-> & -> & _)|(N & X)].
    + cbn in *. injection Y as <-. exists s. split; [apply HG; exact G|]. destruct (B _ _ G) as (v & V & _). exists v. cbn. rewrite V in Hp.
      split; [exact V|]. subst p. destruct (v_kind v) eqn:K; [auto|discriminate].
    + destruct (Gp j k' q X Y) as (s0 & S1 & S2). exists s0. split; [exact S1|exact S2].
Qed.
Lemma gp_frame st c : let st' := fst (get_poller st c) in
  l_servers st' = l_servers st /\ l_at st' = l_at st /\ l_keys st' = l_keys st /\ l_served st' = l_served st.
Proof. destruct (gp_cases st c) as [->|(k & s & p & _ & _ & _ & _ & _ & ->)]; cbn; auto. Qed.
Lemma gp_client st c j k : nth_error (l_clients st) j = Some k ->
  exists k', nth_error (l_clients (fst (get_poller st c))) j = Some k' /\ same_client k k'.
Proof.
  intros E. destruct (gp_cases st c) as [->|(k0 & s & p & E0 & R & P & G & _ & ->)]; [exists k; split; [exact E|repeat split]|].
  cbn. destruct (Nat.eq_dec j c) as [->|N].
  - rewrite (nset_same _ _ _ _ E0). assert (k0 = k) by congruence. subst. eexists. split; [reflexivity|repeat split].
  - rewrite nset_other by auto. exists k. split; [exact E|repeat split].
Qed.

Lemma inv_set_server (H : nat -> nat -> Prop) st s v v' : nth_error (l_servers st) s = Some v -> v_kind v' = v_kind v -> v_thread v' = v_thread v -> v_closed v' = v_closed v ->
  (v_thread v = None -> v_loop v' = false) -> Inv H st -> Inv H (set_server st s v').
Proof.
  intros E K T Cl L I. destruct I as [A B C D Ed F G]. constructor; cbn [set_server l_servers l_at l_clients l_keys]; auto.
  - intros t s0 X. destruct (B t s0 X) as (v0 & V1 & V2 & V3). destruct (Nat.eq_dec s0 s) as [->|N].
    + exists v'. rewrite (nset_same _ _ _ _ E). assert (v0 = v) by congruence. subst. repeat split; congruence.
    + exists v0. rewrite nset_other by auto. auto.
  - intros s0 v0 t X. apply nset_inv in X. destruct X as [(-> & -> & _)|(N & X)]; [rewrite Cl, T|]; eauto.
  - intros s0 v0 X. apply nset_inv in X. destruct X as [(-> & -> & _)|(N & X)]; [rewrite T, Cl|]; eauto.
    intros Y. split; [apply (D s v E Y)|auto].
  - intros c k X Y. destruct (Ed c k X Y) as (v0 & V1 & V2). destruct (Nat.eq_dec (c_server k) s) as [E1|N].
    + exists v'. rewrite E1 in *. rewrite (nset_same _ _ _ _ E). split; [reflexivity|]. congruence.
    + exists v0. rewrite nset_other by auto. auto.
  - intros t s0 c X. destruct (F t s0 c X) as (k & v0 & K1 & K2 & K3 & K4 & K5 & K6). exists k. destruct (Nat.eq_dec s0 s) as [->|N].
    + exists v'. rewrite (nset_same _ _ _ _ E). assert (v0 = v) by congruence. subst v0. rewrite T. auto 10.
    + exists v0. rewrite nset_other by auto. auto 10.
  - intros c k p X Y. destruct (G c k p X Y) as (s0 & S1 & v0 & S2 & S3). exists s0. split; [exact S1|]. destruct (Nat.eq_dec s0 s) as [->|N].
    + exists v'. cbn. rewrite (nset_same _ _ _ _ E). assert (v0 = v) by congruence. subst v0. rewrite K. auto.
    + exists v0. cbn. rewrite nset_other by auto. auto.
Qed.

Lemma inv_register (H : nat -> nat -> Prop) st t s : Inv H st -> Inv H (fst (register st t s)).
Proof.
  intros I. unfold register. destruct (nth_error (l_servers st) s) as [v|] eqn:E; [|exact I].
  destruct (v_thread v) as [t'|] eqn:T; [exact I|]. destruct (get_server st t) as [x|] eqn:Gs; [exact I|].
  destruct I as [A B C D Ed F G]. destruct (D s v E T) as [D1 D2].
  constructor; cbn [fst l_servers l_at l_clients l_keys]; auto.
  - apply NoDup_dset. exact A.
  - intros t0 s0 X. rewrite dget_dset in X. destruct (eqb t0 t) eqn:Et.
    + apply (proj1 (eqb_true _ _)) in Et. subst t0. injection X as <-. eexists. rewrite (nset_same _ _ _ _ E). split; [reflexivity|]. cbn. auto.
    + destruct (B t0 s0 X) as (v0 & V1 & V2 & V3). exists v0. rewrite nset_other; auto. intros ->. congruence.
  - intros s0 v0 t0 X Y Z. apply nset_inv in X. destruct X as [(-> & -> & _)|(N & X)].
    + cbn in *. injection Z as <-. apply dget_dset_same.
    + rewrite dget_dset_other; [eauto|]. intros ->. unfold get_server in Gs. rewrite (C s0 v0 t0 X Y Z) in Gs. discriminate.
  - intros s0 v0 X Y. apply nset_inv in X. destruct X as [(-> & -> & _)|(N & X)]; [discriminate|eauto].
  - intros c k X Y. destruct (Ed c k X Y) as (v0 & V1 & V2). exists v0. rewrite nset_other; auto. intros ->. congruence.
  - intros t0 s0 c X. destruct (F t0 s0 c X) as (k & v0 & K1 & K2 & K3 & K4 & K5 & K6). exists k, v0. rewrite nset_other; auto 10. intros ->. congruence.
  - intros c k p X Y. destruct (G c k p X Y) as (s0 & S1 & v0 & S2 & S3). exists s0. split; [exact S1|]. destruct (Nat.eq_dec s0 s) as [->|N].
    + eexists. cbn. rewrite (nset_same _ _ _ _ E). split; [reflexivity|]. assert (v0 = v) by congruence. subst v0. cbn. exact S3.
    + exists v0. cbn. rewrite nset_other by auto. auto.
Qed.
Lemma inv_new_server (H : nat -> nat -> Prop) st q : Inv H st -> Inv H (mkL (l_servers st ++ [mkSv q None false false false]) (l_at st) (l_clients st) (l_keys st) (l_served st)).
Proof.
  intros I. destruct I as [A B C D Ed F G].
  assert (M : forall s v, nth_error (l_servers st) s = Some v -> nth_error (l_servers st ++ [mkSv q None false false false]) s = Some v).
  { intros s v X. rewrite nth_error_app1; [exact X|]. eapply nth_lt; eauto. }
  constructor; cbn [l_servers l_at l_clients l_keys]; auto.
  - intros t s X. destruct (B t s X) as (v & V1 & V2). exists v. split; [auto|exact V2].
  - intros s v t X. apply nth_snoc in X. destruct X as [X|[-> ->]]; [eauto|discriminate].
  - intros s v X. apply nth_snoc in X. destruct X as [X|[-> ->]]; [eauto|auto].
  - intros c k X Y. destruct (Ed c k X Y) as (v & V1 & V2). eauto.
  - intros t s c X. destruct (F t s c X) as (k & v & K1 & K2 & K3 & K4 & K5 & K6). exists k, v. auto 10.
  - intros c k p X Y. destruct (G c k p X Y) as (s0 & S1 & v0 & S2 & S3). exists s0. split; [exact S1|]. exists v0. split; [apply M; exact S2|exact S3].
Qed.
Lemma inv_add_client (H : nat -> nat -> Prop) st k : c_poll k = None -> c_disc k = false -> Inv H st -> Inv H (mkL (l_servers st) (l_at st) (l_clients st ++ [k]) (l_keys st) (l_served st)).
Proof.
  intros P Dc I. destruct I as [A B C D Ed F G]. constructor; cbn [l_servers l_at l_clients l_keys]; auto.
  - intros c k' X Y. apply nth_snoc in X. destruct X as [X|[-> ->]]; [eauto|congruence].
  - intros t s c X. destruct (F t s c X) as (k0 & v & K1 & K2). exists k0, v. split; [|exact K2]. rewrite nth_error_app1; [exact K1|]. eapply nth_lt; eauto.
  - intros c k' p X Y. apply nth_snoc in X. destruct X as [X|[-> ->]]; [eauto|congruence].
Qed.
Lemma inv_served (H : nat -> nat -> Prop) st l : Inv H st -> Inv H (mkL (l_servers st) (l_at st) (l_clients st) (l_keys st) l).
Proof. intros I. destruct I as [A B C D Ed F G]. constructor; auto. Qed.
Lemma inv_add_key (H : nat -> nat -> Prop) st t s c k v : nth_error (l_clients st) c = Some k -> c_thread k = t -> c_server k = s ->
  nth_error (l_servers st) s = Some v -> v_thread v <> None -> (v_thread v = Some t -> c_reent k = true) ->
  Inv H st -> Inv H (mkL (l_servers st) (l_at st) (l_clients st) (dset (l_keys st) (t, s) c) (l_served st)).
Proof.
  intros K1 K2 K3 K4 K5 K6 I. destruct I as [A B C D Ed F G]. constructor; cbn [l_servers l_at l_clients l_keys]; auto.
  intros t0 s0 c0 X. rewrite dget_dset in X. destruct (eqb (t0, s0) (t, s)) eqn:Et; [|eauto].
  apply (proj1 (eqb_true _ _)) in Et. injection Et as -> ->. injection X as <-. exists k, v. auto 10.
Qed.
Lemma inv_closes (H : nat -> nat -> Prop) st s v t : nth_error (l_servers st) s = Some v -> v_thread v = Some t -> v_closed v = false -> Inv H st -> Inv H (closes st s).
Proof.
  intros E T Cl I. unfold closes. rewrite E, T.
  destruct I as [A B C D Ed F G]. pose proof (C s v t E Cl T) as At.
  set (f := fun k => if Nat.eqb (c_server k) s then mkCl (c_thread k) (c_server k) (c_reent k) (c_poll k) true else k).
  constructor; cbn [l_servers l_at l_clients l_keys].
  - apply NoDup_ddel. exact A.
  - intros t0 s0 X. rewrite dget_ddel in X by exact A. destruct (eqb t0 t) eqn:Et; [discriminate|].
    destruct (B t0 s0 X) as (v0 & V1 & V2 & V3). exists v0. rewrite nset_other; auto. intros <-.
    assert (v0 = v) by congruence. subst. assert (t0 = t) by congruence. subst. rewrite eqb_refl in Et. discriminate.
  - intros s0 v0 t0 X Y Z. apply nset_inv in X. destruct X as [(-> & -> & _)|(N & X)]; [discriminate|].
    rewrite dget_ddel_other; [eauto|]. intros <-. rewrite (C s0 v0 t X Y Z) in At. congruence.
  - intros s0 v0 X Y. apply nset_inv in X. destruct X as [(-> & -> & _)|(N & X)]; [discriminate|eauto].
  - intros c k X Y. apply nth_map in X. destruct X as (k0 & X & ->).
    unfold f in *. destruct (Nat.eqb (c_server k0) s) eqn:Es.
    + apply Nat.eqb_eq in Es. cbn [c_server c_disc] in *. eexists. rewrite Es, (nset_same _ _ _ _ E). split; reflexivity.
    + destruct (Ed c k0 X Y) as (v0 & V1 & V2). exists v0. apply Nat.eqb_neq in Es. rewrite nset_other; auto.
  - intros t0 s0 c X. destruct (F t0 s0 c X) as (k & v0 & K1 & K2 & K3 & K4 & K5 & K6). exists (f k).
    assert (FK : c_thread (f k) = c_thread k /\ c_server (f k) = c_server k /\ c_reent (f k) = c_reent k) by (unfold f; destruct (Nat.eqb (c_server k) s); auto).
    destruct FK as (F1 & F2 & F3). destruct (Nat.eq_dec s0 s) as [->|N].
    + eexists. rewrite (nset_same _ _ _ _ E), (nth_map' _ _ _ _ K1). split; [reflexivity|]. rewrite F1, F2, F3. assert (v0 = v) by congruence. subst v0.
      rewrite T in K5, K6. cbn. auto 10.
    + exists v0. rewrite nset_other by auto. rewrite (nth_map' _ _ _ _ K1). split; [reflexivity|]. rewrite F1, F2, F3. auto 10.
  - intros c k p X Y. apply nth_map in X. destruct X as (k0 & X & ->).
    assert (FK : c_thread (f k0) = c_thread k0 /\ c_poll (f k0) = c_poll k0) by (unfold f; destruct (Nat.eqb (c_server k0) s); auto).
    destruct FK as (F1 & F2). fold (f k0) in Y |- *. rewrite F1. rewrite F2 in Y. destruct (G c k0 p X Y) as (s0 & S1 & v0 & S2 & S3). exists s0. split; [exact S1|].
    destruct (Nat.eq_dec s0 s) as [->|N].
    + eexists. cbn. rewrite (nset_same _ _ _ _ E). split; [reflexivity|]. assert (v0 = v) by congruence. subst v0. exact S3.
    + exists v0. cbn. rewrite nset_other by auto. auto.
Qed.

Lemma attended_yes st t c s : attended st t c s = true -> exists v t', nth_error (l_servers st) s = Some v /\ v_thread v = Some t' /\ sock_open v = true /\
  (t' = t -> exists k, nth_error (l_clients st) c = Some k /\ c_reent k = true).
Proof.
  unfold attended. destruct (nth_error (l_servers st) s) as [v|] eqn:E; [|discriminate].
  destruct (sock_open v) eqn:O; [|discriminate]. cbn [andb]. destruct (v_thread v) as [t'|] eqn:T; [|discriminate].
  intros X. exists v, t'. repeat split; auto. intros ->. rewrite Nat.eqb_refl in X. unfold get_poller in X.
  destruct (nth_error (l_clients st) c) as [k|]; [|discriminate]. exists k. split; [reflexivity|]. destruct (c_reent k); [reflexivity|discriminate].
Qed.
Lemma gp_nokeys a b cs ks ks' sv c :
  mkL a b (l_clients (fst (get_poller (mkL a b cs ks sv) c))) ks' sv = fst (get_poller (mkL a b cs ks' sv) c).
Proof.
  unfold get_poller, get_server, set_client. cbn [l_servers l_at l_clients l_keys l_served].
  destruct (nth_error cs c) as [k|]; [|reflexivity]. destruct (negb (c_reent k)); [reflexivity|]. destruct (c_poll k); [reflexivity|].
  destruct (dget b (c_thread k)); reflexivity.
Qed.
Lemma new_client_inv (H : nat -> nat -> Prop) st t s r : (forall t s, get_server st t = Some s -> H t s) -> Inv H st ->
  Inv H (fst (new_client st t s r)) /\ l_servers (fst (new_client st t s r)) = l_servers st /\ l_at (fst (new_client st t s r)) = l_at st /\
  l_served (fst (new_client st t s r)) = l_served st.
Proof.
  intros HG I. unfold new_client. destruct (dget (l_keys st) (t, s)) eqn:K; [auto|].
  destruct (nth_error (l_servers st) s) as [v|] eqn:E; [|auto].
  set (c := List.length (l_clients st)). set (k := mkCl t s r None false).
  pose proof (inv_add_client H st k eq_refl eq_refl I) as I1.
  destruct (negb (sock_open v)); [cbn [fst l_clients]; auto|].
  match goal with |- context [attended ?x t c s] => set (st1 := x) end.
  destruct (attended st1 t c s) eqn:At.
  - destruct (attended_yes _ _ _ _ At) as (v0 & t' & V1 & V2 & V3 & V4).
    assert (I2 : Inv H st1).
    { apply (inv_add_key H (mkL (l_servers st) (l_at st) (l_clients st ++ [k]) (l_keys st) (l_served st)) t s c k v0); auto.
      - cbn [l_clients]. rewrite nth_error_app2 by (unfold c; lia). unfold c. rewrite Nat.sub_diag. reflexivity.
      - congruence.
      - intros X. assert (t' = t) by congruence. destruct (V4 H0) as (k0 & K1 & K2). cbn [l_clients st1] in K1.
        rewrite nth_error_app2 in K1 by (unfold c; lia). unfold c in K1. rewrite Nat.sub_diag in K1. injection K1 as <-. exact K2. }
    cbn [fst]. destruct (gp_frame st1 c) as (A & B & C & D). rewrite A, B, D. split; [|auto]. apply inv_gp; auto.
  - cbn [fst]. split; [|auto]. unfold st1. rewrite gp_nokeys. apply inv_gp; auto.
Qed.
Lemma new_client_ok st t s r c st1 : new_client st t s r = (st1, Ok c) ->
  exists k, nth_error (l_clients st1) c = Some k /\ c_disc k = false /\ c_thread k = t /\ c_server k = s /\ c_reent k = r.
Proof.
  unfold new_client. destruct (dget (l_keys st) (t, s)); [discriminate|]. destruct (nth_error (l_servers st) s) as [v|]; [|discriminate].
  destruct (negb (sock_open v)); [discriminate|].
  match goal with |- context [attended ?x t ?y s] => set (st2 := x); destruct (attended st2 t y s) end; [|discriminate].
  intros X. injection X as <- <-. destruct (gp_client st2 (List.length (l_clients st)) (List.length (l_clients st)) (mkCl t s r None false)) as (k' & K1 & K2 & K3 & K4 & K5).
  { unfold st2. cbn [l_clients]. rewrite nth_error_app2 by lia. rewrite Nat.sub_diag. reflexivity. }
  exists k'. cbn in *. auto.
Qed.
Lemma get_client_inv (H : nat -> nat -> Prop) st t s : (forall t s, get_server st t = Some s -> H t s) -> Inv H st ->
  Inv H (fst (get_client st t s)) /\ l_servers (fst (get_client st t s)) = l_servers st /\ l_at (fst (get_client st t s)) = l_at st /\
  l_served (fst (get_client st t s)) = l_served st.
Proof. intros HG I. unfold get_client. destruct (dget (l_keys st) (t, s)) eqn:K; [auto|]. apply new_client_inv; auto. Qed.

Lemma close_inv (H : nat -> nat -> Prop) st t s : (forall t s, get_server st t = Some s -> H t s) -> Inv H st -> Inv H (fst (close st t s)).
Proof.
  intros HG I. unfold close. destruct (get_client_inv H st t s HG I) as (I1 & A & B & _).
  destruct (get_client st t s) as [st1 [c|e]] eqn:Gc; cbn [fst] in *; [|exact I1].
  destruct (nth_error (l_clients st1) c) as [k|] eqn:Ek; [|exact I1]. destruct (c_disc k); [exact I1|].
  assert (HG1 : forall t s, get_server st1 t = Some s -> H t s) by (intros t0 s0; unfold get_server; rewrite B; apply HG).
  pose proof (inv_gp H st1 c HG1 I1) as I2. destruct (gp_frame st1 c) as (F1 & F2 & F3 & F4).
  destruct (attended st1 t c s) eqn:At.
  - destruct (attended_yes _ _ _ _ At) as (v & t' & V1 & V2 & V3 & V4). rewrite V1.
    destruct (v_closed v) eqn:Cl; [exact I2|]. cbn [fst]. eapply inv_closes; eauto. rewrite F1. exact V1.
  - cbn [fst]. destruct (nth_error (l_servers (fst (get_poller st1 c))) s) as [v|] eqn:Ev; [|exact I2].
    eapply inv_set_server; eauto. intros X. destruct I2 as [_ _ _ D _ _ _]. apply (D s v Ev X).
Qed.
Lemma step_inv (H : nat -> nat -> Prop) st o : (forall t s, get_server st t = Some s -> H t s) -> Inv H st -> Inv H (fst (lstep st o)).
Proof.
  intros HG I. destruct o; cbn [lstep].
  - apply inv_new_server. exact I.
  - apply inv_register. exact I.
  - pose proof (inv_register H st t s I) as I1. destruct (register st t s) as [st1 [u|e]] eqn:R; cbn [fst] in *; [|exact I1].
    destruct (nth_error (l_servers st1) s) as [v|] eqn:E; [|exact I1]. cbn [fst].
    set (v' := mkSv (v_kind v) (v_thread v) true (v_closed v) (v_asked v)).
    assert (T : v_thread v = Some t).
    { unfold register in R. destruct (nth_error (l_servers st) s) as [v0|] eqn:E0; [|discriminate]. destruct (v_thread v0) as [t0|] eqn:T0.
      - destruct (Nat.eqb t0 t) eqn:Et; [|discriminate]. injection R as <- _. apply Nat.eqb_eq in Et. congruence.
      - destruct (get_server st t); [discriminate|]. injection R as <- _. cbn in E. rewrite (nset_same _ _ _ _ E0) in E. injection E as <-. reflexivity. }
    assert (I2 : Inv H (set_server st1 s v')) by (eapply inv_set_server; eauto; intros X; congruence).
    destruct (v_asked v && negb (v_closed v)) eqn:B; [|exact I2].
    apply andb_prop in B. destruct B as [_ B]. apply negb_true_iff in B.
    eapply (inv_closes H _ s v' t); eauto. cbn. eapply nset_same; eauto.
  - pose proof (new_client_inv H st t s reent HG I) as (I1 & _). destruct (new_client st t s reent). exact I1.
  - unfold wait_turn. pose proof (inv_gp H st c HG I) as I1. destruct (get_poller st c) as [st1 p]. cbn [fst] in *.
    repeat match goal with |- context [match ?x with _ => _ end] => destruct x end; try exact I1; apply inv_served; exact I1.
  - apply close_inv; auto.
Qed.
Lemma lrun_snoc os o : lrun (os ++ [o]) = fst (lstep (lrun os) o).
Proof. unfold lrun. rewrite fold_left_app. reflexivity. Qed.
Lemma had_now os t s : get_server (lrun os) t = Some s -> had os t s.
Proof. intros X. exists os, []. rewrite app_nil_r. auto. Qed.
Lemma had_later os os' t s : had os t s -> had (os ++ os') t s.
Proof. intros (a & b & -> & X). exists a, (b ++ os'). rewrite app_assoc. auto. Qed.
Lemma run_inv os : Inv (had os) (lrun os).
Proof.
  induction os as [|o os IH] using rev_ind; [apply inv0|]. rewrite lrun_snoc.
  apply step_inv.
  - intros t s X. apply had_later. apply had_now. exact X.
  - eapply inv_more; [|exact IH]. intros t s X. apply had_later. exact X.
Qed.

(** * Servers that have closed do not come back *)
Definition better (v v' : server) : Prop := v_kind v' = v_kind v /\ (forall t, v_thread v = Some t -> v_thread v' = Some t) /\ (v_closed v = true -> v_closed v' = true).
Lemma better_refl v : better v v.
Proof. repeat split; auto. Qed.
Lemma better_trans a b c : better a b -> better b c -> better a c.
Proof. intros (A & B & C) (D & E & F). repeat split; auto. congruence. Qed.
Definition past (v0 : server) (st : lst) (s : nat) : Prop := exists v, nth_error (l_servers st) s = Some v /\ better v0 v.
Lemma nset_closed v0 st s v v' x l : nth_error l x = Some v -> better v0 v -> nth_error l s = Some st -> better st v' ->
  exists w, nth_error (nset l s v') x = Some w /\ better v0 w.
Proof.
  intros A B C D. destruct (Nat.eq_dec x s) as [->|N].
  - exists v'. rewrite (nset_same _ _ _ _ C). split; [reflexivity|]. eapply better_trans; [exact B|]. assert (v = st) by congruence. subst. exact D.
  - exists v. rewrite nset_other by auto. auto.
Qed.
Lemma past_gp v0 st c s : past v0 st s -> past v0 (fst (get_poller st c)) s.
Proof. destruct (gp_frame st c) as (A & _). unfold past. rewrite A. auto. Qed.
Lemma past_closes v0 st x s : past v0 st s -> past v0 (closes st x) s.
Proof.
  intros (v & A & B). unfold closes. destruct (nth_error (l_servers st) x) as [w|] eqn:E; [|exists v; auto].
  unfold past. cbn [l_servers]. eapply nset_closed; eauto. repeat split; auto.
Qed.
Lemma past_register v0 st t x s : past v0 st s -> past v0 (fst (register st t x)) s.
Proof.
  intros (v & A & B). unfold register. destruct (nth_error (l_servers st) x) as [w|] eqn:E; [|exists v; auto].
  destruct (v_thread w) as [t'|] eqn:T; [exists v; auto|]. destruct (get_server st t); [exists v; auto|]. cbn. eapply nset_closed; eauto.
  repeat split; auto. intros t0 X. congruence.
Qed.
Lemma past_set v0 st x v v' s : nth_error (l_servers st) x = Some v -> better v v' -> past v0 st s -> past v0 (set_server st x v') s.
Proof. intros E D (w & A & B). unfold past. cbn. eapply nset_closed; eauto. Qed.
Lemma past_step v0 (H : nat -> nat -> Prop) st o s : Inv H st -> (forall t s, get_server st t = Some s -> H t s) -> past v0 st s -> past v0 (fst (lstep st o)) s.
Proof.
  intros I HG P. destruct o; cbn [lstep].
  - destruct P as (v & A & B). exists v. cbn. rewrite nth_error_app1; [auto|]. eapply nth_lt; eauto.
  - apply past_register. exact P.
  - pose proof (past_register v0 st t s0 s P) as P1. destruct (register st t s0) as [st1 [u|e]]; cbn [fst] in *; [|exact P1].
    destruct (nth_error (l_servers st1) s0) as [v|] eqn:E; [|exact P1]. cbn [fst].
    assert (P2 : past v0 (set_server st1 s0 (mkSv (v_kind v) (v_thread v) true (v_closed v) (v_asked v))) s) by (eapply past_set; eauto; repeat split; auto).
    destruct (v_asked v && negb (v_closed v)); [apply past_closes|]; exact P2.
  - pose proof (new_client_inv H st t s0 reent HG I) as (_ & A & _). destruct (new_client st t s0 reent) as [st1 x]. cbn [fst] in *. unfold past. rewrite A. exact P.
  - unfold wait_turn. pose proof (past_gp v0 st c s P) as P1. destruct (get_poller st c) as [st1 p]. cbn [fst] in *.
    repeat match goal with |- context [match ?x with _ => _ end] => destruct x end; exact P1.
  - unfold close. destruct (get_client_inv H st t s0 HG I) as (_ & A & _).
    destruct (get_client st t s0) as [st1 [c|e]]; cbn [fst] in *; [|unfold past; rewrite A; exact P].
    assert (P1 : past v0 st1 s) by (unfold past; rewrite A; exact P).
    destruct (nth_error (l_clients st1) c) as [k|]; [|exact P1]. destruct (c_disc k); [exact P1|].
    pose proof (past_gp v0 st1 c s P1) as P2.
    destruct (attended st1 t c s0).
    + destruct (match nth_error (l_servers st1) s0 with Some v => v_closed v | None => false end); [exact P2|]. apply past_closes. exact P2.
    + cbn [fst]. destruct (nth_error (l_servers (fst (get_poller st1 c))) s0) as [v|] eqn:Ev; [|exact P2]. eapply past_set; eauto. repeat split; auto.
Qed.
Lemma past_run v0 os os' s : past v0 (lrun os) s -> past v0 (lrun (os ++ os')) s.
Proof.
  induction os' as [|o os' IH] using rev_ind; intros P; [rewrite app_nil_r; exact P|]. rewrite app_assoc, lrun_snoc.
  apply (past_step v0 (had (os ++ os'))); [apply run_inv|intros; apply had_now; assumption|auto].
Qed.
Lemma server_later os os' s v : server_is (lrun os) s v -> exists v', server_is (lrun (os ++ os')) s v' /\ better v v'.
Proof. intros E. apply (past_run v os os' s). exists v. split; [exact E|apply better_refl]. Qed.

(** once a thread has another server, the old one has closed *)
Lemma replaced os os' t s : get_server (lrun os) t = Some s -> get_server (lrun (os ++ os')) t <> Some s ->
  exists v, server_is (lrun (os ++ os')) s v /\ v_closed v = true.
Proof.
  intros A B. destruct (i_at _ _ (run_inv os) t s A) as (v & V1 & V2 & V3). destruct (server_later os os' s v V1) as (v' & W1 & W2 & W3 & W4).
  exists v'. split; [exact W1|]. destruct (v_closed v') eqn:C; [reflexivity|]. exfalso. apply B.
  exact (i_open _ _ (run_inv (os ++ os')) s v' t W1 C (W3 t V2)).
Qed.
Lemma no_return os os1 os2 t s : get_server (lrun os) t = Some s -> get_server (lrun (os ++ os1)) t <> Some s ->
  get_server (lrun (os ++ os1 ++ os2)) t <> Some s.
Proof.
  intros A B C. destruct (replaced os os1 t s A B) as (v & V1 & V2). destruct (server_later _ os2 s v V1) as (v' & W1 & _ & _ & W).
  rewrite app_assoc in C. destruct (i_at _ _ (run_inv _) t s C) as (v0 & U1 & _ & U2). unfold server_is in W1. rewrite W1 in U1. injection U1 as <-.
  rewrite (W V2) in U2. discriminate.
Qed.

(** * A client keeps its thread and its poller *)
Definition kept (k k' : client) : Prop := c_thread k' = c_thread k /\ c_reent k' = c_reent k /\ c_server k' = c_server k /\ (forall p, c_poll k = Some p -> c_poll k' = Some p).
Lemma kept_refl k : kept k k.
Proof. repeat split; auto. Qed.
Lemma kept_trans a b c : kept a b -> kept b c -> kept a c.
Proof. intros (A & B & C & D) (A' & B' & C' & D'). repeat split; try congruence. intros p E. auto. Qed.
Definition keeps (k0 : client) (cs : list client) (c : nat) : Prop := exists k, nth_error cs c = Some k /\ kept k0 k.
Lemma keeps_gp k0 st c x : keeps k0 (l_clients st) x -> keeps k0 (l_clients (fst (get_poller st c))) x.
Proof.
  intros (k & A & B). unfold get_poller. destruct (nth_error (l_clients st) c) as [w|] eqn:E; [|exists k; auto].
  destruct (negb (c_reent w)); [exists k; auto|]. destruct (c_poll w) eqn:P; [exists k; auto|]. destruct (get_server st (c_thread w)); [|exists k; auto].
  cbn [fst set_client l_clients]. destruct (Nat.eq_dec c x) as [->|N].
  - rewrite A in E. injection E as <-. eexists. split; [eapply nset_same; eauto|]. eapply kept_trans; [exact B|]. repeat split; cbn; auto. intros p X. congruence.
  - exists k. rewrite nset_other by auto. auto.
Qed.
Lemma keeps_closes k0 st s x : keeps k0 (l_clients st) x -> keeps k0 (l_clients (closes st s)) x.
Proof.
  intros (k & A & B). unfold closes. destruct (nth_error (l_servers st) s) as [w|] eqn:E; [|exists k; auto]. cbn [l_clients].
  eexists. split; [apply nth_map'; exact A|]. cbn beta. destruct (Nat.eqb (c_server k) s); [|exact B]. eapply kept_trans; [exact B|]. repeat split; auto.
Qed.
Lemma keeps_register k0 st t s x : keeps k0 (l_clients st) x -> keeps k0 (l_clients (fst (register st t s))) x.
Proof. intros K. unfold register. destruct (nth_error (l_servers st) s) as [v|]; [|exact K]. destruct (v_thread v); [exact K|]. destruct (get_server st t); exact K. Qed.
Lemma keeps_new k0 st t s r x : keeps k0 (l_clients st) x -> keeps k0 (l_clients (fst (new_client st t s r))) x.
Proof.
  intros (k & A & B). unfold new_client. destruct (dget (l_keys st) (t, s)); [exists k; auto|].
  assert (K : keeps k0 (l_clients st ++ [mkCl t s r None false]) x) by (exists k; rewrite nth_error_app1; [auto|eapply nth_lt; eauto]).
  destruct (nth_error (l_servers st) s) as [v|]; [|exists k; auto].
  destruct (negb (sock_open v)); [exact K|]. destruct (attended _ _ _ _); cbn [fst l_clients]; apply keeps_gp; exact K.
Qed.
Lemma keeps_get k0 st t s x : keeps k0 (l_clients st) x -> keeps k0 (l_clients (fst (get_client st t s))) x.
Proof. intros K. unfold get_client. destruct (dget (l_keys st) (t, s)); [exact K|]. apply keeps_new. exact K. Qed.
Lemma keeps_step k0 st o x : keeps k0 (l_clients st) x -> keeps k0 (l_clients (fst (lstep st o))) x.
Proof.
  intros K. destruct o; cbn [lstep].
  - exact K.
  - apply keeps_register. exact K.
  - pose proof (keeps_register k0 st t s x K) as K1. destruct (register st t s) as [st1 [u|e]]; cbn [fst] in *; [|exact K1].
    destruct (nth_error (l_servers st1) s) as [v|]; [|exact K1]. cbn [fst]. destruct (v_asked v && negb (v_closed v)); [apply keeps_closes|]; exact K1.
  - pose proof (keeps_new k0 st t s reent x K) as K1. destruct (new_client st t s reent) as [st1 y]. exact K1.
  - unfold wait_turn. pose proof (keeps_gp k0 st c x K) as K1. destruct (get_poller st c) as [st1 p]. cbn [fst] in *.
    repeat match goal with |- context [match ?x with _ => _ end] => destruct x end; exact K1.
  - unfold close. pose proof (keeps_get k0 st t s x K) as K1. destruct (get_client st t s) as [st1 [c|e]]; cbn [fst] in *; [|exact K1].
    destruct (nth_error (l_clients st1) c) as [k|]; [|exact K1]. destruct (c_disc k); [exact K1|]. pose proof (keeps_gp k0 st1 c x K1) as K2.
    destruct (attended st1 t c s).
    + destruct (match nth_error (l_servers st1) s with Some v => v_closed v | None => false end); [exact K2|]. apply keeps_closes. exact K2.
    + cbn [fst]. destruct (nth_error (l_servers (fst (get_poller st1 c))) s); exact K2.
Qed.
Lemma client_later os os' c k : client_is (lrun os) c k -> exists k', client_is (lrun (os ++ os')) c k' /\ kept k k'.
Proof.
  intros E. assert (K : keeps k (l_clients (lrun os)) c) by (exists k; split; [exact E|apply kept_refl]). clear E. change (keeps k (l_clients (lrun (os ++ os'))) c).
  induction os' as [|o os' IH] using rev_ind; [rewrite app_nil_r; exact K|]. rewrite app_assoc, lrun_snoc. apply keeps_step. exact IH.
Qed.

(** * The statements *)
Lemma wait_served os c k s : client_is (lrun os) c k -> c_reent k = true -> get_server (lrun os) (c_thread k) = Some s ->
  (forall s', had os (c_thread k) s' -> s' = s) ->
  l_served (fst (lstep (lrun os) (LWait c s))) = l_served (lrun os) ++ [(c, s)].
Proof.
  intros C R G Only. pose proof (run_inv os) as I. set (st := lrun os) in *. unfold client_is in C.
  destruct (i_at _ _ I _ _ G) as (v & V1 & V2 & V3). cbn [lstep fst]. unfold wait_turn, get_poller. rewrite C, R. cbn [negb].
  destruct (c_poll k) as [p|] eqn:P.
  - rewrite C, V1. destruct (i_poll _ _ I c k p C P) as (s0 & A & B). apply Only in A. subst s0.
    destruct B as (v' & B1 & B2). rewrite V1 in B1. injection B1 as <-. destruct p as [|s'].
    + destruct (v_kind v); [contradiction|reflexivity].
    + destruct B2 as (-> & _). rewrite Nat.eqb_refl, G, Nat.eqb_refl. reflexivity.
  - rewrite G, V1. cbn [set_client l_clients l_servers l_at l_served]. rewrite (nset_same _ _ _ _ C), V1.
    destruct (v_kind v); [|reflexivity]. rewrite Nat.eqb_refl. cbn [c_thread]. unfold get_server in *. cbn [set_client l_at]. rewrite G, Nat.eqb_refl. reflexivity.
Qed.
Lemma wait_sets os c k s x : client_is (lrun os) c k -> c_reent k = true -> get_server (lrun os) (c_thread k) = Some s ->
  exists k' p, client_is (lrun (os ++ [LWait c x])) c k' /\ kept k k' /\ c_poll k' = Some p /\ l_at (lrun (os ++ [LWait c x])) = l_at (lrun os).
Proof.
  intros C R G. rewrite lrun_snoc. cbn [lstep fst]. set (st := lrun os) in *. unfold client_is in *.
  assert (exists k' p, nth_error (l_clients (fst (get_poller st c))) c = Some k' /\ kept k k' /\ c_poll k' = Some p /\ l_at (fst (get_poller st c)) = l_at st) as (k' & p & A & B & D & E).
  { unfold get_poller. rewrite C, R. cbn [negb]. destruct (c_poll k) as [p|] eqn:P.
    - exists k, p. cbn. repeat split; auto.
    - rewrite G. cbn [fst set_client l_clients l_at]. do 2 eexists. split; [eapply nset_same; eauto|]. split; [|split; reflexivity]. repeat split; auto. intros p0 X. congruence. }
  exists k', p. unfold wait_turn. destruct (get_poller st c) as [st1 q]. cbn [fst] in *.
  assert (F : l_clients st1 = l_clients st1 /\ l_at st1 = l_at st1) by auto.
  match goal with |- context [l_clients ?y] => assert (l_clients y = l_clients st1 /\ l_at y = l_at st1) as [-> ->] end; [|auto].
  repeat match goal with |- context [match ?x with _ => _ end] => destruct x end; exact F.
Qed.
Lemma wait_replaced os1 x os2 c k s1 s2 v2 : client_is (lrun os1) c k -> c_reent k = true -> get_server (lrun os1) (c_thread k) = Some s1 ->
  get_server (lrun (os1 ++ LWait c x :: os2)) (c_thread k) = Some s2 -> s2 <> s1 -> server_is (lrun (os1 ++ LWait c x :: os2)) s2 v2 -> v_kind v2 = Plain ->
  l_served (fst (lstep (lrun (os1 ++ LWait c x :: os2)) (LWait c s2))) = l_served (lrun (os1 ++ LWait c x :: os2)).
Proof.
  intros C R G1 G2 N V K. destruct (wait_sets os1 c k s1 x C R G1) as (k1 & p & A & B & P & L).
  assert (E : os1 ++ LWait c x :: os2 = (os1 ++ [LWait c x]) ++ os2) by (rewrite <- app_assoc; reflexivity). rewrite E in *.
  destruct (client_later _ os2 c k1 A) as (k2 & A2 & B2). destruct B as (T1 & R1 & _ & _). destruct B2 as (T2 & R2 & _ & P2). specialize (P2 p P).
  destruct (i_poll _ _ (run_inv (os1 ++ [LWait c x])) c k1 p A P) as (s0 & (oa & ob & Eab & Ga) & W). rewrite T1 in Ga.
  assert (N0 : s0 <> s2).
  { intros ->. destruct ob as [|o ob] using rev_ind.
    - rewrite app_nil_r in Eab. subst oa. unfold get_server in Ga, G1. rewrite L in Ga. congruence.
    - clear IHob. rewrite app_assoc in Eab. apply app_inj_tail in Eab. destruct Eab as [-> _].
      refine (no_return oa ob (LWait c x :: os2) _ s2 Ga _ _); [congruence|]. rewrite <- G2. rewrite <- !app_assoc. reflexivity. }
  cbn [lstep fst]. unfold wait_turn, get_poller. unfold client_is, server_is in *. rewrite A2, R2, R1, R, P2. cbn [negb]. rewrite A2, V, K.
  destruct p as [|s']; [reflexivity|]. destruct W as (w & _ & -> & _). destruct (Nat.eqb s0 s2) eqn:Q; [apply Nat.eqb_eq in Q; contradiction|reflexivity].
Qed.

(** who gets a client *)
Lemma get_cases os t s st1 x : get_client (lrun os) t s = (st1, x) ->
  l_servers st1 = l_servers (lrun os) /\ l_at st1 = l_at (lrun os) /\ Inv (had os) st1 /\
  forall c, x = Ok c -> exists k, nth_error (l_clients st1) c = Some k /\ c_server k = s /\ c_thread k = t.
Proof.
  intros E. destruct (get_client_inv (had os) (lrun os) t s (fun t s => had_now os t s) (run_inv os)) as (I & A & B & _). rewrite E in *. cbn [fst] in *.
  split; [exact A|]. split; [exact B|]. split; [exact I|]. intros c ->. unfold get_client in E. destruct (dget (l_keys (lrun os)) (t, s)) as [c'|] eqn:D.
  - injection E as <- <-. destruct (i_key _ _ (run_inv os) t s c' D) as (k & v & X1 & X2 & X3 & _). eauto.
  - apply new_client_ok in E. destruct E as (k & X1 & X2 & X3 & X4 & _). eauto.
Qed.
Lemma close_ok os t s : snd (lstep (lrun os) (LClose t s)) = Ok tt -> is_closed (fst (lstep (lrun os) (LClose t s))) s.
Proof.
  cbn [lstep]. unfold close. destruct (get_client (lrun os) t s) as [st1 [c|e]] eqn:G; [|discriminate].
  destruct (get_cases _ _ _ _ _ G) as (_ & _ & I & X). destruct (X c eq_refl) as (k & K1 & K2 & K3). rewrite K1.
  destruct (c_disc k) eqn:D.
  - intros _. cbn [fst]. destruct (i_disc _ _ I c k K1 D) as (v & V1 & V2). rewrite K2 in V1. exists v. split; assumption.
  - destruct (attended st1 t c s) eqn:A; [|discriminate]. destruct (attended_yes _ _ _ _ A) as (v & t' & V1 & _). rewrite V1.
    destruct (v_closed v); [discriminate|]. intros _. cbn [fst]. unfold closes. destruct (gp_frame st1 c) as (F & _). rewrite F, V1.
    eexists. split; [unfold server_is; cbn [l_servers]; eapply nset_same; eauto|reflexivity].
Qed.

Lemma attended_other st t c s v t' : nth_error (l_servers st) s = Some v -> v_closed v = false -> v_loop v = true -> v_thread v = Some t' -> t' <> t -> attended st t c s = true.
Proof.
  intros V C L T N. unfold attended. rewrite V. unfold sock_open. rewrite C, T. destruct (Nat.eqb t' t) eqn:E; [apply Nat.eqb_eq in E; contradiction|].
  rewrite L. destruct (v_kind v); reflexivity.
Qed.
Lemma attended_own st t c s v k : nth_error (l_servers st) s = Some v -> v_closed v = false -> v_thread v = Some t -> get_server st t = Some s ->
  nth_error (l_clients st) c = Some k -> c_thread k = t -> c_reent k = true -> (forall p, c_poll k = Some p -> watches st p s) -> attended st t c s = true.
Proof.
  intros V C T G K Kt Kr W. unfold attended. rewrite V. unfold sock_open. rewrite C, T, Nat.eqb_refl. unfold get_poller. rewrite K, Kr, Kt. cbn [negb].
  destruct (c_poll k) as [p|] eqn:P; cbn [snd].
  - destruct (W p eq_refl) as (w & W1 & W2). rewrite V in W1. injection W1 as <-. destruct p as [|s'].
    + destruct (v_kind v); [contradiction|reflexivity].
    + destruct W2 as [-> ->]. rewrite Nat.eqb_refl. reflexivity.
  - rewrite G, V. cbn [snd]. destruct (v_kind v); [|reflexivity]. rewrite Nat.eqb_refl. reflexivity.
Qed.
Lemma attended_when os t s v st1 c k : attainable os t s -> server_is (lrun os) s v -> v_closed v = false -> l_servers st1 = l_servers (lrun os) -> l_at st1 = l_at (lrun os) ->
  nth_error (l_clients st1) c = Some k -> c_thread k = t -> (v_thread v = Some t -> c_reent k = true) ->
  (forall p, c_poll k = Some p -> exists s, had os t s /\ watches st1 p s) -> attended st1 t c s = true.
Proof.
  intros [(t' & (w & W1 & W2 & W3) & N)|[G Only]] V C Sv At K Kt R P; unfold server_is in *.
  - rewrite V in W1. injection W1 as <-. apply (attended_other _ _ _ _ v t'); auto. rewrite Sv. exact V.
  - destruct (i_at _ _ (run_inv os) t s G) as (w & W1 & W2 & _). rewrite V in W1. injection W1 as <-.
    apply (attended_own _ _ _ _ v k); auto.
    + rewrite Sv. exact V.
    + unfold get_server. rewrite At. exact G.
    + intros p X. destruct (P p X) as (s0 & X1 & X2). apply Only in X1. subst. exact X2.
Qed.
Lemma get_works os t s v : attainable os t s -> server_is (lrun os) s v -> v_closed v = false ->
  exists st1 c k, get_client (lrun os) t s = (st1, Ok c) /\ nth_error (l_clients st1) c = Some k /\ c_disc k = false /\ c_thread k = t /\
    (v_thread v = Some t -> c_reent k = true).
Proof.
  intros A V C. unfold get_client. destruct (dget (l_keys (lrun os)) (t, s)) as [c|] eqn:D.
  - destruct (i_key _ _ (run_inv os) t s c D) as (k & w & X1 & X2 & X3 & X4 & X5 & X6). exists (lrun os), c, k. unfold server_is in V. rewrite V in X4. injection X4 as <-.
    repeat split; auto. destruct (c_disc k) eqn:Z; [|reflexivity]. destruct (i_disc _ _ (run_inv os) c k X1 Z) as (u & U1 & U2). rewrite X3, V in U1. injection U1 as <-. congruence.
  - unfold new_client. rewrite D. unfold server_is in V. rewrite V.
    assert (S : sock_open v = true) by (unfold sock_open; rewrite C; destruct (v_kind v); reflexivity). rewrite S. cbn [negb].
    match goal with |- context [attended ?x t ?y s] => set (st2 := x); set (c := y) end.
    assert (K : nth_error (l_clients st2) c = Some (mkCl t s true None false)).
    { unfold st2, c. cbn [l_clients]. rewrite nth_error_app2 by lia. rewrite Nat.sub_diag. reflexivity. }
    rewrite (attended_when os t s v st2 c _ A V C eq_refl eq_refl K eq_refl (fun _ => eq_refl)); [|cbn; discriminate].
    destruct (gp_client st2 c c _ K) as (k & K1 & K2 & K3 & K4 & K5). exists (fst (get_poller st2 c)), c, k. cbn in *. auto 6.
Qed.
Lemma close_works os t s : is_open (lrun os) s -> attainable os t s ->
  snd (lstep (lrun os) (LClose t s)) = Ok tt /\ is_closed (fst (lstep (lrun os) (LClose t s))) s.
Proof.
  intros (v & V & C) A. enough (E : snd (lstep (lrun os) (LClose t s)) = Ok tt) by (split; [exact E|apply close_ok; exact E]).
  destruct (get_works os t s v A V C) as (st1 & c & k & G & K1 & K2 & K3 & K4). cbn [lstep]. unfold close. rewrite G, K1, K2.
  destruct (get_cases _ _ _ _ _ G) as (Sv & At & I & _).
  rewrite (attended_when os t s v st1 c k A V C Sv At K1 K3 K4).
  - unfold server_is in V. rewrite Sv, V, C. reflexivity.
  - intros p P. destruct (i_poll _ _ I c k p K1 P) as (s0 & X1 & X2). rewrite K3 in X1. eauto.
Qed.
Lemma no_key os t s : (exists v, server_is (lrun os) s v /\ v_thread v = None) \/ no_client (lrun os) t s -> dget (l_keys (lrun os)) (t, s) = None.
Proof.
  intros X. destruct (dget (l_keys (lrun os)) (t, s)) as [c|] eqn:D; [|reflexivity]. exfalso.
  destruct (i_key _ _ (run_inv os) t s c D) as (k & w & X1 & X2 & X3 & X4 & X5 & X6). destruct X as [(v & V & N)|N].
  - unfold server_is in V. congruence.
  - apply (N c k X1). auto.
Qed.
Lemma close_never_run os t s v : server_is (lrun os) s v -> v_thread v = None ->
  snd (lstep (lrun os) (LClose t s)) = Err TimeoutError /\ is_open (fst (lstep (lrun os) (LClose t s))) s.
Proof.
  intros V N. destruct (i_new _ _ (run_inv os) s v V N) as (C & _). cbn [lstep]. unfold close, get_client, new_client.
  rewrite (no_key os t s) by (left; eauto). unfold server_is in V. rewrite V.
  assert (S : sock_open v = true) by (unfold sock_open; rewrite C; destruct (v_kind v); reflexivity). rewrite S. cbn [negb].
  match goal with |- context [attended ?x t ?y s] => set (st2 := x); set (c := y) end.
  assert (A : attended st2 t c s = false) by (unfold attended, st2; cbn [l_servers]; rewrite V, S, N; reflexivity). rewrite A. cbn.
  split; [reflexivity|]. exists v. auto.
Qed.
Lemma close_again os t s v : server_is (lrun os) s v -> v_closed v = true -> v_kind v = Plain -> no_client (lrun os) t s ->
  snd (lstep (lrun os) (LClose t s)) = Err ConnectionRefusedError.
Proof.
  intros V C K N. cbn [lstep]. unfold close, get_client, new_client. rewrite (no_key os t s) by (right; exact N). unfold server_is in V. rewrite V.
  unfold sock_open. rewrite K, C. reflexivity.
Qed.
