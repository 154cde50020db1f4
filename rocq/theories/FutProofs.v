(** Lemmas about futures. *)
From Verif Require Import Py ObjTableModel SerModel FrameModel ServerModel ClientModel WireSpec RpcSpec ClientProofs FutModel FutSpec.
Local Open Scope nat_scope.

Lemma called_app r c a b : called r c (a ++ b) = called r c a + called r c b.
Proof. unfold called. now rewrite filter_app, app_length. Qed.
Lemma added_app r c a b : added r c (a ++ b) = added r c a + added r c b.
Proof. unfold added. now rewrite filter_app, app_length. Qed.

Definition waits (r : Z) (c : nat) (l : list (Z * nat)) : nat :=
  List.length (filter (fun w => Z.eqb (fst w) r && Nat.eqb (snd w) c)%bool l).
Lemma waits_app r c a b : waits r c (a ++ b) = waits r c a + waits r c b.
Proof. unfold waits. now rewrite filter_app, app_length. Qed.

Lemma added_calls k r c l : added r c (calls k l) = 0.
Proof. induction l as [|[r' c'] l IH]; [reflexivity|]. cbn. destruct (dget (c_done k) r'); cbn; exact IH. Qed.
Lemma calls_split k r c l :
  called r c (calls k l) + waits r c (filter (fun w => negb (ready k w)) l) = waits r c l.
Proof.
  induction l as [|[r' c'] l IH]; [reflexivity|].
  cbn [calls flat_map]. fold (calls k l). rewrite called_app.
  cbn [filter]. unfold ready at 1. cbn [fst].
  unfold waits in *. destruct (dget (c_done k) r') eqn:D; cbn [negb filter fst snd].
  - unfold called at 1. cbn [filter is_call]. destruct (Z.eqb r' r && Nat.eqb c' c)%bool; cbn [List.length]; lia.
  - unfold called at 1. cbn [filter List.length]. destruct (Z.eqb r' r && Nat.eqb c' c)%bool; cbn [List.length]; lia.
Qed.
Lemma calls_in k r c o l : In (FCalled r c o) (calls k l) -> dget (c_done k) r = Some o.
Proof.
  intro I. apply in_flat_map in I. destruct I as ([r' c'] & _ & I). destruct (dget (c_done k) r') eqn:D; [|destruct I].
  destruct I as [[= <- <- <-]|[]]. exact D.
Qed.
Lemma waits_none r c l : (forall x, In x l -> fst x <> r) -> waits r c l = 0.
Proof.
  intro H. unfold waits. induction l as [|w l IH]; [reflexivity|]. cbn.
  destruct (Z.eqb_spec (fst w) r) as [E|E]; [exfalso; apply (H w); [left; reflexivity|exact E]|].
  cbn. apply IH. intros x Hx. apply H. right. exact Hx.
Qed.
Lemma waits_in r c l : waits r c l <> 0 -> exists x, In x l /\ fst x = r.
Proof.
  unfold waits. induction l as [|w l IH]; [intro H; contradiction|]. cbn.
  destruct (Z.eqb_spec (fst w) r) as [E|E]; [exists w; split; [left; reflexivity|exact E]|].
  cbn. intro H. destruct (IH H) as (x & I & E'). exists x. split; [right; exact I|exact E'].
Qed.
Lemma waits_forget r c l : waits r c (forget l r) = 0.
Proof.
  apply waits_none. intros x I. apply filter_In in I. destruct I as (_ & B). apply Bool.negb_true_iff, Z.eqb_neq in B. exact B.
Qed.
Lemma waits_forget_other r c l r' : r <> r' -> waits r c (forget l r') = waits r c l.
Proof.
  intro N. unfold waits, forget. induction l as [|w l IH]; [reflexivity|]. cbn.
  destruct (Z.eqb_spec (fst w) r') as [E|E]; cbn.
  - destruct (Z.eqb_spec (fst w) r) as [E2|E2]; [congruence|exact IH].
  - destruct (Z.eqb (fst w) r && Nat.eqb (snd w) c)%bool; cbn; now rewrite IH.
Qed.

Section F.
  Variable V : venv.
  Definition mentions_below (n : Z) (e : fev) : Prop := match e with FAdded r _ | FCalled r _ _ | FDropped r => (0 <= r < n)%Z end.
  Record inv (s : futst) : Prop := {
    i_ok : futures_ok (f_cl s);
    i_held : forall r, In r (f_held s) -> (0 <= r < c_next (f_cl s))%Z;
    i_ev : forall e, In e (f_log s) -> mentions_below (c_next (f_cl s)) e;
    i_wait : forall w, In w (f_wait s) -> In (fst w) (f_held s) /\ dget (c_done (f_cl s)) (fst w) = None;
    i_call : forall r c o, In (FCalled r c o) (f_log s) -> dget (c_done (f_cl s)) r = Some o;
    i_count : forall r c, (In r (f_held s) -> called r c (f_log s) + waits r c (f_wait s) = added r c (f_log s)) /\
                          called r c (f_log s) <= added r c (f_log s)
  }.
  Lemma inv0 ser local st : inv (f0 ser local st).
  Proof. constructor; cbn; try (intros; contradiction); [apply new_ok|]. intros; split; [intros []|lia]. Qed.

  Lemma below_le n m e : (n <= m)%Z -> mentions_below n e -> mentions_below m e.
  Proof. destruct e; cbn; lia. Qed.
  Lemma fresh_counts s r c : inv s -> ~ (0 <= r < c_next (f_cl s))%Z -> called r c (f_log s) = 0 /\ added r c (f_log s) = 0 /\ waits r c (f_wait s) = 0.
  Proof.
    intros I N. destruct I as [_ Hh He Hw _ _]. split; [|split].
    - unfold called. destruct (filter (is_call r c) (f_log s)) as [|e l] eqn:E; [reflexivity|exfalso].
      assert (J : In e (filter (is_call r c) (f_log s))) by (rewrite E; left; reflexivity).
      apply filter_In in J. destruct J as (J & B). apply He in J. destruct e; try discriminate. cbn in *.
      apply andb_prop in B. destruct B as (B & _). apply Z.eqb_eq in B. subst. contradiction.
    - unfold added. destruct (filter (is_add r c) (f_log s)) as [|e l] eqn:E; [reflexivity|exfalso].
      assert (J : In e (filter (is_add r c) (f_log s))) by (rewrite E; left; reflexivity).
      apply filter_In in J. destruct J as (J & B). apply He in J. destruct e; try discriminate. cbn in *.
      apply andb_prop in B. destruct B as (B & _). apply Z.eqb_eq in B. subst. contradiction.
    - apply waits_none. intros x Ix E. apply Hw in Ix. destruct Ix as (Ix & _). apply Hh in Ix. subst. contradiction.
  Qed.

  Lemma recv_next k p k' x : client_recv V k p = (k', x) -> c_next k' = c_next k.
  Proof.
    unfold client_recv. destruct (loads _ _ _ _ _) as [m|]; [|intros [= <- _]; reflexivity].
    assert (CN : forall c rid b o, c_next (complete c rid b o) = c_next c).
    { intros. unfold complete. destruct b; [|reflexivity]. destruct o as [[]|]; try reflexivity. destruct b; reflexivity. }
    unfold process_msg. destruct m; try (intros [= <- _]; reflexivity).
    destruct (field d "action") as [a|]; [|intros [= <- _]; reflexivity].
    destruct a; try (intros [= <- _]; reflexivity).
    destruct (String.eqb s "return").
    - destruct (field d "req_id") as [q|]; [|intros [= <- _]; reflexivity].
      destruct q; try (intros [= <- _]; reflexivity).
      destruct (dget (c_futs k) z) as [b|]; [|intros [= <- _]; reflexivity].
      destruct (field d "error") as [er|]; [|intros [= <- _]; reflexivity].
      destruct er; try (destruct (remote_exc _); intros [= <- _]; rewrite ?CN; reflexivity).
      destruct (field d "rval"); intros [= <- _]; rewrite ?CN; reflexivity.
    - destruct (String.eqb s "disconnect"); intros [= <- _]; reflexivity.
  Qed.

  Lemma send_async_facts k a v rt k' om r : futures_ok k -> send V k a v rt Async = (k', om, r) ->
    (c_next k <= c_next k')%Z /\ c_done k' = c_done k /\
    (forall rid, r = Ok (Some rid) -> rid = c_next k /\ c_next k' = (c_next k + 1)%Z).
  Proof.
    intros _ S. destruct (send_cases _ _ _ _ _ _ _ _ _ S) as ((A1 & A2 & A3 & A4 & A5) & H).
    unfold send in S. destruct (c_disc k); [injection S as <- <- <-; split; [lia|split; [reflexivity|discriminate]]|].
    destruct v as [v|].
    - cbn [set_next c_ser c_local c_st] in S. destruct (dumps V _ _ _ v) as [st' [p|e]].
      + cbn [set_cst set_next c_open] in S. destruct (c_open k); injection S as <- <- <-; cbn; (split; [lia|]; split; [reflexivity|]);
          [intros rid [= <-]; split; reflexivity|discriminate].
      + injection S as <- <- <-. cbn. split; [lia|]. split; [reflexivity|discriminate].
    - cbn [set_next c_open] in S. destruct (c_open k); injection S as <- <- <-; cbn; (split; [lia|]; split; [reflexivity|]);
          [intros rid [= <-]; split; reflexivity|discriminate].
  Qed.

  Lemma inv_step s o : inv s -> inv (fstep V s o).
  Proof.
    intro I. pose proof I as [Ok Hh He Hw Hc Hn]. destruct o as [a v rt|p| |rid cb|rid]; cbn [fstep].
    - destruct (send V (f_cl s) a v rt Async) as [[k om] r] eqn:S.
      destruct (ok_send V _ _ _ _ _ _ _ _ Ok S) as (Ok' & _).
      destruct (send_async_facts _ _ _ _ _ _ _ Ok S) as (L & D & R).
      assert (Hh' : forall x, In x (match r with Ok (Some rid) => f_held s ++ [rid] | _ => f_held s end)%list ->
                 In x (f_held s) \/ (x = c_next (f_cl s) /\ c_next k = (c_next (f_cl s) + 1)%Z)).
      { intros x J. destruct r as [[rid|]|]; auto. apply in_app_or in J. destruct J as [J|[<-|[]]]; auto. }
      assert (Hh2 : forall x, In x (f_held s) -> In x (match r with Ok (Some rid) => f_held s ++ [rid] | _ => f_held s end)%list).
      { intros x J. destruct r as [[rid|]|]; auto. apply in_or_app. auto. }
      constructor; cbn [f_cl f_in f_held f_wait f_log].
      + exact Ok'.
      + intros x J. apply Hh' in J. pose proof (fo_next _ Ok). destruct J as [J|(-> & E)]; [apply Hh in J|]; lia.
      + intros e J. apply He in J. eapply below_le; eauto.
      + intros w J. rewrite D. destruct (Hw w J) as (A & B). split; [apply Hh2; exact A|exact B].
      + intros. rewrite D. eauto.
      + intros x c. split; [|apply Hn]. intro J. apply Hh' in J. destruct J as [J|(-> & _)]; [apply Hn; exact J|].
        destruct (fresh_counts s (c_next (f_cl s)) c I) as (A & B & C); [lia|]. lia.
    - constructor; cbn; auto.
    - destruct (f_in s) as [|p rest]; [exact I|]. destruct (client_recv V (f_cl s) p) as [k x] eqn:R. cbn [fst].
      destruct (ok_recv V _ _ _ _ Ok R) as (Ok' & K). pose proof (recv_next _ _ _ _ R) as Nx.
      constructor; cbn [f_cl f_in f_held f_wait f_log].
      + exact Ok'.
      + intros r J. rewrite Nx. apply Hh. exact J.
      + intros e J. rewrite Nx. apply in_app_or in J. destruct J as [J|J]; [apply He; exact J|].
        apply in_flat_map in J. destruct J as ([r c] & J1 & J2). destruct (dget (c_done k) r); [|destruct J2].
        destruct J2 as [<-|[]]. cbn. apply Hh. destruct (Hw _ J1) as (A & _). exact A.
      + intros w J. apply filter_In in J. destruct J as (J & B). destruct (Hw w J) as (A & _). split; [exact A|].
        unfold ready in B. destruct (dget (c_done k) (fst w)); [discriminate|reflexivity].
      + intros r c o J. apply in_app_or in J. destruct J as [J|J]; [apply K; eauto|]. eapply calls_in; eauto.
      + intros r c. rewrite called_app, added_app, added_calls. pose proof (calls_split k r c (f_wait s)) as CS.
        destruct (Hn r c) as (A & B). split.
        * intro J. specialize (A J). lia.
        * destruct (called r c (calls k (f_wait s))) eqn:E; [lia|].
          assert (W : waits r c (f_wait s) <> 0) by lia. destruct (waits_in _ _ _ W) as (w & Iw & Ew).
          destruct (Hw w Iw) as (Hd & _). rewrite Ew in Hd. specialize (A Hd). lia.
    - destruct (smem rid (f_held s)) eqn:M; [|exact I]. apply smem_In in M.
      destruct (dget (c_done (f_cl s)) rid) as [o|] eqn:D; constructor; cbn [f_cl f_in f_held f_wait f_log]; auto.
      + intros e J. apply in_app_or in J. destruct J as [J|[<-|[<-|[]]]]; [auto|exact (Hh _ M)|exact (Hh _ M)].
      + intros r c o' J. apply in_app_or in J. destruct J as [J|[J|[J|[]]]]; [eauto|discriminate|]. injection J as <- <- <-. exact D.
      + intros r c. rewrite called_app, added_app. destruct (Hn r c) as (A & B).
        assert (E : called r c [FAdded rid cb; FCalled rid cb o] = added r c [FAdded rid cb; FCalled rid cb o]).
        { unfold called, added. cbn. destruct (Z.eqb rid r && Nat.eqb cb c)%bool; reflexivity. }
        rewrite E. split; [intro J; specialize (A J)|]; lia.
      + intros e J. apply in_app_or in J. destruct J as [J|[<-|[]]]; [auto|exact (Hh _ M)].
      + intros w J. apply in_app_or in J. destruct J as [J|[<-|[]]]; [auto|]. cbn. auto.
      + intros r c o' J. apply in_app_or in J. destruct J as [J|[J|[]]]; [eauto|discriminate].
      + intros r c. rewrite called_app, added_app, waits_app. destruct (Hn r c) as (A & B).
        assert (E : called r c [FAdded rid cb] = 0) by reflexivity.
        assert (E2 : waits r c [(rid, cb)] = added r c [FAdded rid cb]).
        { unfold waits, added. cbn. destruct (Z.eqb rid r && Nat.eqb cb c)%bool; reflexivity. }
        rewrite E, E2. split; [intro J; specialize (A J)|]; lia.
    - destruct (smem rid (f_held s)) eqn:M; [|exact I]. apply smem_In in M.
      destruct (ok_drop (f_cl s) rid Ok) as (Ok' & _).
      constructor; cbn [f_cl f_in f_held f_wait f_log]; auto.
      + intros r J. apply filter_In in J. destruct J as (J & _). exact (Hh r J).
      + intros e J. apply in_app_or in J. destruct J as [J|[<-|[]]]; [exact (He e J)|exact (Hh _ M)].
      + intros w J. apply filter_In in J. destruct J as (J & B). destruct (Hw w J) as (A & D). split; [|exact D].
        apply filter_In. split; [exact A|exact B].
      + intros r c o J. apply in_app_or in J. destruct J as [J|[J|[]]]; [exact (Hc r c o J)|discriminate].
      + intros r c. rewrite called_app, added_app. destruct (Hn r c) as (A & B).
        assert (E : called r c [FDropped rid] = 0) by reflexivity. assert (E2 : added r c [FDropped rid] = 0) by reflexivity.
        rewrite E, E2. split; [|lia]. intro J. apply filter_In in J. destruct J as (J & N).
        apply Bool.negb_true_iff, Z.eqb_neq in N. rewrite waits_forget_other by congruence. specialize (A J). lia.
  Qed.
  Lemma inv_run os : forall s, inv s -> inv (frun V s os).
  Proof. induction os as [|o os IH]; intros s I; [exact I|]. cbn. apply IH, inv_step, I. Qed.

  Lemma at_most ser local st os r c : let l := f_log (frun V (f0 ser local st) os) in called r c l <= added r c l.
  Proof. cbv zeta. apply i_count. apply inv_run, inv0. Qed.
  Lemma called_outcome ser local st os r c o : let s := frun V (f0 ser local st) os in
    In (FCalled r c o) (f_log s) -> finished (f_cl s) r o.
  Proof. cbv zeta. apply i_call. apply inv_run, inv0. Qed.
  Lemma exactly ser local st os r c : let s := frun V (f0 ser local st) os in
    In r (f_held s) -> forall o, finished (f_cl s) r o -> called r c (f_log s) = added r c (f_log s).
  Proof.
    cbv zeta. set (s := frun V _ os). intros H o F. assert (I : inv s) by (apply inv_run, inv0).
    destruct (i_count _ I r c) as (A & _). specialize (A H).
    rewrite waits_none in A; [lia|]. intros x J E. apply (i_wait _ I) in J. destruct J as (_ & D). subst. unfold finished in F. congruence.
  Qed.

  (** given up *)
  Definition gone (r : Z) (l0 : list fev) (s : futst) : Prop :=
    ~ In r (f_held s) /\ (0 <= r < c_next (f_cl s))%Z /\ (forall w, In w (f_wait s) -> fst w <> r) /\
    (forall c o, In (FCalled r c o) (f_log s) -> In (FCalled r c o) l0) /\ futures_ok (f_cl s).
  Lemma gone_step r l0 s o : gone r l0 s -> gone r l0 (fstep V s o).
  Proof.
    intros (G1 & G2 & G3 & G4 & Ok). destruct o as [a v rt|p| |rid cb|rid]; cbn [fstep].
    - destruct (send V (f_cl s) a v rt Async) as [[k om] x] eqn:S.
      destruct (ok_send V _ _ _ _ _ _ _ _ Ok S) as (Ok' & _). destruct (send_async_facts _ _ _ _ _ _ _ Ok S) as (L & D & R).
      split; [|split; [|split; [|split]]]; cbn [f_cl f_in f_held f_wait f_log]; auto; [|lia].
      intro J. destruct x as [[rid|]|]; auto. apply in_app_or in J. destruct J as [J|[<-|[]]]; auto.
      destruct (R rid eq_refl) as (E & _). lia.
    - exact (conj G1 (conj G2 (conj G3 (conj G4 Ok)))).
    - destruct (f_in s) as [|p rest]; [exact (conj G1 (conj G2 (conj G3 (conj G4 Ok))))|]. destruct (client_recv V (f_cl s) p) as [k x] eqn:R. cbn [fst].
      destruct (ok_recv V _ _ _ _ Ok R) as (Ok' & K). pose proof (recv_next _ _ _ _ R) as Nx.
      split; [|split; [|split; [|split]]]; cbn [f_cl f_in f_held f_wait f_log]; auto; [lia| |].
      + intros w J. apply filter_In in J. apply G3. apply J.
      + intros c o J. apply in_app_or in J. destruct J as [J|J]; [auto|exfalso].
        apply in_flat_map in J. destruct J as ([r' c'] & J1 & J2). destruct (dget (c_done k) r'); [|destruct J2].
        destruct J2 as [[= <- <- <-]|[]]. apply G3 in J1. apply J1. reflexivity.
    - destruct (smem rid (f_held s)) eqn:M; [|exact (conj G1 (conj G2 (conj G3 (conj G4 Ok))))]. apply smem_In in M.
      assert (N : rid <> r) by (intros ->; contradiction).
      destruct (dget (c_done (f_cl s)) rid) as [o|] eqn:D; (split; [|split; [|split; [|split]]]); cbn [f_cl f_in f_held f_wait f_log]; auto.
      + intros c o' J. apply in_app_or in J. destruct J as [J|[J|[J|[]]]]; [auto|discriminate|]. injection J as E1 E2 E3. contradiction.
      + intros w J. apply in_app_or in J. destruct J as [J|[<-|[]]]; auto.
      + intros c o' J. apply in_app_or in J. destruct J as [J|[J|[]]]; [auto|discriminate].
    - destruct (smem rid (f_held s)) eqn:M; [|exact (conj G1 (conj G2 (conj G3 (conj G4 Ok))))].
      destruct (ok_drop (f_cl s) rid Ok) as (Ok' & _).
      split; [|split; [|split; [|split]]]; cbn [f_cl f_in f_held f_wait f_log]; auto.
      + intro J. apply filter_In in J. apply G1. apply J.
      + intros w J. apply filter_In in J. apply G3. apply J.
      + intros c o J. apply in_app_or in J. destruct J as [J|[J|[]]]; [auto|discriminate].
  Qed.
  Lemma gone_run r l0 os : forall s, gone r l0 s -> gone r l0 (frun V s os).
  Proof. induction os as [|o os IH]; intros s I; [exact I|]. cbn. apply IH, gone_step, I. Qed.
  Lemma dropped_never ser local st os r os2 : let s := frun V (f0 ser local st) os in
    In r (f_held s) -> (forall o, ~ finished (f_cl s) r o) ->
    forall c o, ~ In (FCalled r c o) (f_log (frun V (fstep V s (FDrop r)) os2)).
  Proof.
    cbv zeta. set (s := frun V _ os). intros H N c o J. assert (I : inv s) by (apply inv_run, inv0).
    assert (G : gone r (f_log s) (fstep V s (FDrop r))).
    { cbn [fstep]. assert (M : smem r (f_held s) = true) by (apply smem_In; exact H). rewrite M.
      destruct (ok_drop (f_cl s) r (i_ok _ I)) as (Ok' & _).
      split; [|split; [|split; [|split]]]; cbn [f_cl f_in f_held f_wait f_log]; auto.
      - intro K. apply filter_In in K. destruct K as (_ & B). rewrite Z.eqb_refl in B. discriminate.
      - exact (i_held _ I r H).
      - intros w K. apply filter_In in K. destruct K as (_ & B). apply Bool.negb_true_iff, Z.eqb_neq in B. exact B.
      - intros c' o' K. apply in_app_or in K. destruct K as [K|[K|[]]]; [auto|discriminate]. }
    apply (gone_run _ _ os2) in G. destruct G as (_ & _ & _ & G & _). apply G in J. apply (i_call _ I) in J. apply (N o). exact J.
  Qed.

  Lemma exception_done k inbox rid o t : finished k rid o ->
    exception_of k inbox rid t = (k, inbox, Gives (as_exception o)) /\ result_of V k inbox rid = (k, inbox, Has o).
  Proof.
    unfold finished, exception_of. intro F. split; [rewrite F; destruct o; reflexivity|]. destruct inbox; cbn; rewrite F; reflexivity.
  Qed.
  Lemma exception_stuck k rest rid p v : futures_ok k -> pending k rid ->
    loads V (c_ser k) (c_local k) (c_st k) p = Ok (reply rid v VNone) ->
    (exists k', result_of V k (p :: rest) rid = (k', rest, Has (Ok v))) /\
    forall t, exception_of k (p :: rest) rid t = (k, p :: rest, match t with Some _ => TimesOut | None => Never end).
  Proof.
    intros F P L. assert (D : dget (c_done k) rid = None) by (apply (fo_disj _ F), P).
    split; [|intro t; unfold exception_of; rewrite D; reflexivity].
    apply dkey_dget in P. destruct P as (b & P). cbn [result_of]. rewrite D. unfold client_recv. rewrite L, process_reply_ok, P.
    set (k1 := set_futs k (ddel (c_futs k) rid)). exists (complete k1 rid b (Ok v)).
    assert (G : dget (c_done (complete k1 rid b (Ok v))) rid = Some (Ok v)).
    { unfold complete. assert (G0 : dget (c_done (set_done k1 (dset (c_done k1) rid (Ok v)))) rid = Some (Ok v)) by (cbn; apply dget_dset_same).
      destruct b; [|exact G0]. destruct v; try exact G0. destruct b; [|exact G0].
      rewrite disconnected_done. destruct (smem rid _) eqn:S; [|exact G0]. exfalso.
      apply smem_In, dkey_dget in S. destruct S as (w & S). cbn in S.
      rewrite dget_ddel_same in S by exact (fo_nodup _ F). discriminate. }
    destruct rest; cbn [result_of]; rewrite G; reflexivity.
  Qed.
  Lemma stuck_reached ser local st os rid p rest v : let s := frun V (f0 ser local st) os in
    f_in s = p :: rest -> pending (f_cl s) rid ->
    loads V (c_ser (f_cl s)) (c_local (f_cl s)) (c_st (f_cl s)) p = Ok (reply rid v VNone) ->
    (exists k', result_of V (f_cl s) (f_in s) rid = (k', rest, Has (Ok v))) /\
    forall t, exception_of (f_cl s) (f_in s) rid t = (f_cl s, f_in s, match t with Some _ => TimesOut | None => Never end).
  Proof.
    cbv zeta. set (s := frun V _ os). intros -> P L. apply exception_stuck; auto. apply i_ok, inv_run, inv0.
  Qed.
End F.
