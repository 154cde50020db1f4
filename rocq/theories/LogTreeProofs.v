From Verif Require Import Py LogTreeModel LogTreeSpec.
Local Open Scope list_scope.

(** * The library's searches are what the specification says *)
Lemma above_refl n : above n n.
Proof. exists []. reflexivity. Qed.
Lemma above_cons a x n : above a (x :: n) -> a = x :: n \/ above a n.
Proof. intros [[|y p] H]; [left; auto|]. cbn in H. injection H as -> ->. right. exists p. reflexivity. Qed.
Lemma above_up a x n : above a n -> above a (x :: n).
Proof. intros [p ->]. exists (x :: p). reflexivity. Qed.
Lemma above_nil a : above a [] -> a = [].
Proof. intros [p H]. symmetry in H. apply app_eq_nil in H. tauto. Qed.
Lemma nil_above n : above [] n.
Proof. exists n. rewrite app_nil_r. reflexivity. Qed.
Lemma above_len a n : above a n -> (List.length a <= List.length n)%nat.
Proof. intros [p ->]. rewrite app_length. lia. Qed.
Lemma not_above x n : ~ above (x :: n) n.
Proof. intros H. apply above_len in H. cbn in H. lia. Qed.

Lemma effective_level t n l : level_is t n l -> effective t n = l.
Proof.
  induction n as [|x n IH]; intros (a & A & B & C & D); cbn [effective].
  - apply above_nil in A. subst a. rewrite B. apply Z.eqb_neq in C. rewrite C. reflexivity.
  - apply above_cons in A. destruct A as [->|A].
    + rewrite B. apply Z.eqb_neq in C. rewrite C. reflexivity.
    + rewrite (D (x :: n)).
      * cbn. apply IH. exists a. repeat split; auto. intros b Hb Ha. apply D; auto. apply above_up. exact Hb.
      * apply above_refl.
      * apply above_up. exact A.
      * intros E. subst a. apply (not_above x n A).
Qed.
Lemma reached_in t n h : In h (reached t n) -> exists a, above a n /\ In h (g_hand (t a)).
Proof.
  induction n as [|x n IH]; cbn [reached]; intros H.
  - apply in_app_or in H. destruct H as [H|H]; [exists []; split; [apply above_refl|exact H]|]. destruct (g_prop (t [])); contradiction.
  - apply in_app_or in H. destruct H as [H|H]; [exists (x :: n); split; [apply above_refl|exact H]|].
    destruct (g_prop (t (x :: n))); [|contradiction]. destruct (IH H) as (a & A & B). exists a. split; [apply above_up; exact A|exact B].
Qed.
Lemma reached_split t n a : propagates t n a -> exists l, reached t n = l ++ reached t a /\
  forall h, In h l -> exists b, above b n /\ above a b /\ b <> a /\ In h (g_hand (t b)).
Proof.
  intros (p & -> & H). revert H. induction p as [|x p IH]; intros H; cbn [app].
  - exists []. split; [reflexivity|]. intros h [].
  - destruct IH as (l & E & L).
    { intros b Hb Ha Hn. apply H; auto. cbn. apply above_up. exact Hb. }
    exists (g_hand (t (x :: p ++ a)) ++ l). split.
    + cbn [reached]. rewrite (H (x :: p ++ a)).
      * rewrite E, app_assoc. reflexivity.
      * apply above_refl.
      * exists (x :: p). reflexivity.
      * intros X. apply (f_equal (@List.length string)) in X. cbn in X. rewrite app_length in X. lia.
    + intros h Hh. apply in_app_or in Hh. destruct Hh as [Hh|Hh].
      * exists (x :: p ++ a). repeat split; auto.
        -- apply above_refl.
        -- exists (x :: p). reflexivity.
        -- intros X. apply (f_equal (@List.length string)) in X. cbn in X. rewrite app_length in X. lia.
      * destruct (L h Hh) as (b & B1 & B2 & B3 & B4). exists b. repeat split; auto. apply above_up. exact B1.
Qed.
Lemma only_root_effective t n : only_root t -> effective t n = effective t [].
Proof. intros H. induction n as [|x n IH]; [reflexivity|]. cbn [effective]. rewrite (H (x :: n)) by discriminate. cbn. exact IH. Qed.
Lemma only_root_reached t n : only_root t -> reached t n = reached t [].
Proof. intros H. induction n as [|x n IH]; [reflexivity|]. cbn [reached]. rewrite (H (x :: n)) by discriminate. cbn. exact IH. Qed.
Lemma reached_root t : reached t [] = g_hand (t []).
Proof. cbn. destruct (g_prop (t [])); apply app_nil_r. Qed.

(** * Forwarded records *)
Lemma like_local g r : only_root (g_tree g) -> g_server g = true ->
  forwarded g r = log g (lr_name r) (lr_level r) (lr_id r).
Proof.
  intros H S. unfold forwarded, log. rewrite S, (only_root_effective _ remote_logger H), (only_root_effective _ (lr_name r) H).
  rewrite Z.ltb_antisym. destruct (effective (g_tree g) [] <=? lr_level r); cbn [negb]; [|reflexivity].
  unfold handle, takers. rewrite (only_root_reached _ remote_logger H), (only_root_reached _ (lr_name r) H). destruct r; reflexivity.
Qed.
Lemma deliver_none hs : deliver None hs = (hs, Ok tt).
Proof. induction hs as [|h r IH]; [reflexivity|]. cbn. rewrite IH. reflexivity. Qed.
Lemma reached_own t n h : In h (g_hand (t n)) -> In h (reached t n).
Proof. intros H. destruct n; cbn; apply in_or_app; left; exact H. Qed.
Lemma deliver_sub m hs : forall h, In h (fst (deliver m hs)) -> In h hs.
Proof.
  induction hs as [|x r IH]; intros h H; [contradiction|]. cbn in H.
  destruct (match m with Some (m0, _) => Nat.eqb m0 x | None => false end); [contradiction|].
  destruct (deliver m r). cbn in H. destruct H as [->|H]; [left; reflexivity|right; auto].
Qed.
Lemma handle_out g n r : g_out (fst (handle g n r)) = g_out g ++
  match reached (g_tree g) n with
  | [] => if 30 <=? lr_level r then [(ToStderr, r)] else []
  | _ => map (fun h => (To h, r)) (fst (deliver (g_making g) (takers g n (lr_level r))))
  end.
Proof.
  unfold handle. destruct (reached (g_tree g) n); [reflexivity|]. destruct (deliver (g_making g) (takers g n (lr_level r))). reflexivity.
Qed.
Lemma local_gets g r h l : g_making g = None -> In h (g_hand (g_tree g (lr_name r))) -> hlevel (kind_of g h) <= lr_level r ->
  level_is (g_tree g) (lr_name r) l -> l <= lr_level r ->
  In (To h, r) (g_out (fst (log g (lr_name r) (lr_level r) (lr_id r)))).
Proof.
  intros M I H1 L H2. unfold log. rewrite (effective_level _ _ _ L). apply Z.leb_le in H2. rewrite H2.
  replace (mkR (lr_name r) (lr_level r) (lr_id r)) with r by (destruct r; reflexivity).
  rewrite handle_out. apply in_or_app. right. pose proof (reached_own _ _ _ I) as R.
  destruct (reached (g_tree g) (lr_name r)) eqn:E; [contradiction|]. rewrite M, deliver_none. cbn [fst].
  apply in_map_iff. exists h. split; [reflexivity|]. apply filter_In. rewrite E. split; [exact R|apply Z.leb_le; exact H1].
Qed.
Lemma remote_misses g r h : ~ In (To h, r) (g_out g) -> (forall a, above a remote_logger -> ~ In h (g_hand (g_tree g a))) ->
  ~ In (To h, r) (g_out (fst (forwarded g r))).
Proof.
  intros N H X. unfold forwarded in X. destruct (g_server g); [|auto]. destruct (lr_level r <? effective (g_tree g) remote_logger); [auto|].
  rewrite handle_out in X. apply in_app_or in X. destruct X as [X|X]; [auto|].
  destruct (reached (g_tree g) remote_logger) eqn:E.
  - destruct (30 <=? lr_level r); [destruct X as [X|[]]; discriminate|contradiction].
  - apply in_map_iff in X. destruct X as (h' & X & Y). injection X as ->. apply deliver_sub in Y. apply filter_In in Y. destruct Y as [Y _].
    apply reached_in in Y. destruct Y as (a & A & B). exact (H a A B).
Qed.
Lemma silenced g r l : level_is (g_tree g) remote_logger l -> lr_level r < l -> forwarded g r = (g, Ok tt).
Proof.
  intros L H. unfold forwarded. rewrite (effective_level _ _ _ L). apply Z.ltb_lt in H. rewrite H. destruct (g_server g); reflexivity.
Qed.

(** * What a history does to handlers *)
Definition fits (g : gst) : Prop :=
  (forall n h, In h (g_hand (g_tree g n)) -> (h < List.length (g_kinds g))%nat) /\
  (forall n, NoDup (g_hand (g_tree g n))) /\
  (forall n h, n <> [] -> In h (g_hand (g_tree g n)) -> exists l, kind_of g h = HOther l) /\
  (forall h, kind_of g h = HSender -> g_sender g = Some h \/ exists a, g_making g = Some (h, a)) /\
  (match g_sender g with Some h => kind_of g h = HSender /\ In h (g_hand (g_tree g [])) /\ g_making g = None | None => True end) /\
  (match g_making g with Some (h, _) => kind_of g h = HSender /\ In h (g_hand (g_tree g [])) | None => True end).
Lemma kind_of_new g k x : forall h, (h < List.length (g_kinds g))%nat -> nth h (g_kinds g ++ [k]) x = nth h (g_kinds g) x.
Proof. intros h H. apply app_nth1. exact H. Qed.
Lemma kind_of_last (l : list hkind) k x : nth (List.length l) (l ++ [k]) x = k.
Proof. rewrite app_nth2 by lia. rewrite Nat.sub_diag. reflexivity. Qed.
Lemma set_lg_same t n x : set_lg t n x n = x.
Proof. unfold set_lg. destruct (lname_dec n n); congruence. Qed.
Lemma set_lg_other t n x m : m <> n -> set_lg t n x m = t m.
Proof. unfold set_lg. destruct (lname_dec m n); congruence. Qed.
Lemma add_handler_hand t n h m : g_hand (add_handler t n h m) = if lname_dec m n then g_hand (t m) ++ [h] else g_hand (t m).
Proof. unfold add_handler, set_lg. destruct (lname_dec m n); subst; reflexivity. Qed.
Lemma nodup_snoc {A} (l : list A) x : NoDup l -> ~ In x l -> NoDup (l ++ [x]).
Proof.
  induction l as [|y l IH]; intros N H; cbn; [constructor; auto; constructor|]. inversion N; subst. constructor.
  - intros X. apply in_app_or in X. destruct X as [X|[->|[]]]; [auto|]. apply H. left. reflexivity.
  - apply IH; auto. intros X. apply H. right. exact X.
Qed.

(** a state that differs only in what [fits] does not look at, or in levels and propagation *)
Lemma fits_same g g' : fits g -> (forall n, g_hand (g_tree g' n) = g_hand (g_tree g n)) -> g_kinds g' = g_kinds g ->
  g_sender g' = g_sender g -> g_making g' = g_making g -> fits g'.
Proof.
  intros (A & B & C & D & E & F) H1 H2 H3 H4. unfold fits, kind_of in *. rewrite H2, H3, H4.
  split; [intros n h; rewrite H1; apply A|]. split; [intros n; rewrite H1; apply B|]. split; [intros n h; rewrite H1; apply C|].
  split; [exact D|]. rewrite !H1. split; [exact E|exact F].
Qed.
Lemma fits_add g n k t : fits g -> (n <> [] -> exists l, k = HOther l) -> k <> HSender ->
  (forall m, g_hand (t m) = g_hand (g_tree g m)) ->
  forall s a b c o, fits (mkG (add_handler t n (List.length (g_kinds g))) (g_kinds g ++ [k]) s (g_sender g) (g_making g) a b c o).
Proof.
  intros (A & B & C & D & E & F) Hk Hs Ht s a b c o. unfold fits, kind_of in *. cbn [g_tree g_kinds g_sender g_making].
  assert (NI : forall m, ~ In (List.length (g_kinds g)) (g_hand (g_tree g m))) by (intros m X; apply A in X; lia).
  split; [|split; [|split; [|split; [|split]]]].
  - intros m h. rewrite add_handler_hand, Ht, app_length. cbn. destruct (lname_dec m n); intros X.
    + apply in_app_or in X. destruct X as [X|[<-|[]]]; [apply A in X|]; lia.
    + apply A in X. lia.
  - intros m. rewrite add_handler_hand, Ht. destruct (lname_dec m n); [apply nodup_snoc|]; auto.
  - intros m h Hm. rewrite add_handler_hand, Ht. destruct (lname_dec m n) as [->|]; intros X.
    + apply in_app_or in X. destruct X as [X|[<-|[]]].
      * rewrite kind_of_new by (eapply A; eauto). eauto.
      * rewrite kind_of_last. auto.
    + rewrite kind_of_new by (eapply A; eauto). eauto.
  - intros h X. destruct (Nat.lt_ge_cases h (List.length (g_kinds g))) as [L|L].
    + rewrite kind_of_new in X by exact L. auto.
    + destruct (Nat.eq_dec h (List.length (g_kinds g))) as [->|N]; [rewrite kind_of_last in X; contradiction|].
      rewrite nth_overflow in X by (rewrite app_length; cbn; lia). discriminate.
  - destruct (g_sender g) as [h|]; [|exact I]. destruct E as (E1 & E2 & E3). split; [|split; [|exact E3]].
    + rewrite kind_of_new by (eapply A; eauto). exact E1.
    + rewrite add_handler_hand, Ht. destruct (lname_dec [] n); [apply in_or_app; left|]; exact E2.
  - destruct (g_making g) as [[h x]|]; [|exact I]. destruct F as (E1 & E2). split.
    + rewrite kind_of_new by (eapply A; eauto). exact E1.
    + rewrite add_handler_hand, Ht. destruct (lname_dec [] n); [apply in_or_app; left|]; exact E2.
Qed.

Lemma set_hand t n x m : g_hand x = g_hand (t n) -> g_hand (set_lg t n x m) = g_hand (t m).
Proof. intros H. unfold set_lg. destruct (lname_dec m n); [subst; exact H|reflexivity]. Qed.
Definition quiet (g g' : gst) : Prop :=
  g_tree g' = g_tree g /\ g_kinds g' = g_kinds g /\ g_server g' = g_server g /\ g_sender g' = g_sender g /\
  g_making g' = g_making g /\ g_addr g' = g_addr g /\ g_sys g' = g_sys g /\ g_thread g' = g_thread g.
Lemma quiet_refl g : quiet g g.
Proof. repeat split. Qed.
Lemma quiet_handle g n r : quiet g (fst (handle g n r)).
Proof.
  unfold handle. destruct (reached (g_tree g) n); [repeat split|]. destruct (deliver (g_making g) (takers g n (lr_level r))). repeat split.
Qed.
Lemma quiet_log g n l i : quiet g (fst (log g n l i)).
Proof. unfold log. destruct (effective (g_tree g) n <=? l); [apply quiet_handle|apply quiet_refl]. Qed.
Lemma quiet_forward g r : quiet g (fst (forwarded g r)).
Proof.
  unfold forwarded. destruct (g_server g); [|apply quiet_refl]. destruct (lr_level r <? effective (g_tree g) remote_logger); [apply quiet_refl|apply quiet_handle].
Qed.
Lemma quiet_uncaught g u : quiet g (fst (ends_with g u)).
Proof.
  unfold ends_with. destruct u as [i|i|i]; [destruct (g_sys g)|destruct (g_thread g)|destruct (g_thread g)]; try apply quiet_refl; cbn; apply quiet_log.
Qed.
Lemma quiet_fits g g' : quiet g g' -> fits g -> fits g'.
Proof. intros (A & B & C & D & E & _) F. eapply fits_same; eauto. intros n. rewrite A. reflexivity. Qed.

Lemma fits_step g o : fits g -> fits (gstep g o).
Proof.
  intros G. destruct o; cbn [gstep].
  - eapply fits_same; eauto. intros m. apply set_hand. reflexivity.
  - eapply fits_same; eauto. intros m. apply set_hand. reflexivity.
  - apply fits_add; auto; [eauto|discriminate].
  - eapply fits_same; eauto.
  - unfold basic_config.
    set (t1 := set_lg (g_tree g) [] (mkLg level (g_prop (g_tree g [])) (g_hand (g_tree g [])))).
    assert (Ht : forall m, g_hand (t1 m) = g_hand (g_tree g m)) by (intros m; apply set_hand; reflexivity).
    destruct exceptions, start_server; unfold log_exceptions, start_log_server; cbn [g_server fst]; try (destruct (g_server g); cbn [fst]);
      cbn [g_tree g_kinds g_server g_sender g_making g_addr g_sys g_thread g_out];
      (apply fits_add; [exact G|intros X; contradiction|discriminate|exact Ht]).
  - unfold start_log_server. destruct (g_server g); [exact G|]. eapply fits_same; eauto.
  - eapply fits_same; eauto.
  - pose proof G as (A & B & C & D & E & F). unfold set_address_begin. destruct (g_sender g) as [h|] eqn:Hs.
    + eapply fits_same; eauto.
    + destruct (g_making g) as [[h x]|] eqn:Hm; [exact G|].
      unfold fits, kind_of in *. cbn [g_tree g_kinds g_sender g_making].
      split; [|split; [|split; [|split; [|split]]]]; auto.
      * intros m h. rewrite add_handler_hand, app_length. cbn. destruct (lname_dec m []); intros X.
        -- apply in_app_or in X. destruct X as [X|[<-|[]]]; [apply A in X|]; lia.
        -- apply A in X. lia.
      * intros m. rewrite add_handler_hand. destruct (lname_dec m []); [apply nodup_snoc|]; auto. intros X. apply A in X. lia.
      * intros m h Hm'. rewrite add_handler_hand. destruct (lname_dec m []); [contradiction|]. intros X.
        rewrite kind_of_new by (eapply A; eauto). eauto.
      * intros h X. destruct (Nat.lt_ge_cases h (List.length (g_kinds g))) as [L|L].
        -- rewrite kind_of_new in X by exact L. destruct (D h X) as [Y|[a0 Y]]; discriminate.
        -- right. destruct (Nat.eq_dec h (List.length (g_kinds g))) as [->|N]; [eauto|].
           rewrite nth_overflow in X by (rewrite app_length; cbn; lia). discriminate.
      * rewrite kind_of_last, add_handler_hand. split; [reflexivity|]. destruct (lname_dec [] []); [|contradiction]. apply in_or_app. right. left. reflexivity.
  - pose proof G as (A & B & C & D & E & F). unfold set_address_end. destruct (g_making g) as [[h x]|] eqn:Hm; [|exact G].
    unfold fits, kind_of in *. cbn [g_tree g_kinds g_sender g_making]. destruct F as [F1 F2].
    repeat (split; auto). intros h' X. left. destruct (D h' X) as [Y|[a Y]].
    + rewrite Y in E. destruct E as (_ & _ & E). discriminate.
    + injection Y as -> _. reflexivity.
  - eapply quiet_fits; [apply quiet_log|exact G].
  - eapply quiet_fits; [apply quiet_forward|exact G].
  - eapply quiet_fits; [apply quiet_uncaught|exact G].
Qed.
Lemma fits0 : fits gst0.
Proof.
  unfold fits, gst0, kind_of. cbn. repeat split; auto.
  - intros n h. destruct n; contradiction.
  - intros n. destruct n; constructor.
  - intros n h _. destruct n; contradiction.
  - intros h X. destruct h; discriminate.
Qed.
Lemma run_inv (P : gst -> Prop) : (forall g o, P g -> P (gstep g o)) -> forall os g, P g -> P (fold_left gstep os g).
Proof. intros H. induction os as [|o os IH]; intros g G; cbn; auto. Qed.
Lemma fits_run os : fits (grun os).
Proof. unfold grun. apply (run_inv fits); [apply fits_step|apply fits0]. Qed.

(** consoles are attached to the root, one per call of basic_config *)
Definition consoles (g : gst) : nat := List.length (filter (fun h => match kind_of g h with HConsole => true | _ => false end) (g_hand (g_tree g []))).
Lemma filter_ext_in {A} (f g : A -> bool) l : (forall x, In x l -> f x = g x) -> filter f l = filter g l.
Proof. induction l as [|x l IH]; intros H; cbn; [reflexivity|]. rewrite (H x) by (left; reflexivity). rewrite IH; [reflexivity|]. intros y Hy. apply H. right. exact Hy. Qed.
Lemma consoles_same g g' : g_hand (g_tree g' []) = g_hand (g_tree g []) -> g_kinds g' = g_kinds g -> consoles g' = consoles g.
Proof. intros A B. unfold consoles, kind_of. rewrite A, B. reflexivity. Qed.
Lemma consoles_add g k t s a b c d e o : fits g -> g_hand (t []) = g_hand (g_tree g []) ->
  consoles (mkG (add_handler t [] (List.length (g_kinds g))) (g_kinds g ++ [k]) s d e a b c o) =
  (consoles g + match k with HConsole => 1 | _ => 0 end)%nat.
Proof.
  intros (A & _) Ht. unfold consoles, kind_of. cbn [g_tree g_kinds]. rewrite add_handler_hand, Ht. destruct (lname_dec [] []); [|contradiction].
  rewrite filter_app, app_length. f_equal.
  - f_equal. apply filter_ext_in. intros h X. rewrite kind_of_new by (eapply A; eauto). reflexivity.
  - cbn [filter]. rewrite kind_of_last. destruct k; reflexivity.
Qed.
Lemma consoles_add_other g n k t s a b c d e o : fits g -> g_hand (t []) = g_hand (g_tree g []) -> n <> [] ->
  consoles (mkG (add_handler t n (List.length (g_kinds g))) (g_kinds g ++ [k]) s d e a b c o) = consoles g.
Proof.
  intros (A & _) Ht Hn. unfold consoles, kind_of. cbn [g_tree g_kinds]. rewrite add_handler_hand, Ht. destruct (lname_dec [] n); [congruence|].
  f_equal. apply filter_ext_in. intros h X. rewrite kind_of_new by (eapply A; eauto). reflexivity.
Qed.
Lemma consoles_step g o : fits g -> consoles (gstep g o) = (consoles g + (if is_basic o then 1 else 0))%nat.
Proof.
  intros G. destruct o; cbn [gstep is_basic].
  - rewrite Nat.add_0_r. apply consoles_same; auto. apply set_hand. reflexivity.
  - rewrite Nat.add_0_r. apply consoles_same; auto. apply set_hand. reflexivity.
  - destruct n as [|x n]; [rewrite consoles_add; auto|]. rewrite consoles_add_other; auto. discriminate.
  - rewrite Nat.add_0_r. reflexivity.
  - unfold basic_config.
    set (t1 := set_lg (g_tree g) [] (mkLg level (g_prop (g_tree g [])) (g_hand (g_tree g [])))).
    assert (Ht : g_hand (t1 []) = g_hand (g_tree g [])) by (apply set_hand; reflexivity).
    destruct exceptions, start_server; unfold log_exceptions, start_log_server; cbn [g_server fst]; try (destruct (g_server g); cbn [fst]);
      cbn [g_tree g_kinds g_server g_sender g_making g_addr g_sys g_thread g_out];
      (rewrite (consoles_add g HConsole t1); [reflexivity|exact G|exact Ht]).
  - rewrite Nat.add_0_r. unfold start_log_server. destruct (g_server g); reflexivity.
  - rewrite Nat.add_0_r. reflexivity.
  - unfold set_address_begin. destruct (g_sender g); [rewrite Nat.add_0_r; reflexivity|].
    destruct (g_making g); [rewrite Nat.add_0_r; reflexivity|]. rewrite consoles_add; auto.
  - rewrite Nat.add_0_r. unfold set_address_end. destruct (g_making g) as [[h x]|]; reflexivity.
  - rewrite Nat.add_0_r. destruct (quiet_log g n level id) as (A & B & _). apply consoles_same; congruence.
  - rewrite Nat.add_0_r. destruct (quiet_forward g r) as (A & B & _). apply consoles_same; congruence.
  - rewrite Nat.add_0_r. destruct (quiet_uncaught g u) as (A & B & _). apply consoles_same; congruence.
Qed.
Lemma consoles_run os : forall g, fits g -> consoles (fold_left gstep os g) = (consoles g + basics os)%nat.
Proof.
  induction os as [|o os IH]; intros g G; cbn [fold_left]; [unfold basics; cbn; lia|].
  rewrite IH by (apply fits_step; exact G). rewrite consoles_step by exact G. unfold basics. cbn [filter]. destruct (is_basic o); cbn; lia.
Qed.

(** how often a record is given to handlers of a kind that only the root has *)
Lemma root_times g n level id (f : hkind -> bool) : fits g -> g_making g = None -> passes g n level ->
  (forall l, f (HOther l) = false) -> (forall k, f k = true -> hlevel k <= level) ->
  times (fun d => match d with To h => f (kind_of g h) | ToStderr => false end) (news g (fst (log g n level id))) =
  List.length (filter (fun h => f (kind_of g h)) (g_hand (g_tree g []))).
Proof.
  intros G M ((l & L & Hl) & P) Ho Hf. unfold log. rewrite (effective_level _ _ _ L). apply Z.leb_le in Hl. rewrite Hl.
  unfold news. rewrite handle_out. rewrite skipn_app, skipn_all, Nat.sub_diag. cbn [skipn app].
  destruct (reached_split _ _ _ P) as (pre & E & Hp). rewrite reached_root in E.
  assert (F1 : filter (fun h => f (kind_of g h)) pre = []).
  { destruct G as (_ & _ & C & _). clear E. induction pre as [|h pre IH]; [reflexivity|]. cbn.
    destruct (Hp h (or_introl eq_refl)) as (b & _ & _ & Hb & Hi). destruct (C b h Hb Hi) as [x ->]. rewrite Ho.
    apply IH. intros h' Hh'. apply Hp. right. exact Hh'. }
  assert (F2 : filter (fun h => f (kind_of g h)) (reached (g_tree g) n) = filter (fun h => f (kind_of g h)) (g_hand (g_tree g []))).
  { rewrite E, filter_app, F1. reflexivity. }
  rewrite <- F2. clear F2. destruct (reached (g_tree g) n) eqn:R.
  - cbn [lr_level]. destruct (30 <=? level); reflexivity.
  - rewrite <- R. rewrite M, deliver_none. cbn [fst lr_level]. unfold times, takers.
    generalize (reached (g_tree g) n). intros hs. induction hs as [|h hs IH]; [reflexivity|]. cbn [filter].
    destruct (f (kind_of g h)) eqn:Ef.
    + pose proof (Hf _ Ef) as X. apply Z.leb_le in X. rewrite X. cbn [map filter fst]. rewrite Ef. cbn [List.length]. rewrite IH. reflexivity.
    + destruct (hlevel (kind_of g h) <=? level); cbn [map filter fst]; [rewrite Ef|]; exact IH.
Qed.

Lemma written_times os n level id : let g := grun os in g_making g = None -> passes g n level -> 0 <= level ->
  times (is_console g) (news g (fst (log g n level id))) = basics os.
Proof.
  intros g M P Hl. pose proof (root_times g n level id (fun k => match k with HConsole => true | _ => false end) (fits_run os) M P) as R.
  cbn [hlevel] in R. unfold is_console. rewrite R.
  - pose proof (consoles_run os gst0 fits0) as C. exact C.
  - reflexivity.
  - intros [| |x] X; try discriminate. exact Hl.
Qed.
Lemma sent_once os n level id : let g := grun os in g_making g = None -> g_sender g <> None -> passes g n level -> 0 <= level ->
  times (is_sender g) (news g (fst (log g n level id))) = 1%nat /\ snd (log g n level id) = Ok tt.
Proof.
  intros g M S P Hl. split.
  - pose proof (fits_run os) as G. fold g in G.
    pose proof (root_times g n level id (fun k => match k with HSender => true | _ => false end) G M P) as R.
    unfold is_sender. rewrite R; [|reflexivity|intros [| |x] X; try discriminate; exact Hl].
    destruct G as (_ & B & _ & D & E & _). destruct (g_sender g) as [h|] eqn:Hs; [|congruence]. destruct E as (E1 & E2 & _).
    specialize (B []). clear R. revert B E2. generalize (g_hand (g_tree g [])). intros hs.
    assert (Z0 : forall hs, ~ In h hs -> filter (fun x => match kind_of g x with HSender => true | _ => false end) hs = []).
    { induction hs0 as [|x hs0 IH]; intros N; [reflexivity|]. cbn. destruct (kind_of g x) eqn:K; try (apply IH; intros X; apply N; right; exact X).
      exfalso. destruct (D x K) as [Y|[a Y]]; [|congruence]. injection Y as ->. apply N. left. reflexivity. }
    induction hs as [|x hs IH]; intros N I; [contradiction|]. inversion N; subst. cbn. destruct I as [->|I].
    + rewrite E1. cbn. rewrite Z0; auto.
    + destruct (kind_of g x) eqn:K; auto. exfalso. destruct (D x K) as [Y|[a Y]]; [|congruence]. injection Y as ->. auto.
  - unfold log. destruct (effective (g_tree g) n <=? level); [|reflexivity]. unfold handle. destruct (reached (g_tree g) n); [reflexivity|].
    rewrite M, deliver_none. reflexivity.
Qed.
Lemma deliver_fails h a hs : In h hs -> snd (deliver (Some (h, a)) hs) = Err AttributeError.
Proof.
  induction hs as [|x hs IH]; intros I; [contradiction|]. cbn. destruct (Nat.eqb h x) eqn:E; [reflexivity|].
  apply Nat.eqb_neq in E. destruct I as [->|I]; [contradiction|]. specialize (IH I). destruct (deliver (Some (h, a)) hs). exact IH.
Qed.
Lemma making_raises os n level id : let g := grun os in g_making g <> None -> passes g n level -> 0 <= level ->
  snd (log g n level id) = Err AttributeError.
Proof.
  intros g M ((l & L & Hl) & P) H0. pose proof (fits_run os) as G. fold g in G. destruct G as (_ & _ & _ & _ & _ & F).
  destruct (g_making g) as [[h a]|] eqn:Hm; [|congruence]. destruct F as [F1 F2].
  unfold log. rewrite (effective_level _ _ _ L). apply Z.leb_le in Hl. rewrite Hl. unfold handle.
  destruct (reached_split _ _ _ P) as (pre & E & _). rewrite reached_root in E.
  assert (R : In h (reached (g_tree g) n)) by (rewrite E; apply in_or_app; right; exact F2).
  destruct (reached (g_tree g) n) eqn:Er; [contradiction|]. rewrite Hm.
  pose proof (deliver_fails h a (takers g n level)) as X. cbn [lr_level]. destruct (deliver (Some (h, a)) (takers g n level)). cbn [snd] in *.
  apply X. apply filter_In. rewrite Er. split; [exact R|]. rewrite F1. cbn. apply Z.leb_le. exact H0.
Qed.

(** * Uncaught exceptions *)
Lemma hooks_step g o : keeps_hooks o = true -> g_sys g = HkLog -> g_thread g = HkLog -> g_sys (gstep g o) = HkLog /\ g_thread (gstep g o) = HkLog.
Proof.
  intros H A B. destruct o; cbn [gstep]; auto; try discriminate.
  - unfold basic_config. destruct exceptions, start_server; unfold log_exceptions, start_log_server; cbn [g_server fst]; try (destruct (g_server g)); cbn; rewrite ?A, ?B; auto.
  - unfold start_log_server. destruct (g_server g); auto.
  - cbn. rewrite A, B. auto.
  - unfold set_address_begin. destruct (g_sender g); auto. destruct (g_making g); auto.
  - unfold set_address_end. destruct (g_making g) as [[h x]|]; auto.
  - destruct (quiet_log g n level id) as (_ & _ & _ & _ & _ & _ & C & D). rewrite C, D. auto.
  - destruct (quiet_forward g r) as (_ & _ & _ & _ & _ & _ & C & D). rewrite C, D. auto.
  - destruct (quiet_uncaught g u) as (_ & _ & _ & _ & _ & _ & C & D). rewrite C, D. auto.
Qed.
Lemma hooks_run os : forall g, forallb keeps_hooks os = true -> g_sys g = HkLog -> g_thread g = HkLog ->
  g_sys (fold_left gstep os g) = HkLog /\ g_thread (fold_left gstep os g) = HkLog.
Proof.
  induction os as [|o os IH]; intros g H A B; cbn in *; auto. apply andb_prop in H. destruct H as [H1 H2].
  destruct (hooks_step g o H1 A B). auto.
Qed.
Lemma installed os os' : forallb keeps_hooks os' = true -> let g := grun (os ++ GExceptions :: os') in g_sys g = HkLog /\ g_thread g = HkLog.
Proof.
  intros H g. unfold g, grun. rewrite fold_left_app. cbn [fold_left]. apply hooks_run; auto; cbn; [destruct (g_sys _)|destruct (g_thread _)]; reflexivity.
Qed.
Lemma log_root g id : g_making g = None -> g_level (g_tree g []) <> 0 -> g_level (g_tree g []) <= 30 ->
  log_hook g id = (fst (log g [] 30 id), Logged (match g_hand (g_tree g []) with
    | [] => [ToStderr]
    | hs => map To (filter (fun h => hlevel (kind_of g h) <=? 30) hs) end)).
Proof.
  intros M L0 L. unfold log_hook. f_equal. f_equal. unfold log. cbn [effective]. apply Z.eqb_neq in L0. rewrite L0. apply Z.leb_le in L. rewrite L.
  rewrite handle_out. rewrite skipn_app, skipn_all, Nat.sub_diag. cbn [skipn app].
  unfold takers. rewrite reached_root. destruct (g_hand (g_tree g [])) as [|h hs] eqn:E; [reflexivity|].
  rewrite M, deliver_none. cbn [fst lr_level]. rewrite map_map. reflexivity.
Qed.
Lemma uncaught_logged g u : g_sys g = HkLog -> g_thread g = HkLog ->
  ends_with g u = log_hook g (match u with InMain i | InThread i | ExitInThread i => i end).
Proof. intros A B. unfold ends_with. destruct u; rewrite ?A, ?B; reflexivity. Qed.
Lemma log_dropped g id : 30 < g_level (g_tree g []) -> log_hook g id = (g, Logged []).
Proof.
  intros H. unfold log_hook, log. cbn [effective]. replace (g_level (g_tree g []) =? 0) with false by (symmetry; apply Z.eqb_neq; lia).
  replace (g_level (g_tree g []) <=? 30) with false by (symmetry; apply Z.leb_gt; lia). cbn [fst]. rewrite skipn_all. reflexivity.
Qed.

Lemma takes_hlevel g h level : takes g h level <-> hlevel (kind_of g h) <= level.
Proof.
  unfold takes, kind_of. destruct (nth_error (g_kinds g) h) as [k|] eqn:E.
  - rewrite (nth_error_nth _ _ (HOther 0) E). destruct k; reflexivity.
  - apply nth_error_None in E. rewrite (nth_overflow _ _ E). reflexivity.
Qed.

Lemma like_local_name_refuted g r h l : g_server g = true -> g_making g = None -> level_is (g_tree g) (lr_name r) l -> l <= lr_level r ->
  In h (g_hand (g_tree g (lr_name r))) -> takes g h (lr_level r) ->
  (forall a, above a remote_logger -> ~ In h (g_hand (g_tree g a))) -> ~ In (To h, r) (g_out g) ->
  In (To h, r) (g_out (fst (log g (lr_name r) (lr_level r) (lr_id r)))) /\ ~ In (To h, r) (g_out (fst (forwarded g r))).
Proof.
  intros S M L Hl I T N O. split; [|apply remote_misses; auto]. eapply local_gets; eauto. apply takes_hlevel. exact T.
Qed.
Lemma like_local_level_refuted g r lr l : g_making g = None -> level_is (g_tree g) remote_logger lr -> lr_level r < lr ->
  level_is (g_tree g) (lr_name r) l -> l <= lr_level r -> propagates (g_tree g) (lr_name r) [] ->
  forall h, In h (g_hand (g_tree g [])) -> takes g h (lr_level r) ->
  In (To h, r) (g_out (fst (log g (lr_name r) (lr_level r) (lr_id r)))) /\ fst (forwarded g r) = g.
Proof.
  intros M L1 H1 L2 H2 P h Hh T. rewrite (silenced _ _ _ L1 H1). split; [|reflexivity].
  unfold log. rewrite (effective_level _ _ _ L2). apply Z.leb_le in H2. rewrite H2.
  replace (mkR (lr_name r) (lr_level r) (lr_id r)) with r by (destruct r; reflexivity).
  rewrite handle_out. apply in_or_app. right. destruct (reached_split _ _ _ P) as (pre & E & _). rewrite reached_root in E.
  assert (R : In h (reached (g_tree g) (lr_name r))) by (rewrite E; apply in_or_app; right; exact Hh).
  destruct (reached (g_tree g) (lr_name r)) eqn:Er; [contradiction|]. rewrite M, deliver_none. cbn [fst].
  apply in_map_iff. exists h. split; [reflexivity|]. apply filter_In. rewrite Er. split; [exact R|]. apply Z.leb_le. apply takes_hlevel. exact T.
Qed.

Lemma written_once os n level id : basics os = 1%nat -> let g := grun os in g_making g = None -> passes g n level -> 0 <= level ->
  times (is_console g) (news g (fst (log g n level id))) = 1%nat.
Proof. intros B g M P H. rewrite <- B. apply written_times; auto. Qed.
Lemma written_again os l e : let g := grun os in g_server g = true ->
  snd (basic_config g l e true) = Err (UserExc "Exception") /\
  let g' := grun (os ++ [GBasic l e true]) in
  forall n level id, g_making g' = None -> passes g' n level -> 0 <= level ->
  times (is_console g') (news g' (fst (log g' n level id))) = S (basics os).
Proof.
  intros g S0. split.
  - unfold basic_config, start_log_server. destruct e; unfold log_exceptions; cbn [g_server]; rewrite S0; reflexivity.
  - intros g' n level id M P H. pose proof (written_times _ n level id M P H) as W. cbn zeta in W. fold g' in W. rewrite W.
    unfold basics. rewrite filter_app, app_length. cbn. lia.
Qed.

Lemma nodup_to hs : NoDup hs -> NoDup (map To hs).
Proof.
  induction 1; cbn; constructor; auto. intros X. apply in_map_iff in X. destruct X as (y & Y & Z). injection Y as ->. contradiction.
Qed.
Lemma reported os os' u : forallb keeps_hooks os' = true -> is_error u -> let g := grun (os ++ GExceptions :: os') in
  g_making g = None -> g_level (g_tree g []) <> 0 -> g_level (g_tree g []) <= 30 ->
  exists g' l, ends_with g u = (g', Logged l) /\ NoDup l /\
    (g_hand (g_tree g []) = [] -> l = [ToStderr]) /\
    (g_hand (g_tree g []) <> [] -> forall d, In d l <-> exists h, d = To h /\ In h (g_hand (g_tree g [])) /\ takes g h 30).
Proof.
  intros K _ g M L0 L. destruct (installed os os' K) as [A B]. fold g in A, B. rewrite (uncaught_logged g u A B), log_root by auto.
  eexists _, _. split; [reflexivity|]. pose proof (fits_run (os ++ GExceptions :: os')) as G. fold g in G. destruct G as (_ & N & _). specialize (N []).
  destruct (g_hand (g_tree g [])) as [|h0 hs] eqn:E; (split; [|split; [intros X; try discriminate; reflexivity|]]).
  - repeat constructor. auto.
  - intros X. congruence.
  - apply nodup_to. apply NoDup_filter. exact N.
  - intros _ d. rewrite in_map_iff. split.
    + intros (h & <- & X). apply filter_In in X. destruct X as [X Y]. exists h. split; [reflexivity|]. split; [exact X|]. apply takes_hlevel. apply Z.leb_le. exact Y.
    + intros (h & -> & X & Y). exists h. split; [reflexivity|]. apply filter_In. split; [exact X|]. apply Z.leb_le. apply takes_hlevel. exact Y.
Qed.
Lemma vanishes os level s u : let g := grun os in python_hooks g -> is_error u -> 30 < level ->
  snd (ends_with g u) = Printed /\ snd (ends_with (fst (basic_config g level true s)) u) = Logged [].
Proof.
  intros g [A B] U L. split.
  - unfold ends_with. destruct u; rewrite ?A, ?B; try reflexivity. destruct U.
  - set (g' := fst (basic_config g level true s)).
    assert (X : g_sys g' = HkLog /\ g_thread g' = HkLog /\ g_level (g_tree g' []) = level).
    { unfold g', basic_config, start_log_server, log_exceptions. destruct s; cbn [g_server]; [destruct (g_server g)|]; cbn [fst g_sys g_thread g_tree];
        rewrite A, B; (split; [reflexivity|]; split; [reflexivity|]); unfold add_handler; rewrite set_lg_same; cbn [g_level]; rewrite set_lg_same; reflexivity. }
    destruct X as (X1 & X2 & X3). rewrite uncaught_logged by auto. rewrite log_dropped by (rewrite X3; exact L). reflexivity.
Qed.
Lemma exit_reported os id : let g := grun os in python_hooks g -> g_making g = None ->
  g_level (g_tree g []) <> 0 -> g_level (g_tree g []) <= 30 ->
  (g_hand (g_tree g []) = [] \/ exists h, In h (g_hand (g_tree g [])) /\ takes g h 30) ->
  snd (ends_with g (ExitInThread id)) = Silent /\
  exists l, snd (ends_with (gstep g GExceptions) (ExitInThread id)) = Logged l /\ l <> [].
Proof.
  intros g [A B] M L0 L H. split.
  - unfold ends_with. rewrite B. reflexivity.
  - set (g' := gstep g GExceptions). assert (A' : g_sys g' = HkLog) by (cbn; rewrite A; reflexivity).
    assert (B' : g_thread g' = HkLog) by (cbn; rewrite B; reflexivity).
    rewrite uncaught_logged by auto. rewrite log_root by auto. eexists. split; [reflexivity|].
    change (g_tree g') with (g_tree g). destruct H as [H|(h & H1 & H2)]; [rewrite H; discriminate|].
    intros X. destruct (g_hand (g_tree g [])) eqn:E; [discriminate|].
    assert (Y : In (To h) (map To (filter (fun h => hlevel (kind_of g' h) <=? 30) (g_hand (g_tree g []))))).
    { apply in_map. rewrite E. apply filter_In. split; [exact H1|]. apply Z.leb_le. apply takes_hlevel in H2. exact H2. }
    rewrite E, X in Y. contradiction.
Qed.
