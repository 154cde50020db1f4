(** Proofs about log forwarding. *)
From Verif Require Import Py LogFwdModel LogFwdSpec.

Lemma emb_app_skip {A B} (R : A -> B -> Prop) a b c : embeds R a b -> embeds R a (b ++ c).
Proof.
  induction 1; cbn; [|apply emb_skip; assumption|apply emb_take; assumption].
  induction c; constructor; assumption.
Qed.
Lemma emb_app_take {A B} (R : A -> B -> Prop) a b x y : embeds R a b -> R x y -> embeds R (a ++ [x]) (b ++ [y]).
Proof.
  intros H H1. induction H; cbn; [apply emb_take; [exact H1|constructor]|apply emb_skip; auto|apply emb_take; auto].
Qed.

Lemma handled_app a b : handled (a ++ b) = handled a ++ handled b.
Proof. induction a as [|[] a IH]; cbn; rewrite ?IH; auto. Qed.
Lemma queued_app q o n x y z w u :
  queued (mkFS (q ++ [o]) n x y z w u) = queued (mkFS q n x y z w u) ++ match o with Some r => [r] | None => [] end.
Proof. unfold queued. cbn. rewrite flat_map_app. cbn. rewrite app_nil_r. reflexivity. Qed.

Section P.
  Variable fmt : string -> list string -> res string.
  Variable n : names.
  Notation run := (frun fmt n).

  Lemma prepare_about r w : prepare fmt n r = Ok w -> is_about fmt w r.
  Proof.
    unfold prepare, is_about, get_message. destruct (f_args r) as [[|a l]|]; cbn; try discriminate.
    - intros [= <-]. cbn. auto.
    - destruct (fmt (f_msg r) (a :: l)); cbn; [|discriminate]. intros [= <-]. cbn. auto.
  Qed.

  (** what the thread is about to send is about the record it has in hand *)
  Definition made_of (w : wrec) (r : frec) : Prop := prepare fmt n r = Ok w.
  Definition th_ok (t : fth) : Prop := match t with FSend _ r w => made_of w r | _ => True end.

  Record fwd_inv (s : fst_) (h : list frec) : Prop := {
    fi_th : th_ok (s_th s);
    fi_split : exists d, h = d ++ in_hand s ++ queued s /\ embeds made_of (sent s) d }.

  Lemma fwd_inv_run s h : fwd_inv s h -> fwd_inv (frun1 fmt n s) h.
  Proof.
    intros [T (d & E & M)]. destruct s as [q sk nx sh th c se].
    unfold frun1; cbn [s_th s_q s_sock s_shut s_sent s_next s_call] in *.
    unfold in_hand, queued, sent in *; cbn [s_th s_q s_sock s_shut s_sent s_next s_call] in *.
    destruct th as [|r|r|k r w| |e]; cbn in E, T.
    - destruct q as [|[r|] q]; cbn in E.
      + split; auto. exists d. auto.
      + split; [exact I|]. exists d. auto.
      + split; [exact I|]. exists d. auto.
    - destruct sk; (split; [exact I|]); [exists d; auto|].
      exists (d ++ [r]). cbn. rewrite <- app_assoc. split; auto. apply emb_app_skip, M.
    - destruct (prepare fmt n r) as [w|e] eqn:P.
      2:{ split; [exact I|]. exists (d ++ [r]). cbn. rewrite <- app_assoc. split; auto. apply emb_app_skip, M. }
      destruct sk as [k|].
      2:{ split; [exact I|]. exists (d ++ [r]). cbn. rewrite <- app_assoc. split; auto. apply emb_app_skip, M. }
      unfold dumps. destruct (f_json r).
      + split; [exact P|]. exists d. auto.
      + split; [exact I|]. exists (d ++ [r]). cbn. rewrite <- app_assoc. split; auto. apply emb_app_skip, M.
    - destruct (existsb (Nat.eqb k) sh).
      + split; [exact I|]. exists (d ++ [r]). cbn. rewrite <- app_assoc. split; auto. apply emb_app_skip, M.
      + split; [exact I|]. exists (d ++ [r]). unfold in_hand, queued, sent. cbn.
        rewrite map_app, <- app_assoc. split; auto. apply emb_app_take; auto.
    - split; auto. exists d. auto.
    - split; auto. exists d. auto.
  Qed.

  Lemma fwd_inv_step s h l : fwd_inv s h -> fwd_inv (fstep fmt n s l) (h ++ handled [l]).
  Proof.
    intros V. pose proof V as [T (d & E & M)]. destruct l; cbn [handled]; rewrite ?app_nil_r.
    - destruct s as [q sk nx sh th c se]. split; [exact T|]. exists d. cbn [fstep s_q s_sock s_next s_shut s_th s_call s_sent].
      rewrite queued_app. subst h. rewrite <- !app_assoc. split; auto.
    - apply fwd_inv_run, V.
    - cbn. destruct (s_call s); auto; split; [exact T|exists d; auto].
    - cbn. destruct (s_call s); auto; split; [exact T|exists d; auto].
    - cbn. destruct (s_call s) eqn:Hc; auto. split; [exact T|]. exists d. rewrite queued_app. cbn. rewrite app_nil_r. auto.
    - cbn. destruct (s_call s); auto; split; [exact T|exists d; auto].
    - cbn. destruct (s_call s); auto; split; [exact T|exists d; auto].
  Qed.

  Lemma fwd_inv_runs ls s h : fwd_inv s h -> fwd_inv (run s ls) (h ++ handled ls).
  Proof.
    revert s h. induction ls as [|l ls IH]; intros s h V; cbn [frun fold_left].
    - cbn. rewrite app_nil_r. exact V.
    - change (l :: ls) with ([l] ++ ls). rewrite handled_app, app_assoc. apply IH, fwd_inv_step, V.
  Qed.

  Lemma fwd_inv_0 : fwd_inv fs0 [].
  Proof. split; [exact I|]. exists []. split; [reflexivity|constructor]. Qed.

  Lemma emb_app_r {A B} (R : A -> B -> Prop) a b c : embeds R a b -> embeds R a (b ++ c).
  Proof. apply emb_app_skip. Qed.

  Lemma sent_made ls : embeds made_of (sent (run fs0 ls)) (handled ls).
  Proof.
    destruct (fwd_inv_runs ls fs0 [] fwd_inv_0) as [_ (d & E & M)]. cbn in E. rewrite E. apply emb_app_skip, M.
  Qed.

  Lemma sent_in_order ls : embeds (is_about fmt) (sent (run fs0 ls)) (handled ls).
  Proof.
    generalize (sent_made ls). induction 1; [constructor|apply emb_skip; auto|apply emb_take; auto].
    apply prepare_about. assumption.
  Qed.
  Lemma embeds_in {A B} (R : A -> B -> Prop) a b x : embeds R a b -> In x a -> exists y, In y b /\ R x y.
  Proof.
    induction 1 as [|a b y E IH|a b x' y H E IH]; intros I; [destruct I| |].
    - destruct (IH I) as (z & Z & Q). exists z. split; [right; exact Z|exact Q].
    - destruct I as [<-|I]; [exists y; split; [left; reflexivity|exact H]|].
      destruct (IH I) as (z & Z & Q). exists z. split; [right; exact Z|exact Q].
  Qed.
  Lemma sent_from ls w : In w (sent (run fs0 ls)) -> exists r, In r (handled ls) /\ made_of w r.
  Proof. apply embeds_in, sent_made. Qed.

  (** the attributes added by the sender *)
  Lemma made_attrs w r : made_of w r ->
    w_attrs w = dset (dset (match n_process n with Some p => dset (f_attrs r) "process_name" p | None => f_attrs r end)
                   "thread_name" (match dget (n_threads n) (f_thread r) with Some t => t | None => f_threadName r end))
                   "host_name" (n_host n).
  Proof.
    unfold made_of, prepare. destruct (f_args r) as [[|a l]|]; cbn; try discriminate.
    - intros [= <-]. reflexivity.
    - destruct (fmt (f_msg r) (a :: l)); cbn; [|discriminate]. intros [= <-]. reflexivity.
  Qed.
  Lemma made_header hex n' w r : made_of w r ->
    snd (fst (header hex n' (make_record w))) =
      (match n_process n with Some p => Some p | None => match dget (f_attrs r) "process_name" with Some p => Some p | None => n_process n' end end) /\
    snd (header hex n' (make_record w)) = (match dget (n_threads n) (f_thread r) with Some t => t | None => f_threadName r end) /\
    fst (fst (header hex n' (make_record w))) = match dget (f_attrs r) "hostname" with Some h => h | None => n_host n' end.
  Proof.
    intros M. unfold header, attr_or, make_record. cbn [f_attrs fst snd]. rewrite (made_attrs _ _ M).
    rewrite !dget_dset_same || idtac.
    destruct (n_process n) as [p|];
      repeat first [rewrite dget_dset_same | rewrite dget_dset_other by discriminate]; auto.
  Qed.

  (** ** no loss while connected *)
  Definition th_live (k : nat) (t : fth) : Prop :=
    match t with FWait => True | FGot r | FChecked r => sendable fmt r
               | FSend k' r w => k' = k /\ is_about fmt w r | FEnd | FDead _ => False end.
  Record live_inv (k : nat) (s : fst_) (h : list frec) : Prop := {
    li_sock : s_sock s = Some k;
    li_old : Forall (fun j => j < s_next s)%nat (s_shut s) /\ (k < s_next s)%nat /\ s_call s = CIdle;
    li_open : ~ In k (s_shut s);
    li_th : th_live k (s_th s);
    li_q : Forall (fun o => match o with Some r => sendable fmt r | None => False end) (s_q s);
    li_split : exists d, h = d ++ in_hand s ++ queued s /\ Forall2 (is_about fmt) (sent s) d }.

  Lemma prepare_ok r : sendable fmt r -> exists w, prepare fmt n r = Ok w /\ f_json r = true.
  Proof.
    intros (J & A & t & G). unfold prepare, get_message in *. destruct (f_args r) as [[|a l]|]; [| |congruence].
    - eexists. split; [reflexivity|exact J].
    - rewrite G. cbn. eexists. split; [reflexivity|exact J].
  Qed.

  Lemma open_not_in k l : ~ In k l -> existsb (Nat.eqb k) l = false.
  Proof.
    intros N. destruct (existsb (Nat.eqb k) l) eqn:E; auto. apply existsb_exists in E. destruct E as (x & I & Q).
    apply Nat.eqb_eq in Q. subst x. contradiction.
  Qed.
  Lemma live_run k s h : live_inv k s h -> live_inv k (frun1 fmt n s) h.
  Proof.
    intros [S L O T Q (d & E & M)]. destruct s as [q sk nx sh th c se].
    unfold frun1; unfold in_hand, queued, sent in *; cbn [s_th s_q s_sock s_shut s_sent s_next s_call] in *. subst sk.
    destruct th as [|r|r|k' r w| |e]; cbn in E, T; try contradiction.
    - destruct q as [|[r|] q]; cbn in E.
      + split; auto. exists d. auto.
      + inversion Q; subst. split; auto; cbn. exists d. auto.
      + inversion Q; subst. contradiction.
    - split; auto. exists d. auto.
    - destruct (prepare_ok r T) as (w & P & J). rewrite P. unfold dumps. rewrite J.
      split; auto; cbn. { split; auto. exact (prepare_about _ _ P). } exists d. auto.
    - destruct T as [-> A]. rewrite (open_not_in _ _ O). split; cbn; auto. exists (d ++ [r]). unfold in_hand, queued, sent. cbn.
      rewrite map_app, <- app_assoc. split; auto. apply Forall2_app; auto. constructor; auto.
  Qed.
  Lemma live_step k s h l : ordinary l -> Forall (sendable fmt) (handled [l]) -> live_inv k s h ->
    live_inv k (fstep fmt n s l) (h ++ handled [l]).
  Proof.
    intros O F V. destruct l; cbn in O; try contradiction; cbn [handled].
    - destruct V as [S L Op T Q (d & E & M)]. destruct s as [q sk nx sh th c se].
      split; auto; cbn [fstep s_q s_sock s_next s_shut s_th s_call s_sent].
      + apply Forall_app. split; [exact Q|]. constructor; auto. inversion F; auto.
      + exists d. rewrite queued_app. subst h. rewrite <- !app_assoc. split; auto.
    - rewrite app_nil_r. apply live_run, V.
  Qed.
  (** connecting again between two records *)
  Lemma live_again k s h : s_th s = FWait -> live_inv k s h ->
    live_inv (s_next s) (run s [LConnect; LConnect2]) h.
  Proof.
    intros W [S (L1 & L2 & L3) O T Q D]. destruct s as [q sk nx sh th c se].
    cbn in *. subst sk c th. cbn. split; cbn; auto.
    - repeat split; auto. constructor; [lia|]. eapply Forall_impl; [|exact L1]. cbn. lia.
    - intros [->|I]; [lia|]. rewrite Forall_forall in L1. specialize (L1 _ I). lia.
  Qed.
  Lemma live_0 : live_inv 0 (run fs0 [LConnect; LConnect2]) [].
  Proof. split; cbn; auto. exists []. split; [reflexivity|constructor]. Qed.
  Lemma live_runs s ls k h : between_records fmt n s ls -> Forall (sendable fmt) (handled ls) -> live_inv k s h ->
    exists k', live_inv k' (run s ls) (h ++ handled ls).
  Proof.
    intros B. revert k h. induction B as [s|s l ls O B IH|s ls W B IH]; intros k h F V; cbn [frun fold_left].
    - exists k. cbn. rewrite app_nil_r. exact V.
    - change (l :: ls) with ([l] ++ ls) in *. rewrite handled_app in F |- *. rewrite app_assoc. apply Forall_app in F.
      apply (IH k); [apply F|]. apply live_step; tauto.
    - cbn [handled] in *. apply (IH (s_next s)); [exact F|]. apply (live_again k); assumption.
  Qed.
  Lemma ordinary_between ls : Forall ordinary ls -> forall s, between_records fmt n s ls.
  Proof. induction 1; intros; constructor; auto. Qed.

  (** work left: steps until the thread has sent everything *)
  Definition work (s : fst_) : nat :=
    (match s_th s with FWait => 0 | FGot _ => 3 | FChecked _ => 2 | FSend _ _ _ => 1 | _ => 0 end + 4 * List.length (s_q s))%nat.
  Lemma live_work k s h : live_inv k s h -> work (frun1 fmt n s) = pred (work s).
  Proof.
    intros [S L O T Q _]. destruct s as [q sk nx sh th c se]. unfold work, frun1.
    cbn [s_th s_q s_sock s_shut s_sent s_next s_call] in *. subst sk.
    destruct th as [|r|r|k' r w| |e]; cbn in T; try contradiction.
    - destruct q as [|[r|] q]; cbn [set_th s_th s_q List.length]; [reflexivity|lia|inversion Q; contradiction].
    - cbn [set_th s_th s_q]. lia.
    - destruct (prepare_ok r T) as (w & P & J). rewrite P. unfold dumps. rewrite J. cbn [set_th s_th s_q]. lia.
    - destruct T as [-> _]. rewrite (open_not_in _ _ O). cbn [s_th s_q]. lia.
  Qed.
  Lemma live_drain k m s h : live_inv k s h -> (work s <= m)%nat ->
    live_inv k (run s (repeat LRun m)) h /\ work (run s (repeat LRun m)) = 0%nat.
  Proof.
    revert s. induction m as [|m IH]; intros s V W.
    - cbn. split; auto. lia.
    - cbn [repeat frun fold_left]. pose proof (live_work _ _ _ V).
      apply (IH (frun1 fmt n s)); [apply live_run, V|lia].
  Qed.
  Lemma live_done k s h : live_inv k s h -> work s = 0%nat -> Forall2 (is_about fmt) (sent s) h.
  Proof.
    intros [S L O T Q (d & E & M)] W. unfold work in W. destruct (s_q s) eqn:Hq; [|cbn in W; lia].
    unfold in_hand, queued in E. rewrite Hq in E. destruct (s_th s); cbn in *; try lia; try contradiction.
    rewrite app_nil_r in E. congruence.
  Qed.

  Lemma all_arrive_between ls : between_records fmt n (run fs0 [LConnect; LConnect2]) ls -> Forall (sendable fmt) (handled ls) ->
    exists m, forall m', (m <= m')%nat ->
    Forall2 (is_about fmt) (sent (run fs0 ([LConnect; LConnect2] ++ ls ++ repeat LRun m'))) (handled ls).
  Proof.
    intros O F.
    destruct (live_runs _ ls 0%nat [] O F live_0) as (k & V). exists (work (run (run fs0 [LConnect; LConnect2]) ls)).
    intros m' L. unfold frun. rewrite !fold_left_app. destruct (live_drain _ m' _ _ V L) as [V' W']. exact (live_done _ _ _ V' W').
  Qed.
  Lemma all_arrive ls : Forall ordinary ls -> Forall (sendable fmt) (handled ls) ->
    exists m, forall m', (m <= m')%nat ->
    Forall2 (is_about fmt) (sent (run fs0 ([LConnect; LConnect2] ++ ls ++ repeat LRun m'))) (handled ls).
  Proof. intros O. apply all_arrive_between, ordinary_between, O. Qed.

  Lemma none_missing ls : Forall ordinary ls -> Forall (sendable fmt) (handled ls) ->
    let s := run fs0 ([LConnect; LConnect2] ++ ls) in
    exists d, handled ls = d ++ in_hand s ++ queued s /\ Forall2 (is_about fmt) (sent s) d.
  Proof.
    intros O F. unfold frun. rewrite fold_left_app.
    destruct (live_runs _ ls 0%nat [] (ordinary_between ls O _) F live_0) as (k & V). apply V.
  Qed.

  (** ** a dead thread sends no more *)
  Lemma dead_stays s e ls : s_th s = FDead e -> s_sent (run s ls) = s_sent s /\ s_th (run s ls) = FDead e.
  Proof.
    revert s. induction ls as [|l ls IH]; intros s D; cbn [frun fold_left]; auto.
    assert (D' : s_th (fstep fmt n s l) = FDead e /\ s_sent (fstep fmt n s l) = s_sent s).
    { destruct l; cbn; unfold frun1; rewrite ?D; auto; destruct (s_call s); auto. }
    destruct D' as [D1 D2]. destruct (IH _ D1) as [A B]. unfold frun in A, B. rewrite A, B, D2. auto.
  Qed.

  Lemma unsendable_dies r : ~ sendable fmt r -> exists e,
    s_th (run fs0 [LConnect; LConnect2; LHandle r; LRun; LRun; LRun]) = FDead e /\
    s_sent (run fs0 [LConnect; LConnect2; LHandle r; LRun; LRun; LRun]) = [].
  Proof.
    intros N. cbn. destruct (prepare fmt n r) as [w|e] eqn:P; [|exists e; auto].
    unfold dumps. destruct (f_json r) eqn:J; [|exists TypeError; auto].
    exfalso. apply N. split; [exact J|]. pose proof (prepare_about _ _ P) as (_ & _ & G & _).
    split; [|eauto]. intros A. unfold prepare in P. rewrite A in P. discriminate.
  Qed.
  Lemma unsendable_kills r ls : ~ sendable fmt r ->
    sent (run fs0 ([LConnect; LConnect2; LHandle r; LRun; LRun; LRun] ++ ls)) = [].
  Proof.
    intros N. destruct (unsendable_dies r N) as (e & D & E). unfold frun in *. rewrite fold_left_app. unfold sent.
    destruct (dead_stays _ e ls D) as [A _]. unfold frun in A. rewrite A, E. reflexivity.
  Qed.

  (** ** close() drops what is queued *)
  Lemma unconnected s ls : s_sock s = None -> s_call s <> CConn -> ~ In LConnect ls ->
    (match s_th s with FSend _ _ _ => False | _ => True end) -> s_sent (run s ls) = s_sent s.
  Proof.
    revert s. induction ls as [|l ls IH]; intros s K C N T; cbn [frun fold_left]; auto.
    assert (B : s_sock (fstep fmt n s l) = None /\ s_call (fstep fmt n s l) <> CConn /\
                s_sent (fstep fmt n s l) = s_sent s /\
                match s_th (fstep fmt n s l) with FSend _ _ _ => False | _ => True end).
    { destruct s as [q sk nx sh th c se]. cbn in K. subst sk.
      destruct l; cbn in *; auto; try (exfalso; apply N; left; reflexivity); try (destruct c; cbn; repeat split; auto; congruence).
      - unfold frun1. cbn. destruct th as [|r|r|k r w| |]; cbn; auto.
        + destruct q as [|[|] q]; cbn; auto.
        + destruct (prepare fmt n r); cbn; auto.
        + destruct T.
      }
    destruct B as (B1 & B2 & B3 & B4). rewrite <- B3. apply IH; auto. intros H. apply N. right. exact H.
  Qed.
End P.

Lemma sendable_forwards fmt n r : sendable fmt r -> exists w, forwards fmt n r w /\ prepare fmt n r = Ok w.
Proof.
  intros S. destruct (prepare_ok fmt n r S) as (w & P & J). exists w. split; [|exact P].
  exists [LConnect; LConnect2; LHandle r; LRun; LRun; LRun; LRun]. split; [reflexivity|].
  cbn. rewrite P. unfold dumps. rewrite J. reflexivity.
Qed.
Lemma received_sendable fmt w : sendable fmt (make_record w).
Proof. split; [reflexivity|]. split; [discriminate|]. eexists. reflexivity. Qed.

Lemma text_survives fmt n ls w : In w (sent (frun fmt n fs0 ls)) ->
  exists r, In r (handled ls) /\ get_message fmt (make_record w) = get_message fmt r /\ f_level (make_record w) = f_level r /\
  forall n', exists w', forwards fmt n' (make_record w) w' /\
    get_message fmt (make_record w') = get_message fmt r /\ f_level (make_record w') = f_level r.
Proof.
  intros I. destruct (sent_from _ _ _ _ I) as (r & R & M). exists r. split; [exact R|].
  destruct (prepare_about _ _ _ _ M) as (_ & B & C & _). split; [exact (eq_sym C)|]. split; [exact B|].
  intros n'. destruct (sendable_forwards fmt n' _ (received_sendable fmt w)) as (w' & F & P). exists w'. split; [exact F|].
  destruct (prepare_about _ _ _ _ P) as (_ & B' & C' & _).
  split; [exact (eq_trans (eq_sym C') (eq_sym C))|exact (eq_trans B' B)].
Qed.
Lemma process_and_thread fmt hex n n' ls w p : n_process n = Some p -> In w (sent (frun fmt n fs0 ls)) ->
  exists r, In r (handled ls) /\ is_about fmt w r /\
  snd (fst (header hex n' (make_record w))) = Some p /\ snd (header hex n' (make_record w)) = thread_name n r.
Proof.
  intros N I. destruct (sent_from _ _ _ _ I) as (r & R & M). exists r. split; [exact R|]. split; [exact (prepare_about _ _ _ _ M)|].
  destruct (made_header _ _ hex n' _ _ M) as (A & B & _). rewrite N in A. auto.
Qed.
Lemma host_shown fmt hex n n' r : sendable fmt r -> dget (f_attrs r) "hostname" = None ->
  exists w, forwards fmt n r w /\ fst (fst (header hex n' (make_record w))) = n_host n'.
Proof.
  intros S H. destruct (sendable_forwards fmt n _ S) as (w & F & P). exists w. split; [exact F|].
  destruct (made_header _ _ hex n' _ _ P) as (_ & _ & A). rewrite H in A. exact A.
Qed.
Lemma second_hop fmt hex n n1 n2 r p : sendable fmt r -> n_process n1 = Some p ->
  exists w w', forwards fmt n r w /\ forwards fmt n1 (make_record w) w' /\
  snd (fst (header hex n2 (make_record w'))) = Some p.
Proof.
  intros S N. destruct (sendable_forwards fmt n _ S) as (w & F & P). exists w.
  destruct (sendable_forwards fmt n1 _ (received_sendable fmt w)) as (w' & F' & P'). exists w'. split; [exact F|]. split; [exact F'|].
  destruct (made_header _ _ hex n2 _ _ P') as (A & _). rewrite N in A. exact A.
Qed.

(** ** the server *)
Lemma server_filters b ms : Forall (fun m => fst m <> None) ms ->
  snd (server_run b ms) = true /\
  Forall2 (fun r m => exists w, fst m = Some w /\ f_id r = w_id w /\ f_level r = w_level w /\
                      (forall fmt, get_message fmt r = Ok (w_msg w)) /\ f_thread r = w_thread w /\
                      f_threadName r = w_threadName w /\ f_attrs r = w_attrs w)
    (fst (server_run b ms))
    (filter (fun m => match fst m with Some w => if b then (snd m <=? w_level w)%Z else true | None => true end) ms).
Proof.
  intros F. induction F as [|[[w|] lv] ms N F IH]; cbn in *; [split; [reflexivity|constructor]| |congruence].
  destruct (server_run b ms) as [out al]. destruct IH as (A & K). cbn in *. split; [exact A|].
  assert (Q : exists w0, Some w = Some w0 /\ w_id w = w_id w0 /\ w_level w = w_level w0 /\
     (forall fmt : string -> list string -> res string, Ok (w_msg w) = Ok (w_msg w0)) /\ w_thread w = w_thread w0 /\ w_threadName w = w_threadName w0 /\ w_attrs w = w_attrs w0)
   by (exists w; repeat split; reflexivity).
  destruct b; cbn; [|constructor; auto].
  rewrite Z.ltb_antisym. destruct (lv <=? w_level w)%Z; cbn; auto.
Qed.
