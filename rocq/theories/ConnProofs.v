(** Lemmas about the state of a connection. *)
From Verif Require Import Py ObjTableModel SerModel SerSpec FrameModel ServerModel ClientModel WireSpec ServerProofs ClientProofs
  RpcModel RpcSpec RpcInv RpcInv4 RpcProofs RpcProofs2 ConnModel ConnSpec.

(** ** What receiving leaves alone *)
Definition same_conf (k k' : cl) : Prop :=
  c_ser k' = c_ser k /\ c_local k' = c_local k /\ c_st k' = c_st k /\ c_open k' = c_open k.
Lemma same_refl k : same_conf k k. Proof. repeat split. Qed.
Lemma same_trans a b c : same_conf a b -> same_conf b c -> same_conf a c.
Proof. intros (A1 & A2 & A3 & A4) (B1 & B2 & B3 & B4). repeat split; congruence. Qed.
Lemma complete_conf k rid b o : same_conf k (complete k rid b o).
Proof. unfold complete. destruct b; [|repeat split]. destruct o as [[]|]; try (repeat split; fail). destruct b; repeat split. Qed.
Lemma complete_mono k rid b o : c_disc k = true -> c_disc (complete k rid b o) = true.
Proof. intro D. unfold complete. destruct b; [|exact D]. destruct o as [[]|]; try exact D. destruct b; auto. Qed.
Lemma complete_less k rid b o i : In i (dkeys (c_futs (complete k rid b o))) -> In i (dkeys (c_futs k)).
Proof. unfold complete. destruct b; [|auto]. destruct o as [[]|]; auto. destruct b; [intros []|auto]. Qed.

Lemma process_frame k v k' x : process_msg k v = (k', x) ->
  same_conf k k' /\ (c_disc k = true -> c_disc k' = true) /\ (forall i, pending k' i -> pending k i).
Proof.
  assert (S : same_conf k k /\ (c_disc k = true -> c_disc k = true) /\ (forall i, pending k i -> pending k i))
    by (split; [apply same_refl|auto]).
  assert (Dl : forall z i, In i (dkeys (ddel (c_futs k) z)) -> In i (dkeys (c_futs k)))
    by (intros z i; apply dkeys_ddel_incl).
  assert (P : forall z, let k1 := set_futs k (ddel (c_futs k) z) in
     same_conf k k1 /\ (c_disc k = true -> c_disc k1 = true) /\ (forall i, pending k1 i -> pending k i)).
  { intro z. split; [repeat split|]. split; [auto|]. apply Dl. }
  assert (C : forall z b o, let k1 := complete (set_futs k (ddel (c_futs k) z)) z b o in
     same_conf k k1 /\ (c_disc k = true -> c_disc k1 = true) /\ (forall i, pending k1 i -> pending k i)).
  { intros z b o. split; [eapply same_trans; [|apply complete_conf]; repeat split|].
    split; [intro D; apply complete_mono; exact D|]. intros i Hi. apply complete_less in Hi. apply Dl in Hi. exact Hi. }
  unfold process_msg. destruct v; try (intros [= <- _]; exact S).
  destruct (field d "action") as [a|]; [|intros [= <- _]; exact S].
  destruct a; try (intros [= <- _]; exact S).
  destruct (String.eqb s "return").
  - destruct (field d "req_id") as [q|]; [|intros [= <- _]; exact S].
    destruct q; try (intros [= <- _]; exact S).
    destruct (dget (c_futs k) z) as [b|] eqn:G; [|intros [= <- _]; exact S].
    destruct (field d "error") as [er|]; [|intros [= <- _]; apply P].
    destruct er; try (destruct (remote_exc _); intros [= <- _]; [apply C|apply P]; fail).
    destruct (field d "rval"); intros [= <- _]; [apply C|apply P].
  - destruct (String.eqb s "disconnect"); intros [= <- _]; [|exact S].
    split; [repeat split|]. split; [reflexivity|]. intros i [].
Qed.
Lemma recv_frame V k p k' x : client_recv V k p = (k', x) ->
  same_conf k k' /\ (c_disc k = true -> c_disc k' = true) /\ (forall i, pending k' i -> pending k i).
Proof.
  unfold client_recv. destruct (loads _ _ _ _ _); [apply process_frame|].
  intros [= <- _]. split; [apply same_refl|auto].
Qed.


Lemma recv_pend V k p k' i : futures_ok k -> client_recv V k p = (k', None) -> pending k i ->
  pending k' i \/ exists o, finished k' i o.
Proof.
  intros F R P. unfold client_recv in R. destruct (loads _ _ _ _ _) as [v|]; [|discriminate R].
  assert (C : forall z b o, In i (dkeys (c_futs (complete (set_futs k (ddel (c_futs k) z)) z b o))) \/
                            exists o', dget (c_done (complete (set_futs k (ddel (c_futs k) z)) z b o)) i = Some o').
  { intros z b o.
    destruct (complete_pend k z b o i P) as [H|H]; [auto|]. apply dkey_dget in H. auto. }
  revert R. unfold process_msg. destruct v; try discriminate.
  destruct (field d "action") as [a|]; [|discriminate]. destruct a; try discriminate.
  destruct (String.eqb s "return").
  - destruct (field d "req_id") as [q|]; [|discriminate].
    destruct q; try (intros [= <-]; auto; fail).
    destruct (dget (c_futs k) z) as [b|] eqn:G; [|intros [= <-]; auto].
    destruct (field d "error") as [er|]; [|discriminate].
    destruct er; try (destruct (remote_exc _); [intros [= <-]; apply C|discriminate]; fail).
    destruct (field d "rval"); [intros [= <-]; apply C|discriminate].
  - destruct (String.eqb s "disconnect"); [|discriminate]. intros [= <-]. right. exists (Err RuntimeError).
    unfold finished. rewrite disconnected_done. apply smem_In in P. rewrite P. reflexivity.
Qed.

Section Conn.
  Variable V : venv.
  Hypothesis GV : good_venv V.

  Lemma read_all_frame inbox : forall k k' rest x, read_all V k inbox = (k', rest, x) ->
    same_conf k k' /\ (c_disc k = true -> c_disc k' = true) /\ (forall i, pending k' i -> pending k i).
  Proof.
    induction inbox as [|p r IH]; intros k k' rest x; cbn [read_all].
    - intros [= <- _ _]. split; [apply same_refl|auto].
    - destruct (client_recv V k p) as [k1 e] eqn:R. destruct (recv_frame V _ _ _ _ R) as (A & B & C).
      destruct e as [e|].
      + assert (K : k1 = k' -> same_conf k k' /\ (c_disc k = true -> c_disc k' = true) /\ (forall i, pending k' i -> pending k i))
          by (intros <-; auto).
        destruct e; intros [= H _ _]; exact (K H).
      + intro H. destruct (IH _ _ _ _ H) as (A' & B' & C'). split; [eapply same_trans; eauto|]. split; auto.
  Qed.

  Lemma decodable_conf k k' ps : same_conf k k' -> decodable V k ps -> decodable V k' ps.
  Proof. intros (A & B & C & _) D p H. rewrite A, B, C. apply D. exact H. Qed.


  (** ** In a run of the whole system *)
  Variable cap : nat.
  Variable sers : list string.
  Notation I := (Inv V sers [] None).

  Lemma crecv_step y c k p rest : dget (y_cl y) c = Some k -> queue (y_down y) c = p :: rest ->
    let y' := ystep V cap y (CRecv c) in
    dget (y_cl y') c = Some (fst (client_recv V k p)) /\ queue (y_down y') c = rest /\ y_sv y' = y_sv y /\
    (forall e, In e (y_log y) -> In e (y_log y')).
  Proof.
    intros K Q. cbn [ystep]. rewrite K, Q. destruct (client_recv V k p) as [k' e]. cbn [logged set_down set_cl y_cl y_down y_sv y_log].
    split; [apply dget_dset_same|]. split; [unfold queue; rewrite dget_dset_same; reflexivity|]. split; [reflexivity|].
    intros x H. apply in_or_app. auto.
  Qed.

  Lemma joins_recv c n : joins_supported sers (repeat (CRecv c) n).
  Proof. induction n; constructor; auto. Qed.

  Lemma read_all_run c inbox : forall y k k' rest x, dget (y_cl y) c = Some k -> queue (y_down y) c = inbox ->
    read_all V k inbox = (k', rest, x) ->
    exists n, let y' := yrun V cap y (repeat (CRecv c) n) in
      dget (y_cl y') c = Some k' /\ queue (y_down y') c = rest /\ y_sv y' = y_sv y.
  Proof.
    induction inbox as [|p r IH]; intros y k k' rest x K Q H; cbn [read_all] in H.
    - injection H as <- <- _. exists O. auto.
    - destruct (crecv_step y c k p r K Q) as (K1 & Q1 & S1 & _).
      destruct (client_recv V k p) as [k1 e]. cbn [fst] in K1. destruct e as [e|].
      + exists 1%nat. cbn [repeat yrun]. cbv zeta. rewrite K1, Q1, S1.
        destruct e; injection H as <- <- _; auto.
      + destruct (IH _ _ _ _ _ K1 Q1 H) as (n & A & B & C). exists (S n). cbn [repeat yrun]. cbv zeta.
        split; [exact A|]. split; [exact B|]. rewrite <- S1. exact C.
  Qed.

  (** a message that can be decoded is dealt with *)
  Lemma recv_ok y c k p rest v : I y -> dget (y_cl y) c = Some k -> queue (y_down y) c = p :: rest ->
    loads V (c_ser k) (c_local k) (c_st k) p = Ok v -> snd (client_recv V k p) = None.
  Proof.
    intros Iy K Q L.
    assert (W : In (EvTell c p) (y_log y) \/ exists m r, In (EvReply c m r p) (y_log y)).
    { apply (i_down _ _ _ _ _ Iy). rewrite Q. cbn. auto. }
    destruct W as [W|(m & r & W)].
    - destruct (i_tell _ _ _ _ _ Iy _ _ W) as (_ & _ & k1 & K1 & Ln). rewrite K in K1. injection K1 as <-.
      rewrite (recv_notice V k p (Ln _ _)). reflexivity.
    - destruct (i_reply _ _ _ _ _ Iy _ _ _ _ W) as (Rp & _ & X). pose proof (exec_sent V sers _ _ _ _ _ Iy X) as Sm.
      destruct (i_sent _ _ _ _ _ Iy _ _ Sm) as (k1 & K1 & Es & _). rewrite K in K1. injection K1 as <-. rewrite Es in Rp.
      unfold client_recv. destruct Rp as [e p L'|w f p L' F|w e p N L']; rewrite L' in *.
      + rewrite process_reply_err. destruct (dget (c_futs k) (m_req m)); reflexivity.
      + destruct (f (c_local k) (c_st k)) as [w'|e]; [|discriminate L]. cbn [bind]. rewrite process_reply_ok. destruct (dget (c_futs k) (m_req m)); reflexivity.
      + rewrite process_reply_err. destruct (dget (c_futs k) (m_req m)); reflexivity.
  Qed.

  Lemma inv_recv y c : I y -> I (ystep V cap y (CRecv c)).
  Proof. apply inv_crecv. exact GV. Qed.

  Lemma reply_settles y c k p rest m r : I y -> dget (y_cl y) c = Some k -> queue (y_down y) c = p :: rest ->
    In (EvReply c m r p) (y_log y) -> snd (client_recv V k p) = None -> ~ pending (fst (client_recv V k p)) (m_req m).
  Proof.
    intros Iy K Q W N.
    destruct (i_reply _ _ _ _ _ Iy _ _ _ _ W) as (Rp & _ & X). pose proof (exec_sent V sers _ _ _ _ _ Iy X) as Sm.
    destruct (i_sent _ _ _ _ _ Iy _ _ Sm) as (k1 & K1 & Es & _). rewrite K in K1. injection K1 as <-. rewrite Es in Rp.
    destruct (i_cl _ _ _ _ _ Iy _ _ K) as (_ & _ & _ & F).
    destruct (recv_reply V k m r p Rp) as [(e & E)|[(G & E)|(b & o & G & E & _)]]; rewrite E in *; cbn [fst snd] in *.
    - discriminate N.
    - intro P. apply dkey_dget in P. destruct P as [w P]. congruence.
    - intro P. apply complete_less in P. cbn [set_futs c_futs] in P. apply dkey_dget in P. destruct P as [w P].
      rewrite dget_ddel in P by apply F. rewrite eqb_refl in P. discriminate P.
  Qed.

  Lemma drained c inbox : forall y k, I y -> dget (y_cl y) c = Some k -> queue (y_down y) c = inbox -> decodable V k inbox ->
    exists k', read_all V k inbox = (k', [], None) /\ (goodbye V k inbox -> c_disc k' = true /\ forall i, ~ pending k' i) /\
      (forall i, pending k i -> pending k' i \/ exists o, finished k' i o) /\
      (forall i o, finished k i o -> finished k' i o) /\
      (forall p m r, In p inbox -> In (EvReply c m r p) (y_log y) -> ~ pending k' (m_req m)).
  Proof.
    induction inbox as [|p rest IH]; intros y k Iy K Q D.
    - exists k. cbn [read_all]. split; [reflexivity|]. split; [intros (p & [] & _)|]. split; [auto|]. split; [auto|intros p m r []].
    - destruct (D p (or_introl eq_refl)) as (v & L). pose proof (recv_ok y c k p rest v Iy K Q L) as N.
      destruct (crecv_step y c k p rest K Q) as (K1 & Q1 & S1 & Lg).
      pose proof (reply_settles y c k p rest) as RS.
      cbn [read_all]. destruct (client_recv V k p) as [k1 x] eqn:R. cbn [fst snd] in *. subst x.
      destruct (recv_frame V _ _ _ _ R) as (A & B & C).
      destruct (IH _ _ (inv_recv y c Iy) K1 Q1) as (k' & E & G & Pd & Kf & P).
      { eapply decodable_conf; [exact A|]. intros q Hq. apply D. right. exact Hq. }
      exists k'. split; [exact E|]. destruct (read_all_frame _ _ _ _ _ E) as (A' & B' & C'). destruct (i_cl _ _ _ _ _ Iy _ _ K) as (_ & _ & _ & F).
      destruct (ok_recv V k p k1 None F R) as [F1 Kp].
      split; [|split; [|split]].
      + intros (q & [<-|Hq] & Lq); [|apply G; exists q; destruct A as (-> & -> & -> & _); auto].
        rewrite (recv_notice V k p Lq) in R. injection R as <-. split; [apply B'; reflexivity|].
        intros i Z. apply C' in Z. destruct Z.
      + intros i Z. destruct (recv_pend V k p k1 i F R Z) as [Z1|(o & Z1)]; [apply Pd; exact Z1|].
        right. exists o. apply Kf. exact Z1.
      + intros i o Z. apply Kf. apply Kp. exact Z.
      + intros q m r [<-|Hq] W; [|eapply P; eauto]. intro Z. apply C' in Z. revert Z. eapply RS; eauto.
  Qed.

End Conn.

Section Top.
  Variable V : venv.
  Hypothesis GV : good_venv V.
  Variable cap : nat.
  Variable s : sv.
  Hypothesis FS : fresh_server s.
  Variable ls : list label.
  Hypothesis JS : joins_supported (sv_sers s) ls.
  Let y := yrun V cap (yinit s) ls.
  Let I : Inv V (sv_sers s) [] None y := run_inv V GV cap s FS ls JS.

  (** disconnected() is a number of deliveries *)
  Lemma asking_delivers c k : dget (y_cl y) c = Some k -> c_open k = true ->
    (forall p, In p (queue (y_down y) c) -> loads V (c_ser k) (c_local k) (c_st k) p <> Err ZMQError) ->
    exists n k' rest r, disconnected V k (queue (y_down y) c) = (k', rest, r) /\
      (forall b, r = Ok b -> c_disc k' = b) /\
      let y' := yrun V cap (yinit s) (ls ++ repeat (CRecv c) n) in
      dget (y_cl y') c = Some k' /\ queue (y_down y') c = rest /\ y_sv y' = y_sv y.
  Proof.
    intros K O Z. unfold disconnected. destruct (c_disc k) eqn:D.
    { exists 0%nat, k, (queue (y_down y) c), (Ok true). split; [reflexivity|]. split; [congruence|]. cbn [repeat]. rewrite app_nil_r. auto. }
    rewrite O. destruct (read_all V k (queue (y_down y) c)) as [[k1 rest] x] eqn:R.
    destruct (read_all_run V cap c _ _ _ _ _ _ K eq_refl R) as (n & A & B & C).
    assert (X : x <> Some ZMQError).
    { intros ->. clear A B C n.
      assert (G : forall q y' k, Inv V (sv_sers s) [] None y' -> dget (y_cl y') c = Some k -> queue (y_down y') c = q ->
        (forall p, In p q -> loads V (c_ser k) (c_local k) (c_st k) p <> Err ZMQError) -> read_all V k q <> (k1, rest, Some ZMQError)).
      { clear - GV cap. intro q. induction q as [|p q IH]; intros y' k I' K Q Z; cbn [read_all]; [discriminate|].
        pose proof (Z p (or_introl eq_refl)) as Zp.
        destruct (loads V (c_ser k) (c_local k) (c_st k) p) as [v|e] eqn:L.
        - pose proof (recv_ok V (sv_sers s) y' c k p q v I' K Q L) as N.
          destruct (crecv_step V cap y' c k p q K Q) as (K1 & Q1 & _ & _).
          destruct (client_recv V k p) as [k2 x] eqn:R. cbn [fst snd] in *. subst x.
          apply (IH (ystep V cap y' (CRecv c))); auto; [apply (inv_recv V GV cap); exact I'|].
          destruct (recv_frame V _ _ _ _ R) as ((-> & -> & -> & _) & _). intros. apply Z. right. assumption.
        - unfold client_recv. rewrite L. destruct e; intro H; try discriminate H. apply Zp. reflexivity. }
      exact (G _ y k I K eq_refl Z R). }
    destruct x as [e|].
    - exists n, k1, rest, (Err e). split; [destruct e; try reflexivity; congruence|]. split; [discriminate|].
      rewrite yrun_app. auto.
    - exists n, k1, rest, (Ok (c_disc k1)). split; [reflexivity|]. split; [intros b [= <-]; reflexivity|].
      rewrite yrun_app. auto.
  Qed.

  Lemma true_only_if_closed c k : dget (y_cl y) c = Some k -> c_open k = true ->
    (forall p, In p (queue (y_down y) c) -> loads V (c_ser k) (c_local k) (c_st k) p <> Err ZMQError) ->
    snd (disconnected V k (queue (y_down y) c)) = Ok true -> sv_closed (y_sv y) = true.
  Proof.
    intros K O Z T. destruct (asking_delivers c k K O Z) as (n & k' & rest & r & E & B & K' & _ & S).
    rewrite E in T. cbn [snd] in T. specialize (B _ T). rewrite <- S.
    assert (JS' : joins_supported (sv_sers s) (ls ++ repeat (CRecv c) n)).
    { apply Forall_app. split; [exact JS|]. apply joins_recv. }
    exact (disc_only_after_close V GV cap s FS _ JS' c k' K' B).
  Qed.

  Lemma goodbye_noticed c k : dget (y_cl y) c = Some k -> c_open k = true -> c_disc k = false ->
    decodable V k (queue (y_down y) c) -> goodbye V k (queue (y_down y) c) ->
    exists k', disconnected V k (queue (y_down y) c) = (k', [], Ok true) /\ (forall rid, ~ pending k' rid) /\
      (forall rid, pending k rid -> exists o, finished k' rid o).
  Proof.
    intros K O D Dc G. destruct (drained V GV cap (sv_sers s) c _ y k I K eq_refl Dc) as (k' & R & Gd & Pd & _).
    destruct (Gd G) as [T N]. exists k'. unfold disconnected. rewrite D, O, R, T. split; [reflexivity|]. split; [exact N|].
    intros rid P. destruct (Pd rid P) as [Q|Q]; [destruct (N _ Q)|exact Q].
  Qed.

  Lemma false_delivers c k : dget (y_cl y) c = Some k -> c_open k = true -> decodable V k (queue (y_down y) c) ->
    snd (disconnected V k (queue (y_down y) c)) = Ok false ->
    ~ goodbye V k (queue (y_down y) c) /\
    exists k', disconnected V k (queue (y_down y) c) = (k', [], Ok false) /\
      (forall p m r, In p (queue (y_down y) c) -> In (EvReply c m r p) (y_log y) -> pending k (m_req m) ->
         exists o, finished k' (m_req m) o).
  Proof.
    intros K O Dc. destruct (drained V GV cap (sv_sers s) c _ y k I K eq_refl Dc) as (k' & R & Gd & Pd & _ & Rp).
    unfold disconnected. destruct (c_disc k); [discriminate|]. rewrite O, R. cbn [snd]. intros [= D]. split.
    - intro G. destruct (Gd G) as [T _]. congruence.
    - exists k'. rewrite D. split; [reflexivity|]. intros p m r Hp W P.
      destruct (Pd _ P) as [Q|Q]; [destruct (Rp p m r Hp W Q)|exact Q].
  Qed.
  Lemma running_false c k : dget (y_cl y) c = Some k -> c_open k = true -> decodable V k (queue (y_down y) c) ->
    sv_closed (y_sv y) = false -> snd (disconnected V k (queue (y_down y) c)) = Ok false.
  Proof.
    intros K O Dc N. pose proof (true_only_if_closed c k K O) as T.
    destruct (drained V GV cap (sv_sers s) c _ y k I K eq_refl Dc) as (k' & R & _).
    unfold disconnected in *. destruct (c_disc k) eqn:D.
    - exfalso. rewrite T in N; [discriminate| |reflexivity]. intros p Hp. destruct (Dc p Hp) as (v & ->). discriminate.
    - rewrite O, R in *. cbn [snd] in *. destruct (c_disc k') eqn:D'; [|reflexivity]. exfalso.
      rewrite T in N; [discriminate| |reflexivity]. intros p Hp. destruct (Dc p Hp) as (v & ->). discriminate.
  Qed.
  Lemma close_true_closed c k m : In (EvSent c m) (y_log y) -> m_action m = "close" -> dget (y_cl y) c = Some k ->
    finished k (m_req m) (Ok (VBool true)) -> sv_closed (y_sv y) = true.
  Proof.
    intros Sm A K F. destruct (i_done _ _ _ _ _ I _ _ _ _ K F) as [[_ E]|(m' & r & p & R & E & _ & D)]; [discriminate E|].
    destruct (i_reply _ _ _ _ _ I _ _ _ _ R) as (_ & Z0 & X). pose proof (exec_sent V _ _ _ _ _ _ I X) as Sm'.
    assert (m' = m) by (eapply (sent_unique V (sv_sers s)); eauto). subst m'.
    eapply (i_disc _ _ _ _ _ I); eauto.
  Qed.
  Lemma already_only_if_closed c k rt sync k' rest m : dget (y_cl y) c = Some k -> c_open k = true ->
    (forall p, In p (queue (y_down y) c) -> loads V (c_ser k) (c_local k) (c_st k) p <> Err ZMQError) ->
    close_server V k (queue (y_down y) c) rt sync = (k', rest, m, Ok AlreadyClosed) -> sv_closed (y_sv y) = true.
  Proof.
    intros K O Z H. apply (true_only_if_closed c k K O Z). unfold close_server in H.
    destruct (disconnected V k (queue (y_down y) c)) as [[k1 r1] [[]|]]; [reflexivity| |discriminate].
    destruct (send V k1 "close" None rt sync) as [[? ?] []]; discriminate.
  Qed.
  Lemma done_after c k p m r : dget (y_cl y) c = Some k -> c_open k = true -> c_disc k = false ->
    decodable V k (queue (y_down y) c) -> In p (queue (y_down y) c) -> In (EvReply c m r p) (y_log y) -> pending k (m_req m) ->
    exists k' b, disconnected V k (queue (y_down y) c) = (k', [], Ok b) /\
      future_done V k' [] (m_req m) = (k', [], true).
  Proof.
    intros K O D Dc Hp W P. destruct (drained V GV cap (sv_sers s) c _ y k I K eq_refl Dc) as (k' & R & Gd & Pd & _ & Rp).
    unfold disconnected. rewrite D, O, R. exists k', (c_disc k'). split; [reflexivity|].
    destruct (Pd _ P) as [Q|[o Q]]; [destruct (Rp p m r Hp W Q)|]. unfold future_done, dmem. unfold finished in Q. rewrite Q. reflexivity.
  Qed.
End Top.
Lemma never_done V k inbox rid : pending k rid -> dget (c_done k) rid = None ->
  forall n b, In b (ask_done V n k inbox rid) -> b = false.
Proof.
  intros _ D n. induction n as [|n IH]; [contradiction|]. intros b. cbn [ask_done future_done].
  unfold future_done, dmem. rewrite D. intros [<-|H]; [reflexivity|exact (IH b H)].
Qed.
Lemma done_iff V k inbox rid : exists b, future_done V k inbox rid = (k, inbox, b) /\ (b = true <-> exists o, finished k rid o).
Proof.
  exists (dmem (c_done k) rid). split; [reflexivity|]. unfold dmem, finished.
  destruct (dget (c_done k) rid) as [o|]; split; intro H; auto; [exists o; reflexivity|discriminate|destruct H; discriminate].
Qed.

Lemma disc_step_only V k o : c_disc k = true -> c_disc (fst (cop_step V k o)) = true.
Proof.
  intro D. destruct o; cbn [cop_step].
  - rewrite (send_disconnected V k action opts rt sync D). exact D.
  - destruct (client_recv V k p) as [k' x] eqn:R. apply (recv_frame V _ _ _ _ R). exact D.
  - exact D.
  - exact D.
Qed.
Lemma disc_for_ever V os : forall k, c_disc k = true -> c_disc (fst (client_run V k os)) = true.
Proof.
  induction os as [|o r IH]; intros k D; [exact D|]. cbn [client_run]. pose proof (disc_step_only V k o D) as D1.
  destruct (cop_step V k o) as [k1 m1]. cbn [fst] in D1. specialize (IH k1 D1). destruct (client_run V k1 r). exact IH.
Qed.
Lemma true_for_ever V k inbox k' rest : disconnected V k inbox = (k', rest, Ok true) ->
  forall os inbox', disconnected V (fst (client_run V k' os)) inbox' = (fst (client_run V k' os), inbox', Ok true) /\
    snd (client_run V k' os) = [].
Proof.
  intro H. assert (D : c_disc k' = true).
  { unfold disconnected in H. destruct (c_disc k) eqn:E; [injection H as <- _; exact E|].
    destruct (c_open k); [|injection H as <- _; reflexivity]. destruct (read_all V k inbox) as [[k1 r1] x].
    destruct x as [[]|]; try discriminate H; injection H; intros; subst; auto. }
  clear H. intros os inbox'. split.
  - unfold disconnected. rewrite disc_for_ever by exact D. reflexivity.
  - revert k' D. induction os as [|o r IH]; intros k' D; [reflexivity|]. cbn [client_run].
    pose proof (disc_step_only V k' o D) as D1.
    assert (M : snd (cop_step V k' o) = []).
    { destruct o; cbn [cop_step]; try reflexivity. rewrite (send_disconnected V k' action opts rt sync D). reflexivity. }
    destruct (cop_step V k' o) as [k1 m1]. cbn [fst snd] in *. specialize (IH k1 D1). destruct (client_run V k1 r). cbn [snd] in *. subst. reflexivity.
Qed.

(** close_server() *)
Lemma close_server_asks V k inbox rt sync k1 rest : disconnected V k inbox = (k1, rest, Ok false) -> c_open k = true ->
  sync <> BadSync ->
  exists k2 m fut, close_server V k inbox rt sync = (k2, rest, Some m, Ok (Requested fut)) /\
    m_action m = "close" /\ m_opts m = PEmpty /\ m_ser m = c_ser k /\ m_rt m = rt /\
    match sync with Off => fut = None /\ m_req m < 0 | _ => fut = Some (m_req m) /\ pending k2 (m_req m) end.
Proof.
  intros H O B.
  assert (A : c_open k1 = true /\ c_ser k1 = c_ser k /\ c_disc k1 = false).
  { unfold disconnected in H. destruct (c_disc k) eqn:E; [discriminate H|]. rewrite O in H.
    destruct (read_all V k inbox) as [[k2 r2] x] eqn:R. destruct (read_all_frame V _ _ _ _ _ R) as ((A1 & _ & _ & A4) & _).
    destruct x as [[]|]; try discriminate H; injection H; intros; subst; split; [congruence|auto]. }
  destruct A as (A1 & A2 & A3). unfold close_server. rewrite H. unfold send. rewrite A3.
  destruct sync; [| | |congruence]; cbn [set_next c_open c_ser]; rewrite A1; do 3 eexists; (split; [reflexivity|]);
    cbn; repeat split; auto; try lia; apply dkeys_dset; auto.
Qed.
Lemma close_server_known V k inbox rt sync k1 rest : disconnected V k inbox = (k1, rest, Ok true) ->
  close_server V k inbox rt sync = (k1, rest, None, Ok AlreadyClosed).
Proof. intro H. unfold close_server. rewrite H. reflexivity. Qed.
