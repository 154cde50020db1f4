(** [begin_request] for clients the server can answer. *)
From Verif Require Import Py ObjTableModel ObjTableSpec ObjTableProofs SerModel SerSpec SerProofs SerProofs2 SerProofsJ
  FrameModel ServerModel ClientModel WireSpec WireProofs ServerProofs.

(** everything but names, proxied objects *)
Definition kept (s s' : sv) : Prop :=
  sv_open s' = sv_open s /\ sv_closed s' = sv_closed s /\ sv_clients s' = sv_clients s /\
  sv_reg s' = sv_reg s /\ sv_sers s' = sv_sers s /\ sv_addr s' = sv_addr s.
Lemma kept_refl s : kept s s.
Proof. repeat split. Qed.
Lemma kept_trans a b c : kept a b -> kept b c -> kept a c.
Proof. unfold kept. intuition congruence. Qed.
Lemma kept_st s st : kept s (set_st s st).
Proof. repeat split. Qed.

Section Srv2.
  Variable V : venv.
  Hypothesis GV : good_venv V.
  Let E := ve_ser V.
  Let GE : good_env E := gv_ser V GV.

  Lemma kept_served s s' c t : kept s s' -> served V s c t -> served V s' c t.
  Proof. unfold kept, served. intros (A & B & C & D & F & G) (H & I & J & K). rewrite A, C, F. auto. Qed.

  Lemma do_delete_kept s opts s' r : do_delete s opts = (s', r) -> kept s s' /\ sv_names s' = sv_names s.
  Proof.
    unfold do_delete. intro H.
    repeat match type of H with
           | (let '(_, _) := ?x in _) = _ => destruct x
           | match ?x with _ => _ end = _ => destruct x
           end; injection H as <- <-; repeat split.
  Qed.

  Lemma process_kept s action opts c s' o r : action <> "close" ->
    process_action V s action opts c = (s', o, r) ->
    o = [] /\ kept s s' /\ (action <> "set_item" -> sv_names s' = sv_names s).
  Proof.
    intro NC. unfold process_action.
    destruct (String.eqb action "call_obj"); [intros [= <- <- _]; repeat split|].
    destruct (String.eqb action "get_obj"); [intros [= <- <- _]; repeat split|].
    destruct (String.eqb action "delete").
    { destruct (do_delete s opts) as [s1 r1] eqn:D. apply do_delete_kept in D. intros [= <- <- _]. intuition. }
    destruct (String.eqb action "get_item"); [intros [= <- <- _]; repeat split|].
    destruct (String.eqb_spec action "set_item").
    { subst. destruct (opt opts "obj") as [v|e]; [|intros [= <- <- _]; repeat split].
      destruct (opt opts "name") as [[]|e']; intros [= <- <- _]; repeat split; contradiction. }
    destruct (String.eqb action "import"); [intros [= <- <- _]; repeat split|].
    destruct (String.eqb action "ping"); [intros [= <- <- _]; repeat split|].
    destruct (String.eqb_spec action "close"); [contradiction|].
    intros [= <- <- _]; repeat split.
  Qed.

  (** what a request leads to, besides changes of names and objects *)
  Definition answer (c t : string) (m : msg) (r : res pyval) (os : list output) : Prop :=
    if 0 <=? m_req m then exists p, os = [Sent c p] /\ replies V t m r p else hooks os.

  Lemma finish_answer s a r t : served V s (a_caller a) t -> m_action (a_msg a) <> "close" ->
    exists s' o, finish_request V s a r = (s', o, None) /\ kept s s' /\ sv_names s' = sv_names s /\
      answer (a_caller a) t (a_msg a) r o /\ (forall e, r = Err e -> s' = s).
  Proof.
    intros H N. destruct (finish_served V GV s a r t H) as (st' & o & F & A & Es).
    destruct (String.eqb_spec (m_action (a_msg a)) "close"); [contradiction|].
    exists (set_st s st'), o. repeat (apply conj; [first [exact F|apply kept_st|reflexivity|exact A]|]). exact Es.
  Qed.

  Definition with_client (s : sv) (c : string) (m : msg) : sv :=
    set_clients s (dset (sv_clients s) c (m_ser m)).
  Lemma with_client_served s c m : ve_utf8 V c = true -> smem (m_ser m) (sv_sers s) = true -> sv_open s = true ->
    served V (with_client s c m) c (m_ser m).
  Proof. intros U S O. repeat split; auto. apply dget_dset_same. Qed.

  Lemma begin_answer s c m : ve_utf8 V c = true -> smem (m_ser m) (sv_sers s) = true -> sv_open s = true ->
    m_action m <> "close" ->
    (exists s' f args kw, begin_request V s c m = (s', [], InCall (mkAct c m) f args kw) /\ kept (with_client s c m) s') \/
    (exists s' o r, begin_request V s c m = (s', o, Finished r None) /\ kept (with_client s c m) s' /\
       answer c (m_ser m) m r o).
  Proof.
    intros U S O N. unfold begin_request. fold (with_client s c m).
    pose proof (with_client_served s c m U S O) as W. set (s1 := with_client s c m) in *.
    change (sv_sers s1) with (sv_sers s). rewrite S, U.
    set (opts := match m_opts m with PEmpty => _ | _ => _ end).
    assert (F : forall s2 o2 r, o2 = [] -> kept s1 s2 -> exists s' o,
      (let '(s3, o3, x) := finish_request V s2 (mkAct c m) r in (s3, o2 ++ o3, Finished r x)) = (s', o, Finished r None)
      /\ kept s1 s' /\ answer c (m_ser m) m r o).
    { intros s2 o2 r -> K. destruct (finish_answer s2 (mkAct c m) r (m_ser m)) as (s3 & o3 & F & K3 & _ & A & _);
        [exact (kept_served s1 s2 c (m_ser m) K W)|exact N|]. rewrite F. exists s3, o3.
      split; [reflexivity|]. split; [eapply kept_trans; eauto|exact A]. }
    destruct opts as [v|e].
    - destruct (process_action V s1 (m_action m) v c) as [[s2 o2] [r|f args kw]] eqn:P;
        destruct (process_kept _ _ _ _ _ _ _ N P) as (-> & K & _).
      + right. destruct (F s2 [] r eq_refl K) as (s' & o & -> & K' & A). eauto 10.
      + left. exists s2, f, args, kw. auto.
    - right. destruct (F s1 [] (Err e) eq_refl (kept_refl _)) as (s' & o & -> & K' & A). eauto 10.
  Qed.

  (** ** close *)
  Lemma disconnects s c l : sv_open s = true ->
    (forall c' t, In (c', t) l -> smem t (sv_sers s) = true) ->
    exists os, send_disconnects V s c l = (os, None) /\
      Forall2 (fun (ct : string * string) o => exists p, o = Sent (fst ct) p /\
                 forall srv2 st2, loads V (snd ct) srv2 st2 p = Ok notice)
              (filter (fun ct => negb (String.eqb (fst ct) c)) l) os.
  Proof.
    intros O. induction l as [|[c' t] r IH]; intro H; [exists []; split; [reflexivity|constructor]|].
    destruct IH as (os & D & F); [intros; apply (H c'0 t0); cbn; auto|].
    cbn [send_disconnects filter fst]. destruct (String.eqb_spec c' c); cbn [negb]; [eauto|].
    rewrite (H c' t) by (cbn; auto). destruct (notice_wire V GV t None (sv_st s)) as (p & P & L).
    unfold notice in P. rewrite P. cbn [snd]. unfold sock_send. rewrite O. rewrite D.
    exists (Sent c' p :: os). split; [reflexivity|]. constructor; [|exact F]. exists p. auto.
  Qed.

  (** notices of a successful close: one per other known client *)
  Definition notices (c : string) (l : dict string string) (os : list output) : Prop :=
    Forall2 (fun (ct : string * string) o => exists p, o = Sent (fst ct) p /\
               forall srv2 st2, loads V (snd ct) srv2 st2 p = Ok notice)
            (filter (fun ct => negb (String.eqb (fst ct) c)) l) os.

  Lemma close_answer s c m opts : ve_utf8 V c = true -> smem (m_ser m) (sv_sers s) = true -> sv_open s = true ->
    m_action m = "close" -> (forall c' t, In (c', t) (sv_clients s) -> smem t (sv_sers s) = true) ->
    sv_reg s = true ->
    match m_opts m with PEmpty => Ok VNone | p => loads V (m_ser m) (Some (sv_addr s)) (sv_st s) p end = Ok opts ->
    exists s' os o, begin_request V s c m = (s', os ++ o, Finished (Ok (VBool true)) None) /\
      notices c (sv_clients (with_client s c m)) os /\ answer c (m_ser m) m (Ok (VBool true)) o /\
      sv_open s' = false /\ sv_closed s' = true /\ sv_reg s' = false /\
      sv_clients s' = sv_clients (with_client s c m) /\ sv_sers s' = sv_sers s /\ sv_addr s' = sv_addr s.
  Proof.
    intros U S O A H R Ho. unfold begin_request. fold (with_client s c m).
    pose proof (with_client_served s c m U S O) as W. set (s1 := with_client s c m) in *.
    change (sv_sers s1) with (sv_sers s). rewrite S, U.
    change (sv_addr s1) with (sv_addr s). change (sv_st s1) with (sv_st s). rewrite Ho. rewrite A.
    unfold process_action. cbn [String.eqb Ascii.eqb Bool.eqb].
    destruct (disconnects (set_closed s1) c (sv_clients (set_closed s1))) as (os & D & N); [exact O| |].
    { intros c' t I. change (sv_sers (set_closed s1)) with (sv_sers s).
      change (sv_clients (set_closed s1)) with (dset (sv_clients s) c (m_ser m)) in I.
      clear - I H S. induction (sv_clients s) as [|[k v] r IH]; cbn in I.
      - destruct I as [I|[]]. injection I as <- <-. exact S.
      - destruct (String.eqb_spec c k) as [->|Nk]; cbn in I.
        + destruct I as [I|I]; [injection I as <- <-; exact S|]. eapply H. right. exact I.
        + destruct I as [I|I]; [injection I as <- <-; eapply H; left; reflexivity|].
          apply IH; [|exact I]. intros. eapply H. right. eauto. }
    rewrite D. cbn [set_closed sv_reg]. change (sv_reg s1) with (sv_reg s). rewrite R.
    set (s2 := set_unreg (set_closed s1)).
    destruct (finish_served V GV s2 (mkAct c m) (Ok (VBool true)) (m_ser m)) as (st' & o & F & An & _); [exact W|].
    cbn [a_msg a_caller] in F, An. rewrite A in F. rewrite String.eqb_refl in F. rewrite F.
    exists (set_sock_closed (set_st s2 st')), os, o. repeat (apply conj; [first [reflexivity|exact N|exact An]|]). reflexivity.
  Qed.

  (** a close request with any other fate still ends with the socket closed *)
  Lemma close_any s c m : ve_utf8 V c = true -> smem (m_ser m) (sv_sers s) = true -> sv_open s = true ->
    m_action m = "close" -> (forall c' t, In (c', t) (sv_clients s) -> smem t (sv_sers s) = true) ->
    exists s' os o r, begin_request V s c m = (s', os ++ o, Finished r None) /\
      (os = [] \/ notices c (sv_clients (with_client s c m)) os /\ sv_closed s' = true) /\ answer c (m_ser m) m r o /\
      (forall v, r = Ok v -> sv_closed s' = true) /\
      (sv_closed s = true -> sv_closed s' = true) /\
      sv_open s' = false /\ sv_clients s' = sv_clients (with_client s c m) /\ sv_sers s' = sv_sers s /\ sv_addr s' = sv_addr s.
  Proof.
    intros U S O A H. unfold begin_request. fold (with_client s c m).
    pose proof (with_client_served s c m U S O) as W. set (s1 := with_client s c m) in *.
    change (sv_sers s1) with (sv_sers s). rewrite S, U.
    set (opts := match m_opts m with PEmpty => _ | _ => _ end).
    assert (F : forall s2 r, sv_open s2 = true -> sv_clients s2 = sv_clients s1 -> sv_sers s2 = sv_sers s ->
      sv_addr s2 = sv_addr s -> exists s' o,
      finish_request V s2 (mkAct c m) r = (s', o, None) /\ answer c (m_ser m) m r o /\
      sv_closed s' = sv_closed s2 /\
      sv_open s' = false /\ sv_clients s' = sv_clients s1 /\ sv_sers s' = sv_sers s /\ sv_addr s' = sv_addr s).
    { intros s2 r O2 C2 S2 A2. destruct (finish_served V GV s2 (mkAct c m) r (m_ser m)) as (st' & o & F & An & _).
      { destruct W as (W1 & W2 & W3 & W4). repeat split; auto; cbn [a_caller]; [rewrite C2; exact W2|rewrite S2; exact S]. }
      cbn [a_msg a_caller] in F, An. rewrite A in F. rewrite String.eqb_refl in F.
      exists (set_sock_closed (set_st s2 st')), o. repeat (apply conj; [first [exact F|exact An|reflexivity|assumption]|]). exact A2. }
    destruct opts as [v|e].
    - rewrite A. unfold process_action. cbn [String.eqb Ascii.eqb Bool.eqb].
      destruct (disconnects (set_closed s1) c (sv_clients (set_closed s1))) as (os & D & N); [exact O| |].
      { intros c' t I. change (sv_sers (set_closed s1)) with (sv_sers s).
        change (sv_clients (set_closed s1)) with (dset (sv_clients s) c (m_ser m)) in I.
        clear - I H S. induction (sv_clients s) as [|[k v] r IH]; cbn in I.
        - destruct I as [I|[]]. injection I as <- <-. exact S.
        - destruct (String.eqb_spec c k) as [->|Nk]; cbn in I.
          + destruct I as [I|I]; [injection I as <- <-; exact S|]. eapply H. right. exact I.
          + destruct I as [I|I]; [injection I as <- <-; eapply H; left; reflexivity|].
            apply IH; [|exact I]. intros. eapply H. right. eauto. }
      rewrite D. cbn [set_closed sv_reg].
      destruct (sv_reg s1).
      + destruct (F (set_unreg (set_closed s1)) (Ok (VBool true)) O eq_refl eq_refl eq_refl) as (s' & o & -> & An & C' & R).
        exists s', os, o, (Ok (VBool true)). intuition.
      + destruct (F (set_closed s1) (Err KeyError) O eq_refl eq_refl eq_refl) as (s' & o & -> & An & C' & R).
        exists s', os, o, (Err KeyError). intuition.
    - destruct (F s1 (Err e) O eq_refl eq_refl eq_refl) as (s' & o & -> & An & C' & R).
      exists s', [], o, (Err e). cbn [app]. intuition; try discriminate. rewrite C'. assumption.
  Qed.
End Srv2.
