(** What [_process_one] does for a client it can answer. *)
From Verif Require Import Py ObjTableModel ObjTableSpec ObjTableProofs SerModel SerSpec SerProofs SerProofs2 SerProofsJ
  FrameModel ServerModel ClientModel WireSpec WireProofs.

Lemma set_st_same s : set_st s (sv_st s) = s.
Proof. destruct s. reflexivity. Qed.
Lemma set_st_set_st s a b : set_st (set_st s a) b = set_st s b.
Proof. reflexivity. Qed.

Section Srv.
  Variable V : venv.
  Hypothesis GV : good_venv V.
  Let E := ve_ser V.
  Let GE : good_env E := gv_ser V GV.

  Local Notation served := (served V).

  Lemma served_st s c t st : served s c t -> served (set_st s st) c t.
  Proof. intro H. exact H. Qed.

  Lemma send_error_served s c t req e : served s c t ->
    exists p, send_error V s c req e = (s, [Sent c p], None) /\
      forall srv2 st2, loads V t srv2 st2 p = Ok (reply req VNone (seen V t (error_value V e))).
  Proof.
    intros (U & C & S & O). unfold send_error, send_result. rewrite U, C, S.
    destruct (reply_error V GV t (Some (sv_addr s)) (sv_st s) req e) as (p & D & L).
    rewrite D. cbv beta iota. rewrite set_st_same. unfold sock_send. rewrite O. eauto.
  Qed.

  Lemma send_result_served s c t req v : served s c t ->
    exists st', (exists p, send_result V s c req v VNone = (set_st s st', [Sent c p], None) /\
                   dumps V t (Some (sv_addr s)) (sv_st s) (reply req v VNone) = (st', Ok p)) \/
                (exists e, send_result V s c req v VNone = (set_st s st', [], Some e) /\
                   dumps V t (Some (sv_addr s)) (sv_st s) (reply req v VNone) = (st', Err e)).
  Proof.
    intros (U & C & S & O). unfold send_result. rewrite U, C, S.
    destruct (dumps V t (Some (sv_addr s)) (sv_st s) (reply req v VNone)) as [st' [p|e]] eqn:D;
      exists st'; [left|right]; [|eauto].
    unfold sock_send. cbn [set_st sv_open]. rewrite O. eauto.
  Qed.

  (** how a reply relates to the outcome of the action *)
  Inductive replies (t : string) (m : msg) : res pyval -> payload -> Prop :=
  | rep_err e p :
      (forall srv2 st2, loads V t srv2 st2 p = Ok (reply (m_req m) VNone (seen V t (error_value V e)))) ->
      replies t m (Err e) p
  | rep_val v f p :
      (forall srv2 st2, loads V t srv2 st2 p = bind (f srv2 st2) (fun v => Ok (reply (m_req m) v VNone))) ->
      (simple V t (m_rt m) v -> forall srv2 st2, f srv2 st2 = Ok (seen V t v)) ->
      replies t m (Ok v) p
  | rep_bad v e p : ~ simple V t (m_rt m) v ->
      (forall srv2 st2, loads V t srv2 st2 p = Ok (reply (m_req m) VNone (seen V t (error_value V e)))) ->
      replies t m (Ok v) p.

  Lemma proxy_value_ok addr st v : exists st' p, proxy_value E addr st v = (st', Ok (VProxy p)) /\ p_addr p = addr.
  Proof.
    unfold proxy_value.
    assert (G : forall id t o, exists t' oid rid, get_proxy id true t o = (t', Ok (oid, rid))) by (intros; apply get_proxy_ok).
    destruct v;
      match goal with |- context [get_proxy ?i true ?t ?o] => destruct (G i t o) as (t' & oid & rid & ->) end;
      eexists _, _; (split; [reflexivity|reflexivity]).
  Qed.
  Lemma make_proxy_ok s v : exists st' p, make_proxy V s v = (set_st s st', Ok (VProxy p)) /\ p_addr p = sv_addr s.
  Proof.
    unfold make_proxy. fold E. destruct (proxy_value_ok (sv_addr s) (sv_st s) v) as (st' & p & -> & A). eauto.
  Qed.

  (** the value that is put into the reply *)
  Definition chosen (s : sv) (rt : string) (v : pyval) : sv * res pyval :=
    if String.eqb rt "auto" then auto_proxy V s v
    else if String.eqb rt "proxy" then make_proxy V s v else (s, Ok v).
  Lemma chosen_ok s rt v : exists st' v', chosen s rt v = (set_st s st', Ok v').
  Proof.
    unfold chosen, auto_proxy. destruct (make_proxy_ok s v) as (st' & p & M & _).
    destruct (String.eqb rt "auto"); [destruct (ser_ok _ v)|destruct (String.eqb rt "proxy")];
      try (exists (sv_st s); rewrite set_st_same; eauto; fail); eauto.
  Qed.
  Lemma chosen_plain s rt v t : simple V t rt v -> chosen s rt v = (s, Ok v).
  Proof.
    intros (R & _ & O & _). unfold chosen, auto_proxy.
    destruct (String.eqb_spec rt "proxy"); [contradiction|]. destruct (String.eqb rt "auto"); [|reflexivity].
    destruct (ser_ok (ve_ser V) v) eqn:S; [reflexivity|]. exfalso.
    destruct v; try (rewrite (ge_types _ GE) in S by discriminate; discriminate S).
    unfold plain_value in O. cbn [objs] in O. rewrite S in O. discriminate.
  Qed.

  (** the reply part of [finish_request] *)
  Definition respond (s : sv) (c : string) (m : msg) (r : res pyval) : sv * list output * option exn :=
    match r with
    | Ok v =>
        let '(s0, pv) := chosen s (m_rt m) v in
        match pv with
        | Err e => (s0, [], Some e)
        | Ok v' =>
            match send_result V s0 c (m_req m) v' VNone with
            | (s1, o, None) => (s1, o, None)
            | (s1, o, Some e) => let '(s2, o2, x) := send_error V s1 c (m_req m) e in (s2, o ++ o2, x)
            end
        end
    | Err e => send_error V s c (m_req m) e
    end.

  Lemma respond_served s c t m r : served s c t ->
    exists st' p, respond s c m r = (set_st s st', [Sent c p], None) /\ replies t m r p /\
      (forall e, r = Err e -> set_st s st' = s).
  Proof.
    intro H. destruct r as [v|e]; cbn [respond].
    - destruct (chosen_ok s (m_rt m) v) as (st1 & v' & C). rewrite C.
      destruct (send_result_served (set_st s st1) c t (m_req m) v' (served_st s c t st1 H)) as (st' & [(p & S & D)|(e & S & D)]); rewrite S.
      + exists st', p. split; [reflexivity|]. split; [|discriminate].
        destruct (reply_ok V GV _ _ _ _ _ _ _ D) as (f & F). apply rep_val with f; [exact F|].
        intros Hs srv2 st2. pose proof (chosen_plain s (m_rt m) v t Hs) as C'. rewrite C in C'. injection C' as Es Ev; subst v'.
        destruct Hs as (_ & K & O & P).
        destruct (reply_send V GV t (sv_addr s) (Some (sv_addr s)) st1 (m_req m) v K (alive_none _ _ _ O) (or_introl O))
          as (st'' & p' & tr & v'' & D' & _ & _ & _ & A & _ & U).
        cbn [set_st sv_st sv_addr] in D. rewrite D in D'. injection D' as <- <-.
        destruct (arrives_plain V _ _ _ _ A O) as [-> _].
        pose proof (U srv2 st2 VProxy) as U'. rewrite F, P in U'. cbn in U'. specialize (U' ltac:(tauto)).
        rewrite subst_id in U'. destruct (f srv2 st2) as [x|x]; cbn [bind] in U'; [|discriminate].
        injection U' as ->. reflexivity.
      + destruct (send_error_served (set_st (set_st s st1) st') c t (m_req m) e) as (p & S' & L); [exact H|].
        rewrite S'. exists st', p. split; [reflexivity|]. split; [|discriminate]. apply rep_bad with e; [|exact L].
        intro Hs. pose proof (chosen_plain s (m_rt m) v t Hs) as C'. rewrite C in C'. injection C' as Es Ev; subst v'.
        destruct Hs as (_ & K & O & P).
        destruct (reply_send V GV t (sv_addr s) (Some (sv_addr s)) st1 (m_req m) v K (alive_none _ _ _ O) (or_introl O))
          as (st'' & p' & tr & v'' & D' & _). cbn [set_st sv_st sv_addr] in D. congruence.
    - destruct (send_error_served s c t (m_req m) e H) as (p & S & L). rewrite S.
      exists (sv_st s), p. rewrite set_st_same. split; [reflexivity|]. split; [constructor; exact L|auto].
  Qed.

  Definition hooks (os : list output) : Prop := Forall (fun o => match o with Hook _ => True | Sent _ _ => False end) os.

  Lemma finish_eq s a r : finish_request V s a r =
    let '(s1, o, esc) :=
      if 0 <=? m_req (a_msg a) then respond s (a_caller a) (a_msg a) r
      else (s, match r with Ok _ => [] | Err e => [Hook e] end, None) in
    match esc with
    | Some e => (s1, o, Some e)
    | None => if String.eqb (m_action (a_msg a)) "close" then (set_sock_closed s1, o, None) else (s1, o, None)
    end.
  Proof. reflexivity. Qed.

  Lemma finish_served s a r t : served s (a_caller a) t ->
    exists st' o, finish_request V s a r =
        ((if String.eqb (m_action (a_msg a)) "close" then set_sock_closed else fun x => x) (set_st s st'), o, None) /\
      (if 0 <=? m_req (a_msg a) then exists p, o = [Sent (a_caller a) p] /\ replies t (a_msg a) r p
       else hooks o) /\
      (forall e, r = Err e -> set_st s st' = s).
  Proof.
    intro H. rewrite finish_eq. destruct (0 <=? m_req (a_msg a)).
    - destruct (respond_served s (a_caller a) t (a_msg a) r H) as (st' & p & R & L & Es). rewrite R. exists st', [Sent (a_caller a) p].
      split; [destruct (String.eqb _ _); reflexivity|]. split; [eauto|exact Es].
    - exists (sv_st s), (match r with Ok _ => [] | Err e => [Hook e] end). rewrite set_st_same.
      split; [destruct (String.eqb _ _); reflexivity|]. split; [|auto]. destruct r; repeat constructor.
  Qed.

  (** once the socket is closed nothing is sent *)
  Lemma send_closed s c req rv er : sv_open s = false ->
    exists s' x, send_result V s c req rv er = (s', [], Some x) /\ sv_open s' = false /\ sv_closed s' = sv_closed s /\ sv_clients s' = sv_clients s /\ sv_reg s' = sv_reg s /\ sv_sers s' = sv_sers s.
  Proof.
    intro O. unfold send_result. destruct (ve_utf8 V c); [|eauto 10]. destruct (dget _ _); [|eauto 10].
    destruct (smem _ _); [|eauto 10]. destruct (dumps _ _ _ _ _) as [st' [p|e]].
    - unfold sock_send. cbn [set_st sv_open]. rewrite O. eexists _, _. repeat split; auto.
    - eexists _, _. repeat split; auto.
  Qed.
  Definition same_shell (s s' : sv) : Prop :=
    sv_open s' = sv_open s /\ sv_closed s' = sv_closed s /\ sv_clients s' = sv_clients s /\
    sv_reg s' = sv_reg s /\ sv_sers s' = sv_sers s /\ sv_names s' = sv_names s /\ sv_addr s' = sv_addr s.
  Lemma shell_st s st : same_shell s (set_st s st).
  Proof. repeat split. Qed.
  Lemma shell_refl s : same_shell s s.
  Proof. repeat split. Qed.
  Lemma shell_trans a b c : same_shell a b -> same_shell b c -> same_shell a c.
  Proof. unfold same_shell. intuition congruence. Qed.

  Lemma send_result_shell s c req rv er s' o x : send_result V s c req rv er = (s', o, x) -> same_shell s s'.
  Proof.
    unfold send_result. destruct (ve_utf8 V c); [|intros [= <- _ _]; apply shell_refl].
    destruct (dget _ _); [|intros [= <- _ _]; apply shell_refl].
    destruct (smem _ _); [|intros [= <- _ _]; apply shell_refl]. destruct (dumps _ _ _ _ _) as [st' [p|e]].
    - destruct (sock_send _ _ _). intros [= <- _ _]; apply shell_st.
    - intros [= <- _ _]; apply shell_st.
  Qed.
  Lemma send_error_shell s c req e s' o x : send_error V s c req e = (s', o, x) -> same_shell s s'.
  Proof.
    unfold send_error. destruct (ve_utf8 V c); [|intros [= <- _ _]; apply shell_refl]. apply send_result_shell.
  Qed.
  Lemma chosen_shell s rt v s' r : chosen s rt v = (s', r) -> same_shell s s'.
  Proof. destruct (chosen_ok s rt v) as (st' & v' & ->). intros [= <- _]. apply shell_st. Qed.
  Lemma respond_shell s c m r s' o x : respond s c m r = (s', o, x) -> same_shell s s'.
  Proof.
    destruct r as [v|e]; cbn [respond]; [|apply send_error_shell].
    destruct (chosen s (m_rt m) v) as [s0 [v'|e]] eqn:C; apply chosen_shell in C; [|intros [= <- _ _]; exact C].
    destruct (send_result V s0 c (m_req m) v' VNone) as [[s1 o1] [x1|]] eqn:S; apply send_result_shell in S.
    - destruct (send_error V s1 c (m_req m) x1) as [[s2 o2] x2] eqn:S2. apply send_error_shell in S2.
      intros [= <- _ _]. eapply shell_trans; [eauto|]. eapply shell_trans; eauto.
    - intros [= <- _ _]. eapply shell_trans; eauto.
  Qed.

  (** what finishing a request can change, whoever asked *)
  Lemma finish_shell s a r s' o x : finish_request V s a r = (s', o, x) ->
    sv_closed s' = sv_closed s /\ sv_clients s' = sv_clients s /\ sv_reg s' = sv_reg s /\ sv_sers s' = sv_sers s /\
    sv_names s' = sv_names s /\ sv_addr s' = sv_addr s /\
    (sv_open s' = sv_open s \/ (sv_open s' = false /\ m_action (a_msg a) = "close")).
  Proof.
    rewrite finish_eq. set (z := if 0 <=? m_req (a_msg a) then _ else _).
    assert (G : forall s1 o1 x1, z = (s1, o1, x1) -> same_shell s s1).
    { intros s1 o1 x1. subst z. destruct (0 <=? m_req (a_msg a)); [apply respond_shell|].
      intros [= <- _ _]. apply shell_refl. }
    destruct z as [[s1 o1] x1]. specialize (G _ _ _ eq_refl). destruct G as (G1 & G2 & G3 & G4 & G5 & G6 & G7).
    destruct x1; [intros [= <- _ _]; intuition|]. destruct (String.eqb_spec (m_action (a_msg a)) "close").
    - intros [= <- _ _]. cbn. intuition.
    - intros [= <- _ _]. intuition.
  Qed.

  Lemma finish_closed s a r s' o x : sv_open s = false -> finish_request V s a r = (s', o, x) -> hooks o.
  Proof.
    intros O. rewrite finish_eq. set (z := if 0 <=? m_req (a_msg a) then _ else _).
    assert (SE : forall s0 c req e s1 o1 x1, sv_open s0 = false -> send_error V s0 c req e = (s1, o1, x1) -> o1 = []).
    { intros s0 c req e s1 o1 x1 O0. unfold send_error. destruct (ve_utf8 V c); [|intros [= _ <- _]; reflexivity].
      destruct (send_closed s0 c req VNone (error_value V e) O0) as (sx & xx & -> & _). intros [= _ <- _]. reflexivity. }
    assert (G : forall s1 o1 x1, z = (s1, o1, x1) -> hooks o1).
    { intros s1 o1 x1. subst z. destruct (0 <=? m_req (a_msg a)).
      - destruct r as [v|e]; cbn [respond].
        + destruct (chosen s (m_rt (a_msg a)) v) as [s0 [v'|e]] eqn:C; pose proof (chosen_shell _ _ _ _ _ C) as (O0 & _);
            [|intros [= _ <- _]; constructor]. rewrite O in O0.
          destruct (send_closed s0 (a_caller a) (m_req (a_msg a)) v' VNone O0) as (sx & xx & -> & Ox & _).
          destruct (send_error V sx (a_caller a) (m_req (a_msg a)) xx) as [[s2 o2] x2] eqn:S2.
          rewrite (SE _ _ _ _ _ _ _ Ox S2). intros [= _ <- _]. constructor.
        + intro S2. rewrite (SE _ _ _ _ _ _ _ O S2). constructor.
      - intros [= _ <- _]. destruct r; repeat constructor. }
    destruct z as [[s1 o1] x1]. specialize (G _ _ _ eq_refl).
    destruct x1; [intros [= _ <- _]; exact G|]. destruct (String.eqb (m_action (a_msg a)) "close"); intros [= _ <- _]; exact G.
  Qed.
End Srv.
