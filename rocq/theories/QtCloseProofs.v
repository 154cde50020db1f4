From Verif Require Import Py ObjTableModel SerModel SerSpec SerProofs SerProofs2 SerProofsJ FrameModel ServerModel ClientModel WireSpec WireProofs ServerProofs ServerProofs2 QtCloseModel QtCloseSpec.

Definition recl (s : sv) (b r : bool) : sv := mkSv (sv_addr s) (sv_sers s) (sv_clients s) (sv_names s) (sv_st s) b (sv_open s) r.
Lemma twins_recl a b : twins a b -> b = recl a (sv_closed b) (sv_reg b).
Proof. destruct a, b. unfold twins, recl. cbn. intros (-> & -> & -> & -> & -> & ->). reflexivity. Qed.
Lemma recl_twins a b r : twins a (recl a b r).
Proof. unfold twins. auto 10. Qed.

Section P.
  Variable V : venv.
  Variables cl rg : bool.
  Notation R s := (recl s cl rg).
  Lemma send_result_recl s c q v e : send_result V (R s) c q v e = let '(s1, o, x) := send_result V s c q v e in (R s1, o, x).
  Proof.
    unfold send_result. cbn [sv_clients recl sv_sers sv_addr sv_st]. destruct (ve_utf8 V c); [|reflexivity]. destruct (dget (sv_clients s) c) as [t|]; [|reflexivity].
    destruct (smem t (sv_sers s)); [|reflexivity]. destruct (dumps V t _ _ _) as [st' [p|e']]; [|reflexivity]. unfold sock_send. cbn [sv_open set_st recl]. destruct (sv_open s); reflexivity.
  Qed.
  Lemma send_error_recl s c q e : send_error V (R s) c q e = let '(s1, o, x) := send_error V s c q e in (R s1, o, x).
  Proof. unfold send_error. destruct (ve_utf8 V c); [apply send_result_recl|reflexivity]. Qed.
  Lemma make_proxy_recl s v : make_proxy V (R s) v = let '(s1, r) := make_proxy V s v in (R s1, r).
  Proof. unfold make_proxy. cbn [sv_addr sv_st recl]. destruct (proxy_value _ _ _ _). reflexivity. Qed.
  Lemma auto_proxy_recl s v : auto_proxy V (R s) v = let '(s1, r) := auto_proxy V s v in (R s1, r).
  Proof. unfold auto_proxy. destruct (ser_ok _ v); [reflexivity|apply make_proxy_recl]. Qed.
  Lemma do_delete_recl s o : do_delete (R s) o = let '(s1, r) := do_delete s o in (R s1, r).
  Proof.
    unfold do_delete. cbn [sv_st recl]. repeat match goal with |- context [match ?x with _ => _ end] => destruct x; try reflexivity end.
  Qed.
  Lemma action_recl s a opts c : a <> "close"%string -> process_action V (R s) a opts c = let '(s1, o, x) := process_action V s a opts c in (R s1, o, x).
  Proof.
    intros N. unfold process_action. apply String.eqb_neq in N. rewrite N. rewrite do_delete_recl.
    repeat match goal with |- context [if String.eqb a ?x then _ else _] => destruct (String.eqb a x) end; try reflexivity.
    - destruct (do_delete s opts). reflexivity.
    - destruct (opt opts "obj"), (opt opts "name") as [[]|]; reflexivity.
  Qed.
  Lemma finish_recl s a r : finish_request V (R s) a r = let '(s1, o, x) := finish_request V s a r in (R s1, o, x).
  Proof.
    unfold finish_request. destruct (0 <=? m_req (a_msg a)).
    - destruct r as [v|e].
      + assert (E : (if String.eqb (m_rt (a_msg a)) "auto" then auto_proxy V (R s) v else if String.eqb (m_rt (a_msg a)) "proxy" then make_proxy V (R s) v else (R s, Ok v)) =
          let '(s1, x) := (if String.eqb (m_rt (a_msg a)) "auto" then auto_proxy V s v else if String.eqb (m_rt (a_msg a)) "proxy" then make_proxy V s v else (s, Ok v)) in (R s1, x)).
        { destruct (String.eqb (m_rt (a_msg a)) "auto"); [apply auto_proxy_recl|]. destruct (String.eqb (m_rt (a_msg a)) "proxy"); [apply make_proxy_recl|reflexivity]. }
        match type of E with _ = (let '(s1, x) := ?y in _) => rewrite E; destruct y as [s0 [v'|e]] end.
        * rewrite send_result_recl. destruct (send_result V s0 _ _ v' VNone) as [[s1 o] [e|]].
          -- rewrite send_error_recl. destruct (send_error V s1 _ _ e) as [[s2 o2] [x|]]; [reflexivity|]. destruct (String.eqb (m_action (a_msg a)) "close"); reflexivity.
          -- destruct (String.eqb (m_action (a_msg a)) "close"); reflexivity.
        * reflexivity.
      + rewrite send_error_recl. destruct (send_error V s _ _ e) as [[s2 o2] [x|]]; [reflexivity|]. destruct (String.eqb (m_action (a_msg a)) "close"); reflexivity.
    - destruct (String.eqb (m_action (a_msg a)) "close"); reflexivity.
  Qed.
  Lemma begin_recl s c m : m_action m <> "close"%string -> begin_request V (R s) c m = let '(s1, o, x) := begin_request V s c m in (R s1, o, x).
  Proof.
    intros N. unfold begin_request. set (a := mkAct c m). cbn [sv_sers sv_clients set_clients recl sv_addr sv_st].
    change (set_clients (R s) (dset (sv_clients s) c (m_ser m))) with (R (set_clients s (dset (sv_clients s) c (m_ser m)))).
    destruct (smem (m_ser m) (sv_sers s)).
    2:{ rewrite finish_recl. destruct (finish_request V _ a _) as [[s2 o2] x]. reflexivity. }
    destruct (ve_utf8 V c).
    2:{ rewrite finish_recl. destruct (finish_request V _ a _) as [[s2 o2] x]. reflexivity. }
    match goal with |- context [match ?y with Err e => _ | Ok _ => _ end] => destruct y as [opts|e] end.
    2:{ rewrite finish_recl. destruct (finish_request V _ a _) as [[s2 o2] x]. reflexivity. }
    rewrite action_recl by exact N. destruct (process_action V _ (m_action m) opts c) as [[s2 o] [r|f args kw]]; [|reflexivity].
    rewrite finish_recl. destruct (finish_request V _ a _) as [[s3 o3] x]. reflexivity.
  Qed.
  Lemma one_recl s c m out : m_action m <> "close"%string -> qt_one V (R s) c m out = let '(s1, o, x) := qt_one V s c m out in (R s1, o, x).
  Proof.
    intros N. unfold qt_one, qt_begin. rewrite begin_recl by exact N. destruct (begin_request V s c m) as [[s1 o] [r x|a f args kw]]; [reflexivity|].
    change (keep_sock (R s) (R s1)) with (R (keep_sock s s1)). unfold qt_finish. rewrite finish_recl. destruct (finish_request V _ a out) as [[s2 o2] x]. reflexivity.
  Qed.
  Lemma all_recl l : forall s, Forall (fun x => ~ asks_close x) l -> qt_all V (R s) l = let '(s1, os) := qt_all V s l in (R s1, os).
  Proof.
    induction l as [|[[c m] out] l IH]; intros s F; [reflexivity|]. inversion F as [|x y F1 F2]; subst. cbn [qt_all]. rewrite one_recl by exact F1.
    destruct (qt_one V s c m out) as [[s1 o] b]. rewrite IH by exact F2. destruct (qt_all V s1 l). reflexivity.
  Qed.
End P.
Lemma all_twins V l s s' : twins s s' -> Forall (fun x => ~ asks_close x) l -> snd (qt_all V s' l) = snd (qt_all V s l) /\ twins (fst (qt_all V s l)) (fst (qt_all V s' l)).
Proof.
  intros T F. rewrite (twins_recl _ _ T), all_recl by exact F. destruct (qt_all V s l) as [s1 os]. split; [reflexivity|apply recl_twins].
Qed.

Section Close.
  Variable V : venv.
  Hypothesis GV : good_venv V.
  Lemma dset_there (d : dict string string) k v : dget d k = Some v -> dset d k v = d.
  Proof.
    induction d as [|[k' v'] d IH]; [discriminate|]. cbn. destruct (String.eqb_spec k k') as [->|E]; intros H.
    - injection H as ->. reflexivity.
    - rewrite IH by exact H. reflexivity.
  Qed.
  Lemma dget_in (d : dict string string) k v : dget d k = Some v -> In (k, v) d.
  Proof. induction d as [|[k' v'] d IH]; [discriminate|]. cbn. destruct (String.eqb_spec k k') as [->|E]; intros H; [injection H as ->; auto|auto]. Qed.
  Lemma respond_true s c t m : served V s c t -> m_rt m <> "proxy"%string -> exists p, respond V s c m (Ok (VBool true)) = (s, [Sent c p], None).
  Proof.
    intros S N. assert (Q : simple V t (m_rt m) (VBool true)).
    { split; [exact N|]. split; [|split; reflexivity]. unfold carried. pose proof (gv_limit V GV). destruct (String.eqb _ _); split; try (cbn; lia); constructor. }
    cbn [respond]. rewrite (chosen_plain V GV s (m_rt m) _ t Q). destruct Q as (_ & K & O & _).
    destruct (reply_send V GV t (sv_addr s) (Some (sv_addr s)) (sv_st s) (m_req m) (VBool true) K (alive_none _ _ _ O) (or_introl O))
      as (st' & p & tr & v' & D & _ & _ & _ & _ & Same & _). rewrite (Same O) in D.
    destruct (send_result_served V s c t (m_req m) (VBool true) S) as (st2 & [(p2 & A & B)|(e & A & B)]); rewrite D in B; [|discriminate].
    injection B as <- <-. rewrite A, set_st_same. eauto.
  Qed.
  Lemma finish_close_true s c t m : served V s c t -> m_rt m <> "proxy"%string -> m_action m = "close"%string ->
    exists o, finish_request V s (mkAct c m) (Ok (VBool true)) = (set_sock_closed s, o, None).
  Proof.
    intros S N A. rewrite finish_eq. cbn [a_msg a_caller]. rewrite A. destruct (respond_true s c t m S N) as (p & R). rewrite R. destruct (0 <=? m_req m); eexists; reflexivity.
  Qed.
  Lemma finish_close_err s c t m e : served V s c t -> m_action m = "close"%string ->
    exists o, finish_request V s (mkAct c m) (Err e) = (set_sock_closed s, o, None).
  Proof.
    intros S A. destruct (finish_served V GV s (mkAct c m) (Err e) t S) as (st' & o & F & _ & Same). cbn [a_msg] in F. rewrite A in F. cbn in F. rewrite (Same e eq_refl) in F. eauto.
  Qed.
  Lemma qt_close s c m : fit_to_close V s c m -> exists s' o, qt_begin V s c m = (s', o, Finished (if sv_reg s then Ok (VBool true) else Err KeyError) None) /\
    twins s s' /\ sv_closed s' = true /\ sv_reg s' = false /\ forall c' t, dget (sv_clients s) c' = Some t -> c' <> c -> tells V o c' t.
  Proof.
    intros (U & O & H & D & A & M & N). assert (S : smem (m_ser m) (sv_sers s) = true) by (apply (H c); apply dget_in; exact D).
    unfold qt_begin, begin_request. fold (with_client s c m). assert (W : with_client s c m = s) by (unfold with_client; rewrite dset_there by exact D; destruct s; reflexivity).
    pose proof (with_client_served V s c m U S O) as Sv. rewrite W in *. rewrite S, U, M, A. unfold process_action. cbn [String.eqb Ascii.eqb Bool.eqb].
    destruct (disconnects V GV (set_closed s) c (sv_clients (set_closed s)) O H) as (os & Ds & F). rewrite Ds.
    assert (T : forall os2 c' t, dget (sv_clients s) c' = Some t -> c' <> c -> tells V (os ++ os2) c' t).
    { intros os2 c' t G Nc. apply dget_in in G.
      assert (I : In (c', t) (filter (fun ct => negb (String.eqb (fst ct) c)) (sv_clients (set_closed s)))) by (apply filter_In; split; [exact G|]; cbn; apply String.eqb_neq in Nc; rewrite Nc; reflexivity).
      clear - F I. induction F as [|x y l l' P F IH]; [destruct I|]. destruct I as [->|I].
      - destruct P as (p & -> & L). exists p. split; [left; reflexivity|exact L].
      - destruct (IH I) as (p & Q & L). exists p. split; [right; exact Q|exact L]. }
    cbn [set_closed sv_reg]. destruct (sv_reg s) eqn:R.
    - destruct (finish_close_true (set_unreg (set_closed s)) c (m_ser m) m Sv N A) as (o & Fo). rewrite Fo.
      do 2 eexists. split; [reflexivity|]. split; [repeat split; cbn; auto|]. split; [reflexivity|]. split; [reflexivity|]. intros. apply T; auto.
    - destruct (finish_close_err (set_closed s) c (m_ser m) m KeyError Sv A) as (o & Fo). rewrite Fo.
      do 2 eexists. split; [reflexivity|]. split; [repeat split; cbn; auto|]. split; [reflexivity|]. split; [exact R|]. intros. apply T; auto.
  Qed.
  (** after closing, requests are answered as before, whatever they are *)
  Lemma qt_closed_serves s c m s' o b l : fit_to_close V s c m -> sv_reg s = true -> qt_begin V s c m = (s', o, b) -> Forall (fun x => ~ asks_close x) l ->
    b = Finished (Ok (VBool true)) None /\ sv_closed s' = true /\ snd (qt_all V s' l) = snd (qt_all V s l).
  Proof.
    intros F R B L. destruct (qt_close s c m F) as (s2 & o2 & E & T & C & _). rewrite E, R in B. injection B as <- <- <-.
    split; [reflexivity|]. split; [exact C|]. apply all_twins; assumption.
  Qed.
  Lemma qt_close_again s c m s' o b : fit_to_close V s c m -> sv_reg s = false -> qt_begin V s c m = (s', o, b) ->
    b = Finished (Err KeyError) None /\ forall c' t, dget (sv_clients s) c' = Some t -> c' <> c -> tells V o c' t.
  Proof.
    intros F R B. destruct (qt_close s c m F) as (s2 & o2 & E & T & C & _ & X). rewrite E, R in B. injection B as <- <- <-. auto.
  Qed.
  Lemma qt_close_told s c m s' o b : fit_to_close V s c m -> sv_reg s = true -> qt_begin V s c m = (s', o, b) ->
    b = Finished (Ok (VBool true)) None /\ sv_closed s' = true /\ sv_reg s' = false /\ forall c' t, dget (sv_clients s) c' = Some t -> c' <> c -> tells V o c' t.
  Proof.
    intros F R B. destruct (qt_close s c m F) as (s2 & o2 & E & T & C & C2 & X). rewrite E, R in B. injection B as <- <- <-. auto.
  Qed.
End Close.
