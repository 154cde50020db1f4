(** C102: proxies in whole runs of server and clients. *)
From Verif Require Import Py ObjTableModel ObjTableSpec SerModel SerSpec FrameModel ServerModel ClientModel WireSpec
  ApiModel ApiSpec RpcModel RpcSpec RpcDemo LifeSpec LifeDemo RpcLife2.

(** What happens to the table in a run is a history in the sense of C01-C06, and
    proxies are released in it only because a client asked for it. *)
Theorem C102_released_only_on_request :
  forall V, good_venv V -> forall cap s ls tr0, fresh_server s -> joins_supported (sv_sers s) ls ->
  history (ss_o (sv_st s)) tr0 -> results_exist V cap (yinit s) ls ->
  exists tr, history (ss_o (sv_st (y_sv (yrun V cap (yinit s) ls)))) (tr0 ++ tr) /\
    forall oid rid, released tr oid rid ->
    exists c m, In (EvExec c m) (y_log (yrun V cap (yinit s) ls)) /\ asks_delete V m oid rid.
Proof. exact run_is_history. Qed.
Print Assumptions C102_released_only_on_request.

(** Proxies that existed before the run keep working until a request to delete them is
    executed. *)
Theorem C102_proxies_last_until_deleted :
  forall V, good_venv V -> forall cap s ls tr0, fresh_server s -> joins_supported (sv_sers s) ls ->
  history (ss_o (sv_st s)) tr0 -> results_exist V cap (yinit s) ls ->
  forall px o v, outstanding tr0 (p_oid px) (p_rid px) o -> value_at (sv_st s) o v -> p_attrs px = [] -> p_addr px = sv_addr s ->
  (forall c m, In (EvExec c m) (y_log (yrun V cap (yinit s) ls)) -> ~ asks_delete V m (p_oid px) (p_rid px)) ->
  forall k c rt sync, c_disc k = false -> c_open k = true -> ve_utf8 V c = true ->
    smem (c_ser k) (sv_sers (y_sv (yrun V cap (yinit s) ls))) = true -> sv_open (y_sv (yrun V cap (yinit s) ls)) = true ->
    exists k' m r, send V k (rq_action (rq_get (VProxy px))) (rq_opts (rq_get (VProxy px))) rt sync = (k', Some m, r) /\
      exists s' os, begin_request V (y_sv (yrun V cap (yinit s) ls)) c m = (s', os, Finished (Ok v) None).
Proof. exact kept. Qed.
Print Assumptions C102_proxies_last_until_deleted.
Example C102_kept_case :
  let px := mkP "tcp://s" 0 0 "<class 'thing'>" [] in let y := yrun demo_V 100 (yinit kept_sv) kept_ls in
  fresh_server kept_sv /\ joins_supported (sv_sers kept_sv) kept_ls /\ history (ss_o (sv_st kept_sv)) kept_tr /\
  results_exist demo_V 100 (yinit kept_sv) kept_ls /\
  outstanding kept_tr (p_oid px) (p_rid px) 0%nat /\ value_at (sv_st kept_sv) 0%nat (VObj 0%nat) /\ p_addr px = sv_addr kept_sv /\
  (forall c m, In (EvExec c m) (y_log y) -> ~ asks_delete demo_V m (p_oid px) (p_rid px)) /\
  sv_open (y_sv y) = true /\ exists c m, In (EvExec c m) (y_log y) /\ asks_delete demo_V m 0 1.
Proof.
  cbv zeta. split; [repeat split|]. split; [repeat (constructor; [first [exact I|reflexivity]|]); constructor|].
  split; [exists kept_ops; reflexivity|]. split; [apply results_exist_check; vm_compute; reflexivity|].
  split; [split; [exists true; vm_compute; auto|intros R; vm_compute in R; intuition discriminate]|].
  split; [right; split; reflexivity|]. split; [reflexivity|]. split; [|split; [vm_compute; reflexivity|]].
  - intros c m J (D & s & d & O & X1 & X2). vm_compute in J.
    repeat (destruct J as [J|J]; [first [discriminate J|injection J as _ <-; cbn in O; injection O as <-; vm_compute in X2; discriminate X2]|]). destruct J.
  - exists "a"%string, (mkMsg 0 "delete" "auto" "msgpack" (PPack (WMap [(WStr "obj_id", WInt 0); (WStr "ref_id", WInt 1)]))).
    split; [vm_compute; intuition reflexivity|]. split; [reflexivity|]. exists kept_sv. eexists. vm_compute. split; [reflexivity|split; reflexivity].
Qed.

(** A result that comes back as a proxy stands for that result until a request to
    delete this very proxy is executed: until then, fetching it from any connected
    client is answered with that very object. *)
Theorem C102_result_proxy_lasts_until_deleted :
  forall V, good_venv V -> forall cap s ls tr0, fresh_server s -> joins_supported (sv_sers s) ls ->
  history (ss_o (sv_st s)) tr0 -> results_exist V cap (yinit s) ls ->
  forall c m v k w, In (EvDone c m (Ok v) None) (y_log (yrun V cap (yinit s) ls)) -> 0 <= m_req m -> by_proxy V m v ->
  dget (y_cl (yrun V cap (yinit s) ls)) c = Some k -> c_local k <> Some (sv_addr s) -> finished k (m_req m) (Ok w) ->
  exists px, w = VProxy px /\ p_addr px = sv_addr s /\ p_attrs px = [] /\
    ((forall c' m', In (EvExec c' m') (y_log (yrun V cap (yinit s) ls)) -> ~ asks_delete V m' (p_oid px) (p_rid px)) ->
     resolves (ve_ser V) (sv_st (y_sv (yrun V cap (yinit s) ls))) px v /\
     forall k2 c2 rt sync, c_disc k2 = false -> c_open k2 = true -> ve_utf8 V c2 = true ->
       smem (c_ser k2) (sv_sers (y_sv (yrun V cap (yinit s) ls))) = true -> sv_open (y_sv (yrun V cap (yinit s) ls)) = true ->
       exists k' m2 r, send V k2 (rq_action (rq_get (VProxy px))) (rq_opts (rq_get (VProxy px))) rt sync = (k', Some m2, r) /\
         exists s' os, begin_request V (y_sv (yrun V cap (yinit s) ls)) c2 m2 = (s', os, Finished (Ok v) None)).
Proof. exact result_lasts. Qed.
Print Assumptions C102_result_proxy_lasts_until_deleted.

(** The request made by [ObjectProxy._delete] releases exactly that proxy, and is
    answered with KeyError, changing nothing, if there is no such undeleted proxy. *)
Theorem C102_delete_request_releases :
  forall V, good_venv V -> forall k p rt sync s c tr, c_disc k = false -> c_open k = true ->
  ve_utf8 V c = true -> smem (c_ser k) (sv_sers s) = true -> sv_open s = true -> history (ss_o (sv_st s)) tr ->
  exists k' m r, send V k (rq_action (rq_delete p)) (rq_opts (rq_delete p)) rt sync = (k', Some m, r) /\
    asks_delete V m (p_oid p) (p_rid p) /\ exists s' os res, begin_request V s c m = (s', os, Finished res None) /\
    ((exists o, outstanding tr (p_oid p) (p_rid p) o) -> res = Ok VNone /\
       exists tr', history (ss_o (sv_st s')) (tr ++ (Delete (p_oid p) (p_rid p), ODeleted) :: tr') /\
         forall oid rid, ~ released tr' oid rid) /\
    ((forall o, ~ outstanding tr (p_oid p) (p_rid p) o) -> res = Err KeyError /\ sv_st s' = sv_st s).
Proof. exact delete_request. Qed.
Print Assumptions C102_delete_request_releases.

Example C102_case :
  fresh_server demo_sv /\ joins_supported (sv_sers demo_sv) life_ls /\ history (ss_o (sv_st demo_sv)) [] /\
  results_exist demo_V 100 (yinit demo_sv) life_ls /\
  (exists m, In (EvDone "b" m (Ok (VInt 7)) None) (y_log life_y) /\ by_proxy demo_V m (VInt 7) /\ m_req m = 1) /\
  (exists m, In (EvDone "b" m (Ok (VObj 0%nat)) None) (y_log life_y) /\ by_proxy demo_V m (VObj 0%nat) /\ m_req m = 0) /\
  (exists k, dget (y_cl life_y) "b" = Some k /\ c_local k = None /\
     finished k 0 (Ok (VProxy (mkP "tcp://s" 0 1 "<class 'thing'>" []))) /\
     exists t, finished k 1 (Ok (VProxy (mkP "tcp://s" 1 2 t [])))) /\
  (exists m, In (EvExec "a" m) (y_log life_y) /\ asks_delete demo_V m 0 0) /\
  (exists k, dget (y_cl life_y) "a" = Some k /\ finished k 1 (Ok VNone)).
Proof.
  split; [exact demo_fresh|]. split; [exact life_joins|]. split; [exists []; reflexivity|]. split; [exact life_exist|].
  split; [eexists; split; [vm_compute; intuition reflexivity|split; [left; reflexivity|reflexivity]]|].
  split; [eexists; split; [vm_compute; intuition reflexivity|split; [right; exists 0%nat; split; reflexivity|reflexivity]]|].
  split; [eexists; split; [vm_compute; reflexivity|split; [reflexivity|split; [vm_compute; reflexivity|eexists; vm_compute; reflexivity]]]|].
  split; [exists (mkMsg 1 "delete" "auto" "msgpack" (PPack (WMap [(WStr "obj_id", WInt 0); (WStr "ref_id", WInt 0)])));
    split; [vm_compute; intuition reflexivity|split; [reflexivity|]]|].
  - exists demo_sv. eexists. vm_compute. split; [reflexivity|split; reflexivity].
  - eexists. vm_compute. split; reflexivity.
Qed.
