(** Properties C28, C29, C66, C67, C108, C109: the registries of clients and servers. *)
From Verif Require Import Py RegistryModel RegistrySpec RegistryProofs RegistryProofs2 RegistryProofs3.
Local Open Scope nat_scope.

(** C28.  After any history of thread starts and ends, client creations, failures and
    closes in any threads, get_client finds the registered client, if there is one ... *)
Theorem C28_get_client :
  forall tr s h i a, happened tr s -> ident tr h = Some i ->
  exists r, rev_step s (GetC h a) = Some (s, r) /\
    (forall c, r = AClient c <-> registered tr i a c) /\ (r = AMissing <-> forall c, ~ registered tr i a c).
Proof. exact get_client_finds. Qed.
Print Assumptions C28_get_client.

(** ... creating a second one by hand is refused, and otherwise gives a new one ... *)
Theorem C28_create :
  forall tr s h i a local, happened tr s -> ident tr h = Some i ->
  exists s' r, rev_step s (NewC h a local) = Some (s', r) /\
    ((exists c, registered tr i a c) -> r = AExn KeyError) /\
    ((forall c, ~ registered tr i a c) -> exists c, r = AClient c /\ forall h0 b j, ~ made tr h0 c b j).
Proof. exact create. Qed.
Print Assumptions C28_create.

(** ... the constructor goes on to return the client or to raise, and close() works ... *)
Theorem C28_construction_ends :
  forall tr s h i c a, happened tr s -> ident tr h = Some i -> made tr h c a i ->
  (forall h' ok x, ~ In (EndC h' c ok, x) tr) ->
  (exists s', rev_step s (EndC h c true) = Some (s', AClient c)) /\
  (exists s' e, rev_step s (EndC h c false) = Some (s', AExn e)).
Proof. exact construction_ends. Qed.
Print Assumptions C28_construction_ends.

Theorem C28_close_possible :
  forall tr s h i h0 c a j, happened tr s -> ident tr h = Some i -> made tr h0 c a j ->
  exists s', rev_step s (CloseC h c) = Some (s', ANone).
Proof. exact close_possible. Qed.
Print Assumptions C28_close_possible.

(** ... what get_client finds for a thread and an address stays the same, whatever
    other threads do, and whatever this one does other than closing a client for this
    address or failing to construct one ... *)
Theorem C28_same_client :
  forall tr s h a c es s' l, happened tr s -> rev_step s (GetC h a) = Some (s, AClient c) ->
  rev_run s es = Some (s', l) -> ~ In (TEnd h) es ->
  (forall c', In (CloseC h c') es \/ In (EndC h c' false) es -> forall h0 j, ~ made (tr ++ combine es l) h0 c' a j) ->
  rev_step s' (GetC h a) = Some (s', AClient c).
Proof. exact same_client2. Qed.
Print Assumptions C28_same_client.

(** ... and a client whose construction failed, or that its thread has closed, is not
    found in any thread for any address. *)
Theorem C28_no_trace :
  forall tr s e s' x h c, happened tr s -> rev_step s e = Some (s', x) ->
  e = EndC h c false \/ (e = CloseC h c /\ exists a i, made tr h c a i) ->
  forall h' a, rev_step s' (GetC h' a) <> Some (s', AClient c).
Proof. exact no_trace_found. Qed.
Print Assumptions C28_no_trace.

Open Scope string_scope.
Ltac history es :=
  match eval vm_compute in (rev_run reg0 es) with
  | Some (?s, ?l) => let tr := eval vm_compute in (combine es l) in
                     exists tr, s
  end.
Ltac did := match goal with |- happened ?tr _ => exists (map fst tr), (map snd tr); vm_compute; split; reflexivity end.
Ltac was_made := repeat first [apply (made_now []); reflexivity | apply (made_now [_]); reflexivity | apply (made_now [_; _]); reflexivity
  | apply (made_before [_; _; _; _; _]) | apply (made_before [_; _; _; _]) | apply (made_before [_; _; _]) | apply (made_before [_; _]) | apply (made_before [_])].
(** Two threads with clients for two servers; the second thread closes one of its
    own and fails to make another. *)
Example C28_case :
  let es0 := [TStart 1 100; TStart 2 200; NewC 1 "A" false; EndC 1 0 true; NewC 2 "A" false; EndC 2 1 true] in
  let es := [NewC 1 "B" false; NewC 2 "B" false; EndC 2 3 false; CloseC 2 1; NewC 2 "A" true] in
  exists s0 l0 s l, rev_run reg0 es0 = Some (s0, l0) /\ rev_step s0 (GetC 1 "A") = Some (s0, AClient 0) /\
    rev_run s0 es = Some (s, l) /\ l = [AClient 2; AClient 3; AExn TimeoutError; ANone; AClient 4] /\
    rev_step s (GetC 1 "A") = Some (s, AClient 0) /\ rev_step s (GetC 2 "B") = Some (s, AMissing).
Proof. do 4 eexists. vm_compute. repeat split. Qed.
Example C28_case_happened : exists s,
  happened [(TStart 1 100, ANone); (NewC 1 "A" false, AClient 0)] s /\
  registered [(TStart 1 100, ANone); (NewC 1 "A" false, AClient 0)] 100 "A" 0 /\
  made [(TStart 1 100, ANone); (NewC 1 "A" false, AClient 0)] 1 0 "A" 100.
Proof.
  eexists. split; [|split].
  - exists [TStart 1 100; NewC 1 "A" false], [ANone; AClient 0]. split; reflexivity.
  - apply (reg_now [(TStart 1 100, ANone)] 1 "A" false 0 100). reflexivity.
  - apply (made_now [(TStart 1 100, ANone)] 1 "A" false 0 100). reflexivity.
Qed.

(** C29.  In any interleaving of registrations: get_server finds the server that was
    put into the thread, if it has not been taken out ... *)
Theorem C29_get_server :
  forall tr s i, happened_s tr s ->
  exists r, sev_step s (GetS i) = Some (s, r) /\ (forall v, r = SServer v <-> serving tr i v) /\ (r = SNone <-> forall v, ~ serving tr i v).
Proof. exact get_server_finds. Qed.
Print Assumptions C29_get_server.

(** ... it is not replaced by another, and goes away only by unregistering it ... *)
Theorem C29_never_replaced :
  forall tr s e s' x i v, happened_s tr s -> sev_step s (GetS i) = Some (s, SServer v) -> sev_step s e = Some (s', x) ->
  sev_step s' (GetS i) = Some (s', SServer v) \/ (e = Unreg v i /\ sev_step s' (GetS i) = Some (s', SNone)).
Proof. exact not_replaced2. Qed.
Print Assumptions C29_never_replaced.

(** ... registering fails if the thread has a server, and only then ... *)
Theorem C29_second_server_refused :
  forall tr s i v, happened_s tr s -> asking tr i v ->
  exists s' r, sev_step s (RLock i v) = Some (s', r) /\
    ((exists w, serving tr i w) -> r = SErr KeyError) /\ ((forall w, ~ serving tr i w) -> r = SMore).
Proof. exact registration. Qed.
Print Assumptions C29_second_server_refused.

(** ... a server that has been put into one thread is refused in another ... *)
Theorem C29_second_thread_refused :
  forall tr s v j i s' r, happened_s tr s -> placed tr v j -> i <> j ->
  sev_step s (RCheck i v) = Some (s', r) -> r = SErr AssertionError /\ s' = s.
Proof. exact second_thread. Qed.
Print Assumptions C29_second_thread_refused.

(** ... unregistering works for the server of the thread and does nothing for others ... *)
Theorem C29_unregister_exact :
  forall tr s v k, happened_s tr s ->
  exists s' r, sev_step s (Unreg v k) = Some (s', r) /\
    (serving tr k v -> r = SOk) /\ (~ serving tr k v -> (exists e, r = SErr e) /\ s' = s).
Proof. exact unregister. Qed.
Print Assumptions C29_unregister_exact.

(** ... and each server is in at most one thread if registrations of the same server do
    not overlap in time ... *)
Theorem C29_one_thread_partial :
  forall es s l i j v, sev_run sreg0 es = Some (s, l) -> apart sreg0 es ->
  sev_step s (GetS i) = Some (s, SServer v) -> sev_step s (GetS j) = Some (s, SServer v) -> i = j.
Proof. exact one_thread2. Qed.
Print Assumptions C29_one_thread_partial.

(** ... and not otherwise: [srv._thread] is tested and set outside the lock. *)
Theorem C29_one_thread_refuted :
  exists es s l i j v, sev_run sreg0 es = Some (s, l) /\ Forall (fun x => x = SOk \/ x = SMore) l /\
    sev_step s (GetS i) = Some (s, SServer v) /\ sev_step s (GetS j) = Some (s, SServer v) /\ i <> j.
Proof.
  exists [RCheck 1 7; RCheck 2 7; RLock 1 7; RLock 2 7; RSet 1 7; RSet 2 7]. do 2 eexists. exists 1, 2, 7.
  split; [reflexivity|]. split; [repeat (constructor; [auto|]); constructor|]. cbn. split; [reflexivity|]. split; [reflexivity|lia].
Qed.
Print Assumptions C29_one_thread_refuted.

Example C29_case :
  let es := [RCheck 1 7; RCheck 1 8; RLock 1 8; RLock 1 7; RSet 1 8; RCheck 2 8; RCheck 2 7; RLock 2 7; RSet 2 7; Unreg 7 1; Unreg 8 1; GetS 2] in
  apart sreg0 es /\ exists s, sev_run sreg0 es = Some (s, [SMore; SMore; SMore; SErr KeyError; SOk; SErr AssertionError; SMore; SMore; SOk;
     SErr AssertionError; SOk; SServer 7]).
Proof.
  split; [|eexists; vm_compute; repeat split].
  cbn. repeat split; auto; intros j; repeat (destruct j as [|j]; auto).
Qed.
Example C29_case_happened :
  let tr := [(RCheck 1 7, SMore); (RCheck 1 8, SMore); (RLock 1 8, SMore); (RSet 1 8, SOk)] in
  (exists s, happened_s tr s) /\ asking tr 1 7 /\ serving tr 1 8 /\ placed tr 8 1.
Proof.
  cbv zeta. split; [|split; [|split]].
  - eexists. exists [RCheck 1 7; RCheck 1 8; RLock 1 8; RSet 1 8], [SMore; SMore; SMore; SOk]. split; reflexivity.
  - apply (ask_before [_; _; _]); [|discriminate]. apply (ask_before [_; _]); [|discriminate]. apply (ask_before [_]); [|discriminate].
    apply (ask_now []).
  - apply (serv_before [_; _; _]); [|discriminate]. apply (serv_now [_; _]).
  - apply (place_now [_; _; _]).
Qed.

(** C66.  As long as the system gives no ident to two threads, a thread is only ever
    handed clients it made itself ... *)
Theorem C66_own_client_partial :
  forall tr s h a c, happened tr s -> NoDup (started (map fst tr)) -> rev_step s (GetC h a) = Some (s, AClient c) ->
  exists b i, made tr h c b i.
Proof. exact own_client2. Qed.
Print Assumptions C66_own_client_partial.

(** ... but idents of finished threads are used again, and clients of finished
    threads stay in the registry. *)
Theorem C66_own_client_refuted :
  exists tr s h h0 a c i, happened tr s /\ rev_step s (GetC h a) = Some (s, AClient c) /\
    made tr h0 c a i /\ h0 <> h /\ ident tr h0 = None.
Proof.
  history [TStart 1 100; NewC 1 "A" false; EndC 1 0 true; TEnd 1; TStart 2 100].
  exists 2, 1, "A", 0, 100. split; [did|].
  split; [reflexivity|]. split; [was_made|split; [lia|reflexivity]].
Qed.
Print Assumptions C66_own_client_refuted.

(** C67.  A constructor call that raises leaves the local server it started running
    in the thread. *)
Theorem C67_constructor_failure_leaves_server_refuted :
  exists es s l, rev_run reg0 es = Some (s, l) /\ ~ In (AClient 1) l /\ last l ANone = AExn KeyError /\
    dget (g_lserver s) 100 = Some true /\
    exists s1 l1, rev_run reg0 (removelast es) = Some (s1, l1) /\ dget (g_lserver s1) 100 = None.
Proof.
  exists [TStart 1 100; NewC 1 "A" false; EndC 1 0 true; NewC 1 "A" true]. do 2 eexists.
  split; [reflexivity|]. split; [cbn; intuition discriminate|]. split; [reflexivity|]. split; [reflexivity|].
  do 2 eexists. vm_compute. split; reflexivity.
Qed.
Print Assumptions C67_constructor_failure_leaves_server_refuted.

(** C108 does not hold: a client closed in another thread than its own stays
    registered ... *)
Theorem C108_closed_client_refuted :
  exists tr s h h' a c i, happened tr s /\ made tr h c a i /\ In (CloseC h' c, ANone) tr /\
    rev_step s (GetC h a) = Some (s, AClient c).
Proof.
  history [TStart 1 100; TStart 2 200; NewC 1 "A" false; EndC 1 0 true; CloseC 2 0].
  exists 1, 2, "A", 0, 100. split; [did|].
  split; [was_made|].
  split; [cbn; auto 10|reflexivity].
Qed.
Print Assumptions C108_closed_client_refuted.
(** ... and so does one whose server has closed. *)
Theorem C108_disconnected_client_refuted :
  exists tr s h a c i, happened tr s /\ made tr h c a i /\ In (DiscC c, ANone) tr /\
    rev_step s (GetC h a) = Some (s, AClient c).
Proof.
  history [TStart 1 100; NewC 1 "A" false; EndC 1 0 true; DiscC 0].
  exists 1, "A", 0, 100. split; [did|].
  split; [was_made|].
  split; [cbn; auto 10|reflexivity].
Qed.
Print Assumptions C108_disconnected_client_refuted.

(** If clients are closed only by the threads that made them, no client that get_client
    can find has been closed.  Missing for C108: the two cases above. *)
Theorem C108_not_closed_partial :
  forall tr s, happened tr s ->
  (forall h' c' x, In (CloseC h' c', x) tr -> exists a i, made tr h' c' a i) ->
  forall h a c, rev_step s (GetC h a) = Some (s, AClient c) -> forall h' x, ~ In (CloseC h' c, x) tr.
Proof. exact open_found. Qed.
Print Assumptions C108_not_closed_partial.

(** C109 does not hold: closing a client (here one that has been closed before) makes
    get_client forget the client in use for the same address. *)
Theorem C109_other_client_forgotten_refuted :
  exists tr s s' h a c c', happened tr s /\ c' <> c /\ rev_step s (GetC h a) = Some (s, AClient c') /\
    rev_step s (CloseC h c) = Some (s', ANone) /\ rev_step s' (GetC h a) = Some (s', AMissing).
Proof.
  history [TStart 1 100; NewC 1 "A" false; EndC 1 0 true; CloseC 1 0; NewC 1 "A" false; EndC 1 1 true].
  eexists. exists 1, "A", 0, 1. split; [did|]. split; [lia|].
  split; [reflexivity|]. split; vm_compute; reflexivity.
Qed.
Print Assumptions C109_other_client_forgotten_refuted.

(** Closing the client that get_client finds affects no other.  Missing for C109: the
    other clients. *)
Theorem C109_close_own_partial :
  forall tr s h a c, happened tr s -> rev_step s (GetC h a) = Some (s, AClient c) ->
  exists s', rev_step s (CloseC h c) = Some (s', ANone) /\
    forall h' a' c', c' <> c -> rev_step s (GetC h' a') = Some (s, AClient c') -> rev_step s' (GetC h' a') = Some (s', AClient c').
Proof. exact close_found. Qed.
Print Assumptions C109_close_own_partial.
