(** Properties of servers and clients that live in the threads of one process (C118, C119, C127). *)
From Verif Require Import Py LocalModel LocalSpec LocalProofs LocalProofs2.
Local Open Scope nat_scope.

(** ** C118: a waiting client lets the server of its own thread answer *)
(** ... as long as the thread has had one server only. *)
Theorem C118_waiting_client_serves_partial : forall os c k s,
  client_is (lrun os) c k -> c_reent k = true -> get_server (lrun os) (c_thread k) = Some s ->
  (forall s', had os (c_thread k) s' -> s' = s) ->
  l_served (fst (lstep (lrun os) (LWait c s))) = l_served (lrun os) ++ [(c, s)].
Proof. exact wait_served. Qed.
Print Assumptions C118_waiting_client_serves_partial.
(** thread 0 runs server 0 lazily and has a client of server 1 of thread 1 *)
Definition lazy0 : list lop := [LServer Plain; LLazy 0 0; LServer Plain; LForever 1 1; LClient 0 1 true].
Example C118_nontrivial : client_is (lrun lazy0) 0 (mkCl 0 1 true (Some (PBoth 0)) false) /\ get_server (lrun lazy0) 0 = Some 0 /\
  l_served (lrun (lazy0 ++ [LWait 0 0])) = [(0, 0)].
Proof. vm_compute. auto. Qed.

Example C118_only : forall s', had lazy0 0 s' -> s' = 0.
Proof.
  intros s' (a & b & E & G). unfold lazy0 in E.
  do 5 (destruct a as [|? a]; [vm_compute in G; congruence|]; injection E as <- E). destruct a; [vm_compute in G; congruence|discriminate E].
Qed.

(** Once a client has waited in a thread that has a server, it never answers requests to a
    server that takes the place of this one: it keeps the poller it made first. *)
Theorem C118_later_server_refuted : forall os1 x os2 c k s1 s2 v2,
  client_is (lrun os1) c k -> c_reent k = true -> get_server (lrun os1) (c_thread k) = Some s1 ->
  get_server (lrun (os1 ++ LWait c x :: os2)) (c_thread k) = Some s2 -> s2 <> s1 ->
  server_is (lrun (os1 ++ LWait c x :: os2)) s2 v2 -> v_kind v2 = Plain ->
  l_served (fst (lstep (lrun (os1 ++ LWait c x :: os2)) (LWait c s2))) = l_served (lrun (os1 ++ LWait c x :: os2)).
Proof. exact wait_replaced. Qed.
Print Assumptions C118_later_server_refuted.
(** the same thread closes its server and starts another: the first wait is served, the second not *)
Definition lazy1 : list lop := lazy0 ++ LWait 0 0 :: [LClose 0 0; LServer Plain; LLazy 0 2].
Example C118_later_nontrivial : get_server (lrun lazy0) 0 = Some 0 /\ get_server (lrun lazy1) 0 = Some 2 /\
  server_is (lrun lazy1) 2 (mkSv Plain (Some 0) false false false) /\ l_served (lrun (lazy1 ++ [LWait 0 2])) = [(0, 0)].
Proof. vm_compute. auto. Qed.

(** ** C119: close() closes the server *)
(** When close() returns, the server is closed; and it does return if another thread runs the
    server's loop, or the calling thread has this server and never had another. *)
Theorem C119_close_closes_partial : forall os t s,
  (snd (lstep (lrun os) (LClose t s)) = Ok tt -> is_closed (fst (lstep (lrun os) (LClose t s))) s) /\
  (is_open (lrun os) s -> attainable os t s ->
   snd (lstep (lrun os) (LClose t s)) = Ok tt /\ is_closed (fst (lstep (lrun os) (LClose t s))) s).
Proof. intros os t s. exact (conj (close_ok os t s) (close_works os t s)). Qed.
Print Assumptions C119_close_closes_partial.
Example C119_nontrivial : is_open (lrun lazy0) 1 /\ looping (lrun lazy0) 1 1 /\ snd (lstep (lrun lazy0) (LClose 0 1)) = Ok tt /\
  is_open (lrun lazy0) 0 /\ get_server (lrun lazy0) 0 = Some 0 /\ snd (lstep (lrun lazy0) (LClose 0 0)) = Ok tt.
Proof. vm_compute. repeat split; eauto. Qed.

(** A server that was created but never run cannot be closed. *)
Theorem C119_never_run_refuted : forall os t s v, server_is (lrun os) s v -> v_thread v = None ->
  snd (lstep (lrun os) (LClose t s)) = Err TimeoutError /\ is_open (fst (lstep (lrun os) (LClose t s))) s.
Proof. exact close_never_run. Qed.
Print Assumptions C119_never_run_refuted.
Example C119_never_run_nontrivial : server_is (lrun (lazy0 ++ [LServer (Qt true)])) 2 (mkSv (Qt true) None false false false).
Proof. reflexivity. Qed.
(** Closing once more from a thread without a client is refused. *)
Theorem C119_again_refuted : forall os t s v, server_is (lrun os) s v -> v_closed v = true -> v_kind v = Plain -> no_client (lrun os) t s ->
  snd (lstep (lrun os) (LClose t s)) = Err ConnectionRefusedError.
Proof. exact close_again. Qed.
Print Assumptions C119_again_refuted.
Example C119_again_nontrivial : is_closed (lrun (lazy0 ++ [LClose 0 1])) 1 /\ no_client (lrun (lazy0 ++ [LClose 0 1])) 2 1.
Proof.
  split; [vm_compute; eauto|]. intros c k E. unfold client_is in E. vm_compute in E.
  destruct c as [|c]; [injection E as <-; cbn; intros [X _]; discriminate|]. destruct c; discriminate E.
Qed.

(** ** C127: a thread has one server, and get_server() returns it *)
(** In every history get_server() returns a server in a thread exactly if that was started there
    without an exception and is open. *)
Theorem C127_server_of_the_thread_partial : forall os t s,
  get_server (lrun os) t = Some s <-> was_started os t s /\ is_open (lrun os) s.
Proof. exact found_iff. Qed.
Print Assumptions C127_server_of_the_thread_partial.
(** A server that was never started can be started in a thread without one, not in a thread with
    one; and a server that was started cannot be started in another thread.  The attempt changes
    nothing. *)
Theorem C127_start_refused_partial : forall os o t s, starts o t s -> (exists v, server_is (lrun os) s v) ->
  ((forall t', ~ was_started os t' s) -> (forall s', get_server (lrun os) t <> Some s') -> snd (lstep (lrun os) (LLazy t s)) = Ok tt) /\
  (forall s', get_server (lrun os) t = Some s' -> (forall t', ~ was_started os t' s) -> lstep (lrun os) o = (lrun os, Err KeyError)) /\
  (forall t', was_started os t' s -> t' <> t -> lstep (lrun os) o = (lrun os, Err AssertionError)).
Proof.
  intros os o t s St V. split; [|split].
  - intros A B. apply fresh_started; auto.
  - intros s' A B. eapply second_refused; eauto.
  - intros t' A B. eapply moved_refused; eauto.
Qed.
Print Assumptions C127_start_refused_partial.
(** But run_lazy() of a server that has been closed returns as if it had been started: nothing
    has happened, and get_server() does not return it. *)
Theorem C127_closed_server_refuted : forall os t s, was_started os t s -> is_closed (lrun os) s ->
  lstep (lrun os) (LLazy t s) = (lrun os, Ok tt) /\ get_server (lrun os) t <> Some s.
Proof. exact closed_silent. Qed.
Print Assumptions C127_closed_server_refuted.
Example C127_case :
  get_server (lrun lazy0) 0 = Some 0 /\ get_server (lrun lazy0) 1 = Some 1 /\
  (forall t, ~ was_started (lazy0 ++ [LServer Plain]) t 2) /\
  snd (lstep (lrun (lazy0 ++ [LServer Plain])) (LLazy 2 2)) = Ok tt /\
  snd (lstep (lrun (lazy0 ++ [LServer Plain])) (LLazy 0 2)) = Err KeyError /\
  snd (lstep (lrun lazy0) (LForever 2 0)) = Err AssertionError.
Proof.
  repeat split; try (vm_compute; reflexivity). intros t W. apply started_placed in W. destruct W as (v & V & T).
  vm_compute in V. injection V as <-. discriminate T.
Qed.
Example C127_closed_case : was_started (lazy0 ++ [LClose 0 0]) 0 0 /\ is_closed (lrun (lazy0 ++ [LClose 0 0])) 0.
Proof.
  split; [|vm_compute; eauto]. exists [LServer Plain], (LLazy 0 0). eexists. split; [reflexivity|]. split; [left; reflexivity|vm_compute; reflexivity].
Qed.
