(** Property C27: threads that serve requests while waiting for replies. *)
From Verif Require Import Py ObjTableModel SerModel ReentrantModel ReentrantSpec ReentrantProofs.
Local Open Scope nat_scope.

(** C27.  Any number of threads, each running a server; any number of programs
    started by them ([mains]) or by callers outside ([calls]); every program a finite
    pattern of synchronous, asynchronous and 'off' calls that may depend on the
    results; every schedule.  While anything is unfinished, some thread can take a
    step: read its oldest request, or go on with its innermost frame. *)
Theorem C27_never_deadlocks :
  forall reentrant mains calls ls s,
  (forall t, reentrant t = true) -> rrun reentrant (rinit mains calls) ls = Some s -> ~ idle s ->
  exists t s', rstep reentrant s (Serve t 0) = Some s' \/ rstep reentrant s (Go t) = Some s'.
Proof. exact never_deadlocks. Qed.
Print Assumptions C27_never_deadlocks.

(** No schedule goes on for ever: the number of steps is bounded by what the
    programs do on their own. *)
Theorem C27_every_schedule_ends :
  forall reentrant mains calls ls s, rrun reentrant (rinit mains calls) ls = Some s ->
  List.length ls <= total mains + total calls + List.length calls.
Proof. exact bounded_steps. Qed.
Print Assumptions C27_every_schedule_ends.

(** When nothing is left to do, every caller has the result its program has by itself. *)
Theorem C27_right_results :
  forall reentrant mains calls ls s i t p,
  rrun reentrant (rinit mains calls) ls = Some s -> idle s -> nth_error (mains ++ calls) i = Some (t, p) ->
  In (i, meaning p []) (r_replies s).
Proof. intros. eapply lookup_in, right_results; eauto. Qed.
Print Assumptions C27_right_results.

(** No request is answered twice, and no answer is ever wrong. *)
Theorem C27_replies_once_and_right :
  forall reentrant mains calls ls s, rrun reentrant (rinit mains calls) ls = Some s ->
  NoDup (map fst (r_replies s)) /\
  forall i t p v, nth_error (mains ++ calls) i = Some (t, p) -> In (i, v) (r_replies s) -> v = meaning p [].
Proof. exact right_replies. Qed.
Print Assumptions C27_replies_once_and_right.

(** A synchronous call *)
Definition sync (n : nat) (t : tid) (q : prog) (k : value -> prog) : prog := Async t q (Await n k).
Definition bump (v : value) : value := match v with Ok (VInt z) => Ok (VInt (z + 1)%Z) | _ => v end.
(** A calls B, which calls A, ... [n] deep, each adding one to what it gets *)
Fixpoint pingpong (a b : tid) (n : nat) : prog :=
  match n with
  | O => Ret (Ok (VInt 0))
  | S m => sync 0 b (pingpong b a m) (fun v => Ret (bump v))
  end.

(** Threads 0 and 1 start a ping-pong of depth 3 at each other at the same time, and
    a third caller sends one to thread 1; run round robin. *)
Fixpoint robin (re : tid -> bool) (s : rsys) (fuel : nat) : list rlabel * rsys :=
  match fuel with
  | O => ([], s)
  | S f =>
      let try := fun l k => match rstep re s l with Some s' => let '(ls, z) := robin re s' f in (l :: ls, z) | None => k tt end in
      try (Serve 0 0) (fun _ => try (Serve 1 0) (fun _ => try (Go 0) (fun _ => try (Go 1) (fun _ => ([], s)))))
  end.
Example C27_case :
  let mains := [(0, pingpong 0 1 3); (1, pingpong 1 0 3)] in
  let calls := [(1, pingpong 1 0 2)] in
  let re := fun _ => true in
  exists ls s, rrun re (rinit mains calls) ls = Some s /\ idle s /\ List.length ls = total mains + total calls + 1 /\
    r_replies s <> [] /\ lookup 0 (r_replies s) = Some (Ok (VInt 3)) /\ lookup 2 (r_replies s) = Some (Ok (VInt 2)).
Proof.
  set (r := robin (fun _ => true) (rinit [(0, pingpong 0 1 3); (1, pingpong 1 0 3)] [(1, pingpong 1 0 2)]) 100).
  exists (fst r), (snd r). vm_compute. repeat split; discriminate.
Qed.

(** Without reentrancy there is a deadlock at depth 2: the caller's thread does not
    serve the nested call.  (So the hypothesis of the first theorem is needed.) *)
Example C27_not_reentrant_deadlocks :
  exists ls s, rrun (fun _ => false) (rinit [(0, pingpong 0 1 2)] []) ls = Some s /\ ~ idle s /\
    forall l, rstep (fun _ => false) s l = None.
Proof.
  set (r := robin (fun _ => false) (rinit [(0, pingpong 0 1 2)] []) 100).
  exists (fst r), (snd r). split; [vm_compute; reflexivity|]. split; [intros [H _]; vm_compute in H; discriminate|].
  intros [t n|t]; destruct t as [|[|t]]; vm_compute; reflexivity.
Qed.
