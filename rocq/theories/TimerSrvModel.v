(** RPCServer.start_timer (teleprox/server.py 484-500): a Timer (timer.py 59-90) whose callback is
    a proxy, so that each invocation is a request of the timer's thread to the server, which
    executes one request after the other (server.py 444-455).

    Times are in nanoseconds.  Simplified: start() and stop() are not called again (see C38, C40,
    C76), connecting (client.py 428-445, see C107) has been done, the limit is checked with the
    answer (timer.py 83-86), and requests of other clients only take the server's time.  The wait
    for the answer (client.py 466-500) ends between 1 ms before and [k_late] after the timeout of
    the proxy (C25). *)
From Verif Require Import Py.

Record tcfg := mkTc {
  k_interval : Z;
  k_limit : option nat;
  k_timeout : Z;                     (* proxy option 'timeout' (proxy.py 106), 10 s by default *)
  k_late : Z
}.
(** a request at the server: number [i] of the timer, or somebody else's (server.py 484-498, timer.py 81) *)
Inductive job := Mine (i : nat) | Other.
(** server.py 484-498, timer.py 81 *)
Inductive sev :=
| Sent (i : nat)                     (* the timer's thread decides to call the callback *)
| Begin (i : nat)                    (* the server begins to execute it *)
| End (i : nat)
| Over (r : option exn).             (* the timer's thread ends: limit reached, or exception *)
(** timer.py 26-33 and the server of server.py 444-454 *)
Record tsv := mkTs {
  v_now : Z;
  v_last : option Z;                 (* _last_call_time *)
  v_wait : option (nat * Z);         (* the request waited for, and since when *)
  v_count : nat;                     (* requests made *)
  v_over : bool;                     (* the thread has ended *)
  v_queue : list job;                (* waiting at the server *)
  v_exec : option job;               (* being executed *)
  v_inbox : list (nat * option exn); (* answers that have arrived in the timer's thread *)
  v_log : list (Z * sev)
}.
(** timer.py 26-33 and the server of server.py 444-454 *)
Definition tsv0 (now : Z) : tsv := mkTs now None None 0 false [] None [] [].

Inductive tlabel :=
| VTick (d : Z)
| VCall                              (* timer.py 67-81 *)
| VAsk                               (* another client sends a request *)
| VTake                              (* server.py 453-455: the next request *)
| VDone (e : option exn)             (* it has been executed; the exception, if any *)
| VAnswer                            (* the timer's thread reads the answer *)
| VGiveUp.                           (* TimeoutError *)

Section TimerServer.
  Variable K : tcfg.

  (** timer.py 67-74: no time left to sleep *)
  Definition due (s : tsv) : bool := match v_last s with None => true | Some t => t + k_interval K <=? v_now s end.
  (** timer.py 84-85 *)
  Definition reached (n : nat) : bool := match k_limit K with None => false | Some l => (l <=? n)%nat end.

  (** timer.py 60-90, server.py 444-455, client.py 466-500 *)
  Definition vstep (s : tsv) (l : tlabel) : option tsv :=
    let now := v_now s in
    match l with
    | VTick d =>
        if (0 <=? d) && match v_wait s with
                        | Some (_, t) => now + d <=? Z.max now (t + k_timeout K + k_late K)
                        | None => true
                        end
        then Some (mkTs (now + d) (v_last s) (v_wait s) (v_count s) (v_over s) (v_queue s) (v_exec s) (v_inbox s) (v_log s))
        else None
    | VCall =>
        match v_wait s with
        | Some _ => None
        | None =>
            if v_over s then None else
            if due s
            then Some (mkTs now (Some now) (Some (v_count s, now)) (S (v_count s)) false (v_queue s ++ [Mine (v_count s)]) (v_exec s)
                            (v_inbox s) (v_log s ++ [(now, Sent (v_count s))]))
            else None
        end
    | VAsk => Some (mkTs now (v_last s) (v_wait s) (v_count s) (v_over s) (v_queue s ++ [Other]) (v_exec s) (v_inbox s) (v_log s))
    | VTake =>
        match v_exec s, v_queue s with
        | None, j :: q => Some (mkTs now (v_last s) (v_wait s) (v_count s) (v_over s) q (Some j) (v_inbox s)
                                     (v_log s ++ match j with Mine i => [(now, Begin i)] | Other => [] end))
        | _, _ => None
        end
    | VDone e =>
        match v_exec s with
        | None => None
        | Some Other => Some (mkTs now (v_last s) (v_wait s) (v_count s) (v_over s) (v_queue s) None (v_inbox s) (v_log s))
        | Some (Mine i) => Some (mkTs now (v_last s) (v_wait s) (v_count s) (v_over s) (v_queue s) None (v_inbox s ++ [(i, e)])
                                      (v_log s ++ [(now, End i)]))
        end
    | VAnswer =>
        match v_wait s, v_inbox s with
        | Some (i, t), (j, e) :: r =>
            if Nat.eqb i j then
              match e with
              | Some x => Some (mkTs now (v_last s) None (v_count s) true (v_queue s) (v_exec s) r (v_log s ++ [(now, Over (Some x))]))
              | None =>
                  if reached (S i)
                  then Some (mkTs now (v_last s) None (v_count s) true (v_queue s) (v_exec s) r (v_log s ++ [(now, Over None)]))
                  else Some (mkTs now (v_last s) None (v_count s) false (v_queue s) (v_exec s) r (v_log s))
              end
            else Some (mkTs now (v_last s) (v_wait s) (v_count s) (v_over s) (v_queue s) (v_exec s) r (v_log s))
        | _, _ => None
        end
    | VGiveUp =>
        match v_wait s with
        | Some (i, t) =>
            if t + k_timeout K - 1000000 <=? now
            then Some (mkTs now (v_last s) None (v_count s) true (v_queue s) (v_exec s) (v_inbox s) (v_log s ++ [(now, Over (Some TimeoutError))]))
            else None
        | None => None
        end
    end.
  (** a history of steps (timer.py 60-90, server.py 444-455) *)
  Fixpoint vrun (s : tsv) (ls : list tlabel) : option tsv :=
    match ls with
    | [] => Some s
    | l :: r => match vstep s l with Some s' => vrun s' r | None => None end
    end.
End TimerServer.
