(** Specification vocabulary for waiting for, stopping and killing a child process. *)
From Verif Require Import Py ChildModel.

(** every event of the log is as [P] says, given what came before it *)
Definition each (P : list (Z * cev) -> Z -> cev -> Prop) (log : list (Z * cev)) : Prop :=
  forall before t e after, log = before ++ (t, e) :: after -> P before t e.
(** the child has exited with code [c], or at all *)
Definition exited_with (c : Z) (log : list (Z * cev)) : Prop := exists t, In (t, EvExit c) log.
Definition exited (log : list (Z * cev)) : Prop := exists c, exited_with c log.
(** the latest call: when, which, with which timeout *)
Fixpoint latest_call (log : list (Z * cev)) : option (Z * call * Z) :=
  match log with
  | [] => None
  | (t, e) :: r => match latest_call r with
                   | Some x => Some x
                   | None => match e with EvCall k to => Some (t, k, to) | _ => None end
                   end
  end.
(** the time a call is given: kill() waits for ten seconds *)
Definition allowed (k : call) (timeout : Z) : Z := match k with CKill => 10 * 1000000000 | _ => timeout end.

(** the caller is inside a call *)
Definition busy (s : cst) : Prop := c_phase s <> PIdle.
(** calls have ended in the log *)
Definition ends (e : cev) : bool := match e with EvReturn _ _ | EvRaise _ _ => true | _ => false end.
Definition ended_calls (log : list (Z * cev)) : nat := List.length (filter (fun x => ends (snd x)) log).

(** labels that concern pipe [i], or are calls *)
Definition writes_to (i : nat) (l : clab) : bool := match l with LWrite j _ | LHup j => Nat.eqb i j | _ => false end.
Definition hangs (i : nat) (l : clab) : bool := match l with LHup j => Nat.eqb i j | _ => false end.
Definition polls (l : clab) : bool := match l with LRead _ _ => true | _ => false end.
Definition is_call (l : clab) : bool := match l with LCall _ _ => true | _ => false end.

(** by when a call made at [tc] is over: stop() asks first, then waits *)
Definition deadline (K : ccfg) (k : call) (tc timeout : Z) : Z :=
  tc + Z.max 0 (allowed k timeout) + match k with CStop => Z.max 0 timeout + k_ask K | _ => 0 end
  + 100 * 1000000 + 7 * k_setup K.
(** no poller thread reads the child's output: it is not captured, or the run says so *)
Definition unpolled (n : nat) (ls : list clab) : Prop := n = 0%nat \/ forallb (fun l => negb (polls l)) ls = true.
(** the caller can go on: at once, when the server answers, or after some time *)
Definition can_go_on (K : ccfg) (s : cst) : Prop :=
  exists ls s', (ls = [LGo] \/ ls = [LReply (Ok true)] \/ exists d, 0 < d /\ ls = [LTick d; LGo]) /\ crun K s ls = Some s'.

(** the child writes [b] to pipe [i] while its output is being waited for; select returns,
    and PipePoller reads the bytes before communicate does *)
Definition overtaken (i : nat) (timeout : Z) (b : list Z) : list clab :=
  [LCall CWait timeout; LGo; LGo; LWrite i b; LGo; LRead i (List.length b)].
(** the child has written [b]; wait(timeout) is called before PipePoller reads it *)
Definition waited_first (i : nat) (timeout : Z) (b : list Z) : list clab :=
  [LWrite i b; LCall CWait timeout; LGo; LGo; LGo; LGo].
(** stop(timeout): the server answers at the last moment, the child does not exit *)
Definition slow_stop (timeout : Z) : list clab :=
  [LCall CStop timeout; LTick timeout; LReply (Ok true); LGo; LTick 1; LGo; LTick timeout; LGo].
