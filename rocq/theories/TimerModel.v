(** Timer: teleprox/timer.py 10-89.  The thread, callers of start() and stop(), and
    the clock take steps in any order; a block under [self._lock] is one step (no
    block waits for anything), everything between blocks that reads shared data is a
    step of its own.  Times are integers (any unit); rounding of floats is not
    modelled.  time.perf_counter and time.sleep use the same clock. *)
From Verif Require Import Py.

(** Where the thread is in [_run] (60-89). *)
Inductive pc :=
| PEntry               (* 62-65: the callback is copied if it is a proxy *)
| PTest                (* 68: if self._last_call_time is None *)
| PClock               (* 71: time.perf_counter(), evaluated first *)
| PLast (c : Z)        (* 71: self._last_call_time *)
| PDoze (s : Z)        (* 74: about to call sleep(s), s > 0 *)
| PSleep (u : Z)       (* 74: asleep, not before u *)
| PTake                (* 76-79 *)
| PBegin               (* 81: about to call *)
| PIn                  (* 81: in the callback *)
| PCount               (* 83-86 *)
| PFin.                (* 87-89: finally *)
Inductive thr := NotYet | At (p : pc) | Dead.

(** What happens, for the statements. (timer.py 38-89) *)
Inductive tev :=
| EStart                           (* the block of start() *)
| EStop                            (* the block of stop() *)
| EStarted (i : nat) (r : res unit)(* start() called by i returns or raises *)
| EDecide (t : Z)                  (* the thread notes the time of its next call *)
| EBegin (t : Z)                   (* the callback begins *)
| ERaised (e : exn)                (* an exception in the thread *)
| EDead.

(** What start() still has to do: 49 and 52 *)
Inductive sphase := SCheck | SGo.
(** the attributes of timer.py 27-33 and where the threads are *)
Record timer := mkT { t_now : Z; t_running : bool; t_last : option Z; t_count : Z; t_th : thr;
                      t_calls : dict nat sphase; t_log : list tev }.
(** timer.py 26-33 (with [start=False]); [running] is not set before start() *)
Definition timer0 : timer := mkT 0 false None 0 NotYet [] [].

(** steps of timer.py 38-89 *)
Inductive tlab :=
| TTick (d : Z)          (* time passes *)
| TStart (i : nat)       (* caller i: start(), the block *)
| TCheck (i : nat)       (* thread.is_alive() *)
| TGo (i : nat)          (* thread.start() *)
| TStop
| TRun (e : option exn). (* the thread; [e]: the callback, or copying it, raises e *)

Definition log (s : timer) (l : list tev) (th : thr) : timer :=
  mkT (t_now s) (t_running s) (t_last s) (t_count s) th (t_calls s) (t_log s ++ l).
(** the thread goes on in timer.py 60-89 *)
Definition at_pc (s : timer) (p : pc) : timer := log s [] (At p).

(** timer.py 60-89; [interval] and [limit] are the constructor's *)
Definition run_step (interval : Z) (limit : option Z) (s : timer) (e : option exn) : timer :=
  match t_th s with
  | NotYet | Dead => s
  | At p =>
      match p with
      | PEntry => match e with None => at_pc s PTest | Some x => log s [ERaised x] (At PFin) end
      | PTest => match t_last s with None => at_pc s PTake | Some _ => at_pc s PClock end
      | PClock => at_pc s (PLast (t_now s))
      | PLast c =>
          match t_last s with
          | None => log s [ERaised TypeError] (At PFin)   (* float - None *)
          | Some l => let w := interval - (c - l) in
                      at_pc s (if 0 <? w then PDoze w else PTake)
          end
      | PDoze w => at_pc s (PSleep (t_now s + w))
      | PSleep u => if u <=? t_now s then at_pc s PTake else s
      | PTake =>
          if t_running s
          then mkT (t_now s) (t_running s) (Some (t_now s)) (t_count s) (At PBegin) (t_calls s) (t_log s ++ [EDecide (t_now s)])
          else at_pc s PFin
      | PBegin => log s [EBegin (t_now s)] (At PIn)
      | PIn => match e with None => at_pc s PCount | Some x => log s [ERaised x] (At PFin) end
      | PCount =>
          let n := t_count s + 1 in
          mkT (t_now s) (t_running s) (t_last s) n
              (At match limit with Some m => if m <=? n then PFin else PTest | None => PTest end) (t_calls s) (t_log s)
      | PFin => mkT (t_now s) false (t_last s) (t_count s) Dead (t_calls s) (t_log s ++ [EDead])
      end
  end.

Definition tstep (interval : Z) (limit : option Z) (s : timer) (l : tlab) : timer :=
  match l with
  | TTick d => if 0 <=? d then mkT (t_now s + d) (t_running s) (t_last s) (t_count s) (t_th s) (t_calls s) (t_log s) else s
  | TStart i =>                                        (* timer.py 44-47 *)
      match dget (t_calls s) i with
      | Some _ => s                                    (* i is still in start() *)
      | None => mkT (t_now s) true None 0 (t_th s) (dset (t_calls s) i SCheck) (t_log s ++ [EStart])
      end
  | TCheck i =>                                        (* timer.py 49-50 *)
      match dget (t_calls s) i with
      | Some SCheck =>
          match t_th s with
          | At _ => mkT (t_now s) (t_running s) (t_last s) (t_count s) (t_th s) (ddel (t_calls s) i) (t_log s ++ [EStarted i (Ok tt)])
          | _ => mkT (t_now s) (t_running s) (t_last s) (t_count s) (t_th s) (dset (t_calls s) i SGo) (t_log s)
          end
      | _ => s
      end
  | TGo i =>                                           (* timer.py 52; a thread can be started once *)
      match dget (t_calls s) i with
      | Some SGo =>
          match t_th s with
          | NotYet => mkT (t_now s) (t_running s) (t_last s) (t_count s) (At PEntry) (ddel (t_calls s) i) (t_log s ++ [EStarted i (Ok tt)])
          | _ => mkT (t_now s) (t_running s) (t_last s) (t_count s) (t_th s) (ddel (t_calls s) i) (t_log s ++ [EStarted i (Err RuntimeError)])
          end
      | _ => s
      end
  | TStop => mkT (t_now s) false (t_last s) (t_count s) (t_th s) (t_calls s) (t_log s ++ [EStop])   (* timer.py 54-58 *)
  | TRun e => run_step interval limit s e
  end.
(** a history of steps of timer.py 38-89 *)
Definition trun (interval : Z) (limit : option Z) (s : timer) (ls : list tlab) : timer :=
  fold_left (tstep interval limit) ls s.
