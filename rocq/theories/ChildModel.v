(** ChildProcess: [wait], [kill], [stop] and [poll], teleprox/process.py 266-334, with
    Popen.communicate, Popen.wait and Popen.poll (CPython 3.11 subprocess.py, library)
    and the threads that read the child's output (log/stdio.py 15-24).

    Time is in nanoseconds; time.time() (283) and time.monotonic() (subprocess) advance
    alike.  While the program computes between two looks at the clock time passes by at
    most [k_setup].  What is under the pipes is one buffer each; whoever reads takes
    bytes from its front.  Simplified: Popen.wait called by communicate uses the end of
    communicate itself (the remaining time is computed from it); the buffer of the file
    object is not modelled, a byte that PipePoller has read counts as seen by it. *)
From Verif Require Import Py.

(** stdout or stderr of the child, if it is captured (process.py 206-207) *)
Record pipe := mkPipe {
  pp_writers : bool;          (* some process still has it open for writing *)
  pp_buf : list Z;            (* written but not read *)
  pp_open : bool;             (* the parent's file object is open *)
  pp_written : list Z;        (* everything ever written, for the statements *)
  pp_polled : list Z;         (* everything PipePoller has read (stdio.py 21) *)
  pp_taken : list Z           (* everything communicate has read *)
}.
(** a pipe of subprocess.Popen, process.py 201-206 *)
Definition new_pipe : pipe := mkPipe true [] true [] [] [].

(** the methods of process.py 280-328 *)
Inductive call := CWait | CStop | CKill.
(** what happens, for the statements (of the calls of process.py 280-328) *)
Inductive cev :=
| EvCall (k : call) (timeout : Z)
| EvExit (code : Z)                       (* the child exits *)
| EvSignal                                (* SIGKILL is sent to it *)
| EvReturn (k : call) (r : option Z)
| EvRaise (k : call) (e : exn).

(** where the caller is *)
Inductive cphase :=
| PIdle                                   (* in none of these methods *)
| PAsk (t0 : Z)                           (* process.py 325: in close_server *)
| PCom (start t0 : Z)                     (* 283 has been done, on the way into communicate *)
| PTop (start fin t0 : Z)                 (* communicate: while selector.get_map() *)
| PSelect (start fin dl : Z)              (* communicate: in selector.select *)
| PRead (start fin : Z) (ready : list nat) (t0 : Z)   (* communicate: for key, events in ready *)
| PReap (start fin d t0 : Z)              (* Popen._wait: top of its loop; d: last delay *)
| PNap (start fin d dl : Z)               (* Popen._wait: in time.sleep *)
| PPoll (start d t0 : Z)                  (* process.py 299-303 *)
| PSleep (start d dl : Z).                (* process.py 304 *)

Record cst := mkC {
  c_now : Z;
  c_exit : option Z;                      (* return code *)
  c_pipes : list pipe;
  c_call : call; c_timeout : Z;           (* the call being made *)
  c_phase : cphase;
  c_log : list (Z * cev)
}.
(** a child that has just been started, with [n] captured pipes (0 or 2) (process.py 267-278) *)
Definition new_child (now : Z) (n : nat) : cst := mkC now None (repeat new_pipe n) CWait 0 PIdle [].

(** steps: time, the child, the thread of stdio.py 20-24, and the caller of process.py 280-328 *)
Inductive clab :=
| LTick (d : Z)                           (* time passes *)
| LWrite (i : nat) (b : list Z)           (* the child, or a process it started, writes *)
| LHup (i : nat)                          (* the last writer closes the pipe *)
| LExit (code : Z)                        (* the child exits *)
| LRead (i : nat) (n : nat)               (* PipePoller reads up to n bytes *)
| LCall (k : call) (timeout : Z)          (* a method is called; kill ignores [timeout] *)
| LReply (r : res bool)                   (* close_server returns or raises *)
| LError                                  (* communicate raises AttributeError or ValueError (289-293) *)
| LGo.                                    (* the caller goes on *)

Definition millis : Z := 1000000.
(** bounds on computing and on the time close_server takes beyond its timeout (C25),
    how much communicate reads at a time (32768), and whether the program has closed the
    child's stdin itself: then communicate flushes a closed file, or misses the table
    that the first call should have made (process.py 290-293) *)
Record ccfg := mkCc { k_setup : Z; k_ask : Z; k_chunk : nat; k_stdin_closed : bool }.

(** a state with another phase, more events, other pipes (process.py 280-328) *)
Definition at_phase (s : cst) (p : cphase) : cst :=
  mkC (c_now s) (c_exit s) (c_pipes s) (c_call s) (c_timeout s) p (c_log s).
(** a state changed in one field; the caller is in process.py 280-328 *)
Definition happened (s : cst) (e : cev) : cst :=
  mkC (c_now s) (c_exit s) (c_pipes s) (c_call s) (c_timeout s) (c_phase s) (c_log s ++ [(c_now s, e)]).
(** a state changed in one field; the caller is in process.py 280-328 *)
Definition with_pipes (s : cst) (l : list pipe) : cst :=
  mkC (c_now s) (c_exit s) l (c_call s) (c_timeout s) (c_phase s) (c_log s).
(** the call ends (by return, process.py 302, 316, 328) *)
Definition returns (s : cst) (r : option Z) : cst := at_phase (happened s (EvReturn (c_call s) r)) PIdle.
(** by an exception, process.py 296, 304 *)
Definition raises (s : cst) (e : exn) : cst := at_phase (happened s (EvRaise (c_call s) e)) PIdle.

(** the list of pipes with one changed (process.py 201-206) *)
Fixpoint update {A} (l : list A) (i : nat) (f : A -> A) : list A :=
  match l, i with
  | [], _ => []
  | x :: r, O => f x :: r
  | x :: r, S j => x :: update r j f
  end.

(** data to read, or end of file (what select sees; communicate, process.py 289 (library)) *)
Definition readable (p : pipe) : bool :=
  pp_open p && (match pp_buf p with [] => negb (pp_writers p) | _ => true end).
(** communicate: os.read; at the end of file the file object is closed (process.py 289 (library)) *)
Definition take (n : nat) (p : pipe) : pipe :=
  match pp_buf p with
  | [] => mkPipe (pp_writers p) [] false (pp_written p) (pp_polled p) (pp_taken p)
  | b => mkPipe (pp_writers p) (skipn n b) (pp_open p) (pp_written p) (pp_polled p) (pp_taken p ++ firstn n b)
  end.
(** the pipes that select reports, by position (what select sees; communicate, process.py 289 (library)) *)
Fixpoint positions (i : nat) (l : list pipe) : list nat :=
  match l with
  | [] => []
  | p :: r => (if readable p then [i] else []) ++ positions (S i) r
  end.
(** os.read would block: PipePoller has read what select saw
    (what select sees; communicate, process.py 289 (library)) *)
Definition blocked (l : list pipe) (i : nat) : bool :=
  match nth_error l i with Some p => negb (readable p) | None => false end.
(** stdio.py 21 *)
Definition poller_reads (n : nat) (p : pipe) : pipe :=
  mkPipe (pp_writers p) (skipn n (pp_buf p)) (pp_open p) (pp_written p) (pp_polled p ++ firstn n (pp_buf p)) (pp_taken p).
(** what the child does to its end of the pipe of process.py 201-206 *)
Definition writes (b : list Z) (p : pipe) : pipe :=
  if pp_writers p then mkPipe true (pp_buf p ++ b) (pp_open p) (pp_written p ++ b) (pp_polled p) (pp_taken p) else p.
(** what the child does to its end of the pipe of process.py 201-206 *)
Definition hangs_up (p : pipe) : pipe :=
  mkPipe false (pp_buf p) (pp_open p) (pp_written p) (pp_polled p) (pp_taken p).

(** selectors.PollSelector.select: whole milliseconds, rounded up
    (the timeout of communicate, process.py 289 (library)) *)
Definition up_ms (t : Z) : Z := (t + millis - 1) / millis * millis.

Section Child.
  Variable K : ccfg.

  (** process.py 308-316 [kill], 318-328 [stop], 280-283 [wait] *)
  Definition begin_call (s : cst) (k : call) (timeout : Z) : cst :=
    let s1 := mkC (c_now s) (c_exit s) (c_pipes s) k timeout (c_phase s) (c_log s ++ [(c_now s, EvCall k timeout)]) in
    match k with
    | CWait => at_phase s1 (PCom (c_now s) (c_now s))
    | CStop => match c_exit s with Some _ => returns s1 None | None => at_phase s1 (PAsk (c_now s)) end
    | CKill => match c_exit s with
               | Some _ => returns s1 None
               | None => at_phase (happened (mkC (c_now s1) (c_exit s1) (c_pipes s1) k (10000 * millis) (c_phase s1) (c_log s1)) EvSignal)
                                  (PCom (c_now s) (c_now s))
               end
    end.

  (** one step of the caller; [None] while it is blocked (process.py 280-328 with communicate (library)) *)
  Definition go (s : cst) : option cst :=
    let now := c_now s in
    match c_phase s with
    | PIdle | PAsk _ => None
    | PCom start _ => Some (at_phase s (PTop start (now + c_timeout s) now))
    | PTop start fin _ =>
        if existsb pp_open (c_pipes s) then
          if fin - now <? 0 then Some (raises s TimeoutError)
          else Some (at_phase s (PSelect start fin (now + up_ms (fin - now))))
        else Some (at_phase s (PReap start fin 500000 now))
    | PSelect start fin dl =>
        if existsb readable (c_pipes s) || (dl <=? now) then
          if fin <? now then Some (raises s TimeoutError)
          else Some (at_phase s (PRead start fin (positions 0 (c_pipes s)) now))
        else None
    | PRead start fin [] _ => Some (at_phase s (PTop start fin now))
    | PRead start fin (i :: r) _ =>
        if blocked (c_pipes s) i then None
        else Some (at_phase (with_pipes s (update (c_pipes s) i (take (k_chunk K)))) (PRead start fin r now))
    | PReap start fin d _ =>
        match c_exit s with
        | Some _ => Some (at_phase s (PPoll start millis now))
        | None =>
            if fin - now <=? 0 then Some (raises s TimeoutError)
            else let d' := Z.min (Z.min (2 * d) (fin - now)) (50 * millis) in
                 Some (at_phase s (PNap start fin d' (now + d')))
        end
    | PNap start fin d dl => if dl <=? now then Some (at_phase s (PReap start fin d now)) else None
    | PPoll start d _ =>
        match c_exit s with
        | Some c => Some (returns s (Some c))
        | None => if c_timeout s <? now - start then Some (raises s TimeoutError)
                  else Some (at_phase s (PSleep start d (now + d)))
        end
    | PSleep start d dl => if dl <=? now then Some (at_phase s (PPoll start (Z.min (2 * d) (100 * millis)) now)) else None
    end.

  (** how long the caller may take between looks at the clock: process.py 283-304, and communicate (library) *)
  Definition may_tick (s : cst) (d : Z) : bool :=
    (0 <=? d) &&
    match c_phase s with
    | PIdle => true
    | PAsk t0 => c_now s + d <=? t0 + Z.max 0 (c_timeout s) + k_ask K
    | PCom _ t0 | PTop _ _ t0 | PReap _ _ _ t0 | PPoll _ _ t0 => c_now s + d <=? t0 + k_setup K
    | PRead _ _ (i :: _) t0 => blocked (c_pipes s) i || (c_now s + d <=? t0 + k_setup K)
    | PRead _ _ [] t0 => c_now s + d <=? t0 + k_setup K
    | PSelect _ _ dl => negb (existsb readable (c_pipes s)) && (c_now s + d <=? dl)
    | PNap _ _ _ dl | PSleep _ _ dl => c_now s + d <=? dl
    end.

  (** a step of time, of the child, of stdio.py 20-24 or of process.py 280-328 *)
  Definition cstep (s : cst) (l : clab) : option cst :=
    match l with
    | LTick d => if may_tick s d
                 then Some (mkC (c_now s + d) (c_exit s) (c_pipes s) (c_call s) (c_timeout s) (c_phase s) (c_log s)) else None
    | LWrite i b => Some (with_pipes s (update (c_pipes s) i (writes b)))
    | LHup i => Some (with_pipes s (update (c_pipes s) i hangs_up))
    | LExit c => match c_exit s with
                 | Some _ => None
                 | None => Some (mkC (c_now s) (Some c) (c_pipes s) (c_call s) (c_timeout s) (c_phase s) (c_log s ++ [(c_now s, EvExit c)]))
                 end
    | LRead i n => Some (with_pipes s (update (c_pipes s) i (poller_reads n)))
    | LCall k t => match c_phase s with PIdle => Some (begin_call s k t) | _ => None end
    | LReply r =>
        match c_phase s with
        | PAsk _ => match r with
                    | Ok true => Some (at_phase s (PCom (c_now s) (c_now s)))        (* process.py 328 *)
                    | Ok false => Some (raises s AssertionError)                    (* 326 *)
                    | Err e => Some (raises s e)
                    end
        | _ => None
        end
    | LError =>
        match c_phase s with
        | PCom start _ => if k_stdin_closed K then Some (at_phase s (PPoll start millis (c_now s))) else None
        | _ => None
        end
    | LGo => go s
    end.
  (** a history of steps (process.py 266-334) *)
  Fixpoint crun (s : cst) (ls : list clab) : option cst :=
    match ls with
    | [] => Some s
    | l :: r => match cstep s l with Some s' => crun s' r | None => None end
    end.
End Child.
