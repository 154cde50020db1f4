(** teleprox/client.py: [Future.result], [process_until_future] and
    [_read_and_process_one] (lines 448-527, 670-677) with a clock.

    Time is in nanoseconds.  The loop alternates between looking at the clock and
    the future (instantaneous here), computing, and blocking in [recv] or [poll].
    Time passes while it computes (for at most the given bounds) and while it
    blocks; a blocked call wakes up as soon as there is something to read or its
    timeout is over (library behaviour of zmq).  Floating-point rounding is not
    modelled. *)
From Verif Require Import Py ObjTableModel SerModel FrameModel ServerModel ClientModel.

(** units of time, client.py 476-518 *)
Definition ms : Z := 1000000.
(** units of time, client.py 476-518 *)
Definition sec : Z := 1000 * ms.

(** client.py 193-211 [_get_poller]: None, a zmq poller over both sockets, or 'qt' *)
Inductive wmode := Plain | Poll | Qt.

(** how client.py 670-676 ends *)
Inductive wres :=
| Returned (o : outcome)      (* the future's result is returned or its exception raised *)
| TimedOut                    (* TimeoutError *)
| Raised (e : exn).           (* something else came up while processing a message *)

Inductive phase :=
| PBegin (t0 : Z)                    (* start has been taken (line 465) *)
| PCheck                             (* line 466 *)
| PSetup (it : option Z) (t0 : Z)    (* itimeout computed, on the way to recv or poll *)
| PBlock (dl : option Z)             (* in recv or poll until [dl] *)
| PMsg (p : payload) (t0 : Z)        (* processing a message from the server *)
| PServe (t0 : Z)                    (* the local server processes a request *)
| PEnd (r : wres).

(** client.py 448-500 *)
Record wcfg := mkW {
  w_mode : wmode;
  w_rid : Z;                         (* the future waited for *)
  w_timeout : option Z;
  w_setup : Z; w_msg : Z; w_serve : Z   (* bounds on computing between two looks at the clock *)
}.
(** client.py 448-500 *)
Record wst := mkWst {
  s_phase : phase;
  s_now : Z;
  s_start : Z;
  s_cl : cl;
  s_in : list payload;               (* waiting in the client's socket *)
  s_req : nat                        (* requests waiting in the local server's socket *)
}.
(** the caller goes on in client.py 448-529 *)
Definition set_phase (s : wst) (p : phase) : wst :=
  mkWst p (s_now s) (s_start s) (s_cl s) (s_in s) (s_req s).

(** steps: time, the network, and client.py 448-529 *)
Inductive wlabel :=
| WTick (d : Z)
| WArrive (p : payload)
| WRequest
| WGo.

Section Wait.
  Variable V : venv.
  Variable W : wcfg.

  (** until when [recv]/[poll] blocks: RCVTIMEO is int(timeout * 1000) ms (line
      518); poll takes its argument as ms although it is in seconds (line 491), so
      int(itimeout) ms; with Qt it is 0.05 s (line 485) *)
  Definition deadline (now : Z) (it : option Z) : option Z :=
    match w_mode W, it with
    | Qt, _ => Some (now + 50 * ms)
    | _, None => None
    | Plain, Some t => Some (now + t / ms * ms)
    | Poll, Some t => Some (now + t / sec * ms)
    end.

  (** can time pass? (client.py 448-529) *)
  Definition may_tick (s : wst) (d : Z) : bool :=
    (0 <=? d) &&
    match s_phase s with
    | PBegin t0 => s_now s + d <=? t0 + w_setup W
    | PCheck => false
    | PSetup _ t0 => s_now s + d <=? t0 + w_setup W
    | PBlock dl =>
        match s_in s with [] => true | _ => false end &&
        match w_mode W with Poll => Nat.eqb (s_req s) 0 | _ => true end &&
        match dl with Some t => s_now s + d <=? t | None => true end
    | PMsg _ t0 => s_now s + d <=? t0 + w_msg W
    | PServe t0 => s_now s + d <=? t0 + w_serve W
    | PEnd _ => true
    end.

  (** one step of the loop; None while blocked or finished (client.py 448-529, 670-677) *)
  Definition wgo (s : wst) : option wst :=
    match s_phase s with
    | PBegin _ => Some (set_phase s PCheck)
    | PCheck =>
        match dget (c_done (s_cl s)) (w_rid W) with
        | Some o => Some (set_phase s (PEnd (Returned o)))
        | None =>
            match w_timeout W with
            | None => Some (set_phase s (PSetup None (s_now s)))
            | Some t =>
                let it := t - (s_now s - s_start s) in
                if it <? 0 then Some (set_phase s (PEnd TimedOut))
                else Some (set_phase s (PSetup (Some it) (s_now s)))
            end
        end
    | PSetup it _ => Some (set_phase s (PBlock (deadline (s_now s) it)))
    | PBlock dl =>
        match s_in s with
        | p :: r => Some (mkWst (PMsg p (s_now s)) (s_now s) (s_start s) (s_cl s) r (s_req s))
        | [] =>
            match w_mode W, s_req s with
            | Poll, S n => Some (mkWst (PServe (s_now s)) (s_now s) (s_start s) (s_cl s) [] n)
            | _, _ =>
                match dl with
                | Some t =>
                    if t <=? s_now s then
                      Some (set_phase s (match w_mode W with Plain => PEnd TimedOut | _ => PCheck end))
                    else None
                | None => None
                end
            end
        end
    | PMsg p _ =>
        let '(k, x) := client_recv V (s_cl s) p in
        Some (mkWst (match x with None => PCheck | Some e => PEnd (Raised e) end)
                    (s_now s) (s_start s) k (s_in s) (s_req s))
    | PServe _ => Some (set_phase s PCheck)
    | PEnd _ => None
    end.

  (** a step of time, of the network or of client.py 448-529 *)
  Definition wstep (s : wst) (l : wlabel) : option wst :=
    match l with
    | WTick d => if may_tick s d then Some (mkWst (s_phase s) (s_now s + d) (s_start s) (s_cl s) (s_in s) (s_req s)) else None
    | WArrive p => Some (mkWst (s_phase s) (s_now s) (s_start s) (s_cl s) (s_in s ++ [p]) (s_req s))
    | WRequest => Some (mkWst (s_phase s) (s_now s) (s_start s) (s_cl s) (s_in s) (S (s_req s)))
    | WGo => wgo s
    end.
  (** a history of steps (client.py 448-529) *)
  Fixpoint wrun (s : wst) (ls : list wlabel) : option wst :=
    match ls with
    | [] => Some s
    | l :: r => match wstep s l with Some s' => wrun s' r | None => None end
    end.

  (** result() is called at time [now] (client.py 670-677) *)
  Definition wstart (now : Z) (k : cl) (inbox : list payload) (req : nat) : wst :=
    mkWst (PBegin now) now now k inbox req.
End Wait.
