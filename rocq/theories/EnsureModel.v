(** teleprox/client.py: [RPCClient.ensure_connection] (lines 428-446), which the
    constructor calls (line 169), on top of WaitModel.

    Time is in nanoseconds; time.time() and time.perf_counter() are taken to advance
    alike.  [establishing_connect] is False at the beginning and the method is not
    called again while it runs, so lines 431-432 and 446 are left out. *)
From Verif Require Import Py ObjTableModel SerModel FrameModel ServerModel ClientModel WaitModel.

Inductive eres :=
| Connected                    (* returns *)
| NotConnected                 (* TimeoutError, line 444 *)
| Failed (e : exn).            (* any other exception *)

Inductive ephase :=
| ELoop (t0 now : Z) (k : cl) (prev : option Z) (inbox : list payload) (req : nat)
                               (* before line 436; [prev] is the future still in [fut] *)
| EWait (rid : Z) (w : wst)    (* in line 439 *)
| EEnd (now : Z) (k : cl) (r : eres).

Record est := mkE {
  e_phase : ephase;
  e_start : Z;                       (* line 435 *)
  e_pings : list (Z * Z)             (* pings sent so far: request ID and time *)
}.

(** parameters: how the client waits, the timeout, and the bounds of WaitModel (client.py 428-446) *)
Record ecfg := mkEc { e_mode : wmode; e_timeout : Z; e_setup : Z; e_msg : Z; e_serve : Z }.

Section Ensure.
  Variable V : venv.
  Variable C : ecfg.

  (** client.py 439: result(timeout=0.1) *)
  Definition ping_wait (rid : Z) : wcfg := mkW (e_mode C) rid (Some (100 * ms)) (e_setup C) (e_msg C) (e_serve C).

  (** client.py 436-445, one step *)
  Definition ego (s : est) : option est :=
    match e_phase s with
    | ELoop _ now k prev inbox req =>
        if now <? e_start s + e_timeout C then
          let '(k1, m, r) := send V k "ping" None "auto" Async in
          match r with
          | Ok (Some rid) =>
              (* line 437: [fut] is assigned, the previous future goes away *)
              let k2 := match prev with Some q => drop_future k1 q | None => k1 end in
              Some (mkE (EWait rid (wstart now k2 inbox req)) (e_start s) (e_pings s ++ [(rid, now)]))
          | Ok None => Some (mkE (EEnd now k1 (Failed AttributeError)) (e_start s) (e_pings s))
          | Err e => Some (mkE (EEnd now k1 (Failed e)) (e_start s) (e_pings s))
          end
        else Some (mkE (EEnd now k NotConnected) (e_start s) (e_pings s))
    | EWait rid w =>
        match s_phase w with
        | PEnd (Returned (Ok _)) => Some (mkE (EEnd (s_now w) (s_cl w) Connected) (e_start s) (e_pings s))
        | PEnd (Returned (Err e)) => Some (mkE (EEnd (s_now w) (s_cl w) (Failed e)) (e_start s) (e_pings s))
        | PEnd TimedOut | PEnd (Raised TimeoutError) =>
            Some (mkE (ELoop (s_now w) (s_now w) (s_cl w) (Some rid) (s_in w) (s_req w)) (e_start s) (e_pings s))
        | PEnd (Raised e) => Some (mkE (EEnd (s_now w) (s_cl w) (Failed e)) (e_start s) (e_pings s))
        | _ => match wstep V (ping_wait rid) w WGo with
               | Some w' => Some (mkE (EWait rid w') (e_start s) (e_pings s))
               | None => None
               end
        end
    | EEnd _ _ _ => None
    end.

  (** time passes, messages and requests arrive, the program goes on (client.py 428-446, 502-529) *)
  Definition estep (s : est) (l : wlabel) : option est :=
    match l, e_phase s with
    | WGo, _ => ego s
    | WTick d, ELoop t0 now k prev inbox req =>
        if (0 <=? d) && (now + d <=? t0 + e_setup C)
        then Some (mkE (ELoop t0 (now + d) k prev inbox req) (e_start s) (e_pings s)) else None
    | WArrive p, ELoop t0 now k prev inbox req =>
        Some (mkE (ELoop t0 now k prev (inbox ++ [p]) req) (e_start s) (e_pings s))
    | WRequest, ELoop t0 now k prev inbox req =>
        Some (mkE (ELoop t0 now k prev inbox (S req)) (e_start s) (e_pings s))
    | _, EWait rid w =>
        match l, s_phase w with
        | WTick _, PEnd _ => None
        | _, _ =>
            match wstep V (ping_wait rid) w l with
            | Some w' => Some (mkE (EWait rid w') (e_start s) (e_pings s))
            | None => None
            end
        end
    | _, EEnd _ _ _ => None
    end.
  (** a history of steps (client.py 428-446) *)
  Fixpoint erun (s : est) (ls : list wlabel) : option est :=
    match ls with
    | [] => Some s
    | l :: r => match estep s l with Some s' => erun s' r | None => None end
    end.

  (** ensure_connection() is called at time [now] (client.py 428-434) *)
  Definition estart (now : Z) (k : cl) (inbox : list payload) (req : nat) : est :=
    mkE (ELoop now now k None inbox req) now [].
End Ensure.
