(** The registries of clients and servers: teleprox/client.py 65-124, 169-171,
    595-601 and teleprox/server.py 91-126.

    Threads have a handle (which thread it is) and an ident
    ([threading.current_thread().ident]); the operating system may give the ident of
    a finished thread to a new one.  Each event below is one section executed under
    [clients_by_thread_lock] / [servers_by_thread_lock] or one access to
    [srv._thread]; events of different threads, and events nested in one thread (a
    server processing requests while its thread waits), interleave in any way. *)
From Verif Require Import Py.
Local Open Scope nat_scope.

(** *** clients *)
(** An RPCClient object (client.py 117-171) *)
Record cobj := mkC {
  co_addr : string;
  co_ident : nat;        (* ident of the thread that made it *)
  co_maker : nat;        (* handle of that thread *)
  co_done : bool;        (* the constructor has returned *)
  co_open : bool         (* its socket is open *)
}.
(** client.py 65 *)
Record reg := mkReg {
  g_clients : list ((nat * string) * nat);   (* RPCClient.clients_by_thread: (ident, address) -> client *)
  g_objs : list (nat * cobj);                (* all clients ever made *)
  g_nobj : nat;
  g_live : list (nat * nat);                 (* running threads: handle -> ident *)
  g_lserver : list (nat * bool)              (* idents of threads with a server (see below) *)
}.
(** client.py 65 *)
Definition reg0 : reg := mkReg [] [] 0 [] [].

Inductive rev :=
| TStart (h i : nat)
| TEnd (h : nat)
| GetC (h : nat) (a : string)                    (* get_client 80-89: the look-up *)
| NewC (h : nat) (a : string) (local : bool)     (* __init__ 99-124: up to the registration *)
| EndC (h c : nat) (ok : bool)                   (* __init__ 126-171: the rest, which may fail *)
| CloseC (h c : nat)                             (* close 595-601, forget_client 92-97 *)
| DiscC (c : nat).                               (* c finds out that its server has closed (575-586) *)
Inductive rans := ANone | AClient (c : nat) | AMissing | AExn (e : exn).

(** [None]: the event cannot happen (no such thread, no such client, ...) (client.py 69-96, 117-124, 595-601) *)
Definition rev_step (s : reg) (e : rev) : option (reg * rans) :=
  match e with
  | TStart h i =>
      match dget (g_live s) h with
      | Some _ => None
      | None => if existsb (fun '(_, j) => Nat.eqb j i) (g_live s)
                   || existsb (fun '(_, o) => Nat.eqb (co_maker o) h) (g_objs s) then None else
                Some (mkReg (g_clients s) (g_objs s) (g_nobj s) (dset (g_live s) h i) (g_lserver s), ANone)
      end
  | TEnd h =>
      match dget (g_live s) h with
      | None => None
      | Some _ => Some (mkReg (g_clients s) (g_objs s) (g_nobj s) (ddel (g_live s) h) (g_lserver s), ANone)
      end
  | GetC h a =>
      match dget (g_live s) h with
      | None => None
      | Some i => Some (s, match dget (g_clients s) (i, a) with Some c => AClient c | None => AMissing end)
      end
  | NewC h a local =>
      match dget (g_live s) h with
      | None => None
      | Some i =>
          (* 113-117: the local server comes first *)
          let ls := if local then dset (g_lserver s) i true else g_lserver s in
          match dget (g_clients s) (i, a) with
          | Some _ => Some (mkReg (g_clients s) (g_objs s) (g_nobj s) (g_live s) ls, AExn KeyError)
          | None => Some (mkReg (dset (g_clients s) (i, a) (g_nobj s))
                                (dset (g_objs s) (g_nobj s) (mkC a i h false true))
                                (S (g_nobj s)) (g_live s) ls, AClient (g_nobj s))
          end
      end
  | EndC h c ok =>
      match dget (g_live s) h, dget (g_objs s) c with
      | Some i, Some o =>
          if Nat.eqb (co_maker o) h && negb (co_done o) then
            let objs := dset (g_objs s) c (mkC (co_addr o) (co_ident o) (co_maker o) true (co_open o)) in
            if ok then Some (mkReg (g_clients s) objs (g_nobj s) (g_live s) (g_lserver s), AClient c)
            else Some (mkReg (ddel (g_clients s) (i, co_addr o)) objs (g_nobj s) (g_live s) (g_lserver s), AExn TimeoutError)
          else None
      | _, _ => None
      end
  | CloseC h c =>
      match dget (g_live s) h, dget (g_objs s) c with
      | Some i, Some o =>
          Some (mkReg (ddel (g_clients s) (i, co_addr o))
                      (dset (g_objs s) c (mkC (co_addr o) (co_ident o) (co_maker o) (co_done o) false))
                      (g_nobj s) (g_live s) (g_lserver s), ANone)
      | _, _ => None
      end
  | DiscC c => match dget (g_objs s) c with Some _ => Some (s, ANone) | None => None end
  end.
(** client.py 69-96, 117-124, 595-601 *)
Fixpoint rev_run (s : reg) (es : list rev) : option (reg * list rans) :=
  match es with
  | [] => Some (s, [])
  | e :: r => match rev_step s e with
              | None => None
              | Some (s1, a) => match rev_run s1 r with Some (s2, l) => Some (s2, a :: l) | None => None end
              end
  end.

(** *** servers *)
Inductive spc := PLock | PSet.                 (* where register_server (101-116) is *)
Record sreg := mkSR {
  v_dict : list (nat * nat);                   (* servers_by_thread: ident -> server *)
  v_thread : list (nat * nat);                 (* srv._thread, where it is not None *)
  v_pend : list ((nat * nat) * spc)            (* register_server calls under way: (ident, server) *)
}.
(** server.py 91 *)
Definition sreg0 : sreg := mkSR [] [] [].

Inductive sev :=
| RCheck (i s : nat)       (* 108-111: reads srv._thread *)
| RLock (i s : nat)        (* 112-115: under the lock *)
| RSet (i s : nat)         (* 116: srv._thread = key *)
| Unreg (s k : nat)        (* 118-126 with key = srv._thread read as [k] *)
| GetS (i : nat).          (* get_server 94-99 *)
Inductive sans := SOk | SMore | SErr (e : exn) | SServer (s : nat) | SNone.

(** server.py 95-125 *)
Definition sev_step (s : sreg) (e : sev) : option (sreg * sans) :=
  match e with
  | RCheck i v =>
      match dget (v_pend s) (i, v) with
      | Some _ => None
      | None =>
          match dget (v_thread s) v with
          | Some j => if Nat.eqb j i then Some (s, SOk) else Some (s, SErr AssertionError)
          | None => Some (mkSR (v_dict s) (v_thread s) (dset (v_pend s) (i, v) PLock), SMore)
          end
      end
  | RLock i v =>
      match dget (v_pend s) (i, v) with
      | Some PLock =>
          match dget (v_dict s) i with
          | Some _ => Some (mkSR (v_dict s) (v_thread s) (ddel (v_pend s) (i, v)), SErr KeyError)
          | None => Some (mkSR (dset (v_dict s) i v) (v_thread s) (dset (v_pend s) (i, v) PSet), SMore)
          end
      | _ => None
      end
  | RSet i v =>
      match dget (v_pend s) (i, v) with
      | Some PSet => Some (mkSR (v_dict s) (dset (v_thread s) v i) (ddel (v_pend s) (i, v)), SOk)
      | _ => None
      end
  | Unreg v k =>
      match dget (v_dict s) k with
      | None => Some (s, SErr KeyError)
      | Some w => if Nat.eqb w v then Some (mkSR (ddel (v_dict s) k) (v_thread s) (v_pend s), SOk)
                  else Some (s, SErr AssertionError)
      end
  | GetS i => Some (s, match dget (v_dict s) i with Some v => SServer v | None => SNone end)
  end.
(** server.py 95-125 *)
Fixpoint sev_run (s : sreg) (es : list sev) : option (sreg * list sans) :=
  match es with
  | [] => Some (s, [])
  | e :: r => match sev_step s e with
              | None => None
              | Some (s1, a) => match sev_run s1 r with Some (s2, l) => Some (s2, a :: l) | None => None end
              end
  end.
