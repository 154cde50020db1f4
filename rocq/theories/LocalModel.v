(** Several threads of one process, their servers and their clients of servers of the same
    process: RPCServer.get_server, register_server, unregister_server, close, run_forever,
    run_lazy (teleprox/server.py 94-125, 417-475), RPCClient._get_poller and one turn of the
    waiting loop (client.py 193-211, 465-500), QtRPCServer.run_forever (qt_server.py 61-66).

    Simplified: a server that somebody attends to answers in time, a busy one is not
    modelled (EnsureModel, WaitModel are about time).  Threads do not end. *)
From Verif Require Import Py.
Local Open Scope nat_scope.

(** RPCServer, or QtRPCServer(quit_on_close=...) (server.py 22, qt_server.py 53) *)
Inductive kind := Plain | Qt (quit : bool).
(** client.py 201-211: what _poller holds: 'qt', or a Poller for the client's own socket and
    that of a server *)
Inductive poller := PQt | PBoth (s : nat).

(** RPCServer objects, by number (the attributes used at server.py 102-125, 423-475) *)
Record server := mkSv {
  v_kind : kind;
  v_thread : option nat;     (* _thread *)
  v_loop : bool;             (* run_forever has been called (in the other thread, for run_in_thread) *)
  v_closed : bool;           (* _closed *)
  v_asked : bool             (* a close request waits at the socket *)
}.
(** RPCClient objects, by number (the attributes used at client.py 99-171, 193-211) *)
Record client := mkCl {
  c_thread : nat;
  c_server : nat;            (* the server at its address *)
  c_reent : bool;            (* _reentrant *)
  c_poll : option poller;    (* _poller *)
  c_disc : bool              (* _disconnected, or the message that says so is at the socket *)
}.
(** the registries at client.py 65 and server.py 91, with all objects *)
Record lst := mkL {
  l_servers : list server;
  l_at : list (nat * nat);             (* servers_by_thread *)
  l_clients : list client;
  l_keys : list ((nat * nat) * nat);   (* clients_by_thread: (thread, server) -> client *)
  l_served : list (nat * nat)          (* (c, s): s processed a request while c waited *)
}.
(** the registries of client.py 65 and server.py 91 when the module is imported *)
Definition lst0 : lst := mkL [] [] [] [] [].

(** an object changed in place: client.py 99-211, server.py 102-125, 423-475 *)
Fixpoint nset {A} (l : list A) (i : nat) (x : A) : list A :=
  match l, i with
  | [], _ => []
  | _ :: r, O => x :: r
  | y :: r, S j => y :: nset r j x
  end.
(** an object changed in place: client.py 99-211, server.py 102-125, 423-475 *)
Definition set_server (st : lst) (s : nat) (x : server) : lst :=
  mkL (nset (l_servers st) s x) (l_at st) (l_clients st) (l_keys st) (l_served st).
(** an object changed in place: client.py 99-211, server.py 102-125, 423-475 *)
Definition set_client (st : lst) (c : nat) (x : client) : lst :=
  mkL (l_servers st) (l_at st) (nset (l_clients st) c x) (l_keys st) (l_served st).

(** server.py 94-99 [get_server] in thread [t] *)
Definition get_server (st : lst) (t : nat) : option nat := dget (l_at st) t.

(** server.py 101-116 [register_server] in thread [t] *)
Definition register (st : lst) (t s : nat) : lst * res unit :=
  match nth_error (l_servers st) s with
  | None => (st, Err TypeError)
  | Some v =>
      match v_thread v with
      | Some t' => (st, if Nat.eqb t' t then Ok tt else Err AssertionError)
      | None =>
          match get_server st t with
          | Some _ => (st, Err KeyError)
          | None => (mkL (nset (l_servers st) s (mkSv (v_kind v) (Some t) (v_loop v) (v_closed v) (v_asked v)))
                         (dset (l_at st) t s) (l_clients st) (l_keys st) (l_served st), Ok tt)
          end
      end
  end.

(** client.py 193-211 [_get_poller]; [None]: no poller *)
Definition get_poller (st : lst) (c : nat) : lst * option poller :=
  match nth_error (l_clients st) c with
  | None => (st, None)
  | Some k =>
      if negb (c_reent k) then (st, None) else
      match c_poll k with
      | Some p => (st, Some p)
      | None =>
          match get_server st (c_thread k) with
          | None => (st, None)
          | Some s =>
              let p := match nth_error (l_servers st) s with
                       | Some v => match v_kind v with Qt _ => PQt | Plain => PBoth s end
                       | None => PBoth s
                       end in
              (set_client st c (mkCl (c_thread k) (c_server k) (c_reent k) (Some p) (c_disc k)), Some p)
          end
      end
  end.

(** one turn of the waiting loop (client.py 476-500) of client [c] while a request waits at the
    socket of server [s] of its thread and nothing at its own.  A QtRPCServer gets its requests
    through the Qt event loop (483).  Simplified: polling a socket that was closed (pyzmq raises
    ZMQError) is a turn that processes nothing. *)
Definition wait_turn (st : lst) (c s : nat) : lst :=
  let '(st1, p) := get_poller st c in
  match nth_error (l_clients st1) c, nth_error (l_servers st1) s with
  | Some k, Some v =>
      match p with
      | None => st1                                                    (* 477-478: blocks *)
      | Some PQt =>
          match v_kind v with
          | Qt _ => mkL (l_servers st1) (l_at st1) (l_clients st1) (l_keys st1) (l_served st1 ++ [(c, s)])
          | Plain => st1
          end
      | Some (PBoth s') =>
          if Nat.eqb s' s then
            match get_server st1 (c_thread k) with
            | Some s2 => if Nat.eqb s2 s then mkL (l_servers st1) (l_at st1) (l_clients st1) (l_keys st1) (l_served st1 ++ [(c, s)])
                         else st1                                      (* 500: another server; blocks *)
            | None => st1                                              (* 496-499 *)
            end
          else st1
      end
  | _, _ => st1
  end.

(** the server processes the close request: server.py 390-411, 435-437; QApplication.quit()
    ends the event loop (qt_server.py 70-74) *)
Definition closes (st : lst) (s : nat) : lst :=
  match nth_error (l_servers st) s with
  | None => st
  | Some v =>
      mkL (nset (l_servers st) s (mkSv (v_kind v) (v_thread v) (v_loop v && match v_kind v with Qt true => false | _ => true end) true false))
          (match v_thread v with Some t => ddel (l_at st) t | None => l_at st end)
          (map (fun k => if Nat.eqb (c_server k) s then mkCl (c_thread k) (c_server k) (c_reent k) (c_poll k) true else k) (l_clients st))
          (l_keys st) (l_served st)
  end.

(** the socket of a QtRPCServer is never closed (qt_server.py 81-85) *)
Definition sock_open (v : server) : bool := match v_kind v with Plain => negb (v_closed v) | Qt _ => true end.
(** somebody processes the requests of [s] while client [c] of thread [t] waits: the loop of
    another thread, or the waiting loop of [c] (client.py 476-500, server.py 444-475, qt_server.py 61-66) *)
Definition attended (st : lst) (t c s : nat) : bool :=
  match nth_error (l_servers st) s with
  | None => false
  | Some v =>
      sock_open v &&
      match v_thread v with
      | None => false
      | Some t' =>
          if Nat.eqb t' t then
            match snd (get_poller st c) with
            | Some PQt => match v_kind v with Qt _ => true | Plain => false end
            | Some (PBoth s') => Nat.eqb s' s
            | None => false
            end
          else v_loop v
      end
  end.

(** RPCClient(address) of server [s] in thread [t] (client.py 99-171): the client, or the
    exception.  Simplified: serializer and options are valid. *)
Definition new_client (st : lst) (t s : nat) (reent : bool) : lst * res nat :=
  let c := List.length (l_clients st) in
  match dget (l_keys st) (t, s) with
  | Some _ => (st, Err KeyError)                                      (* 121-123 *)
  | None =>
      let st1 := mkL (l_servers st) (l_at st) (l_clients st ++ [mkCl t s reent None false]) (dset (l_keys st) (t, s) c) (l_served st) in
      match nth_error (l_servers st) s with
      | None => (st, Err ConnectionRefusedError)
      | Some v =>
          if negb (sock_open v)
          then (mkL (l_servers st) (l_at st) (l_clients st1) (l_keys st) (l_served st), Err ConnectionRefusedError)   (* 129-130, 170 *)
          else if attended st1 t c s then (fst (get_poller st1 c), Ok c)
          else (mkL (l_servers st) (l_at st) (l_clients (fst (get_poller st1 c))) (l_keys st) (l_served st), Err TimeoutError)  (* 444, 170 *)
      end
  end.
(** client.py 69-89 [get_client] *)
Definition get_client (st : lst) (t s : nat) : lst * res nat :=
  match dget (l_keys st) (t, s) with
  | Some c => (st, Ok c)
  | None => new_client st t s true
  end.
(** server.py 423-433 [close] called in thread [t], with close_server (client.py 603-614).
    [cli] is never None. *)
Definition close (st : lst) (t s : nat) : lst * res unit :=
  match get_client st t s with
  | (st1, Err e) => (st1, Err e)
  | (st1, Ok c) =>
      match nth_error (l_clients st1) c with
      | None => (st1, Err TypeError)
      | Some k =>
          if c_disc k then (st1, Ok tt)                               (* 612-613 *)
          else
            if attended st1 t c s then
              if match nth_error (l_servers st1) s with Some v => v_closed v | None => false end
              then (fst (get_poller st1 c), Err (UserExc "RemoteCallException"))    (* unregister_server (server.py 124) fails *)
              else (closes (fst (get_poller st1 c)) s, Ok tt)
            else
              let st2 := fst (get_poller st1 c) in
              (match nth_error (l_servers st2) s with
               | Some v => set_server st2 s (mkSv (v_kind v) (v_thread v) (v_loop v) (v_closed v) true)
               | None => st2
               end, Err TimeoutError)
      end
  end.

Inductive lop :=
| LServer (q : kind)                  (* RPCServer() or QtRPCServer() *)
| LLazy (t s : nat)                   (* server.py 462-475 [run_lazy] *)
| LForever (t s : nat)                (* 444-460 [run_forever], [run_in_thread]; qt_server.py 61-66 *)
| LClient (t s : nat) (reent : bool)  (* RPCClient(server.address, reentrant=...) *)
| LWait (c s : nat)
| LClose (t s : nat).
(** one call: client.py 69-89, 99-171, 603-614; server.py 102-125, 423-475 *)
Definition lstep (st : lst) (o : lop) : lst * res unit :=
  match o with
  | LServer q => (mkL (l_servers st ++ [mkSv q None false false false]) (l_at st) (l_clients st) (l_keys st) (l_served st), Ok tt)
  | LLazy t s => register st t s
  | LForever t s =>
      match register st t s with
      | (st1, Err e) => (st1, Err e)
      | (st1, Ok _) =>
          match nth_error (l_servers st1) s with
          | None => (st1, Err TypeError)
          | Some v =>
              let st2 := set_server st1 s (mkSv (v_kind v) (v_thread v) true (v_closed v) (v_asked v)) in
              (if v_asked v && negb (v_closed v) then closes st2 s else st2, Ok tt)   (* it reads what is waiting *)
          end
      end
  | LClient t s r => let '(st1, x) := new_client st t s r in (st1, match x with Ok _ => Ok tt | Err e => Err e end)
  | LWait c s => (wait_turn st c s, Ok tt)
  | LClose t s => close st t s
  end.
(** a history of calls (client.py 69-171, server.py 102-475) *)
Definition lrun (os : list lop) : lst := fold_left (fun st o => fst (lstep st o)) os lst0.
