(** Which client a proxy talks through: proxy.py 149-153 [_client] and its cache, 289-300
    [_deferred_attr], 139-147 [_copy]; client.py 69-96 [get_client], [forget_client], 595-601 [close].

    Simplified: connecting succeeds, threads have different idents (see C66), addresses are numbers,
    and of a request only the client it is given to matters.  A request given to a client whose
    socket is closed fails (ZMQError). *)
From Verif Require Import Py.
Local Open Scope nat_scope.

(** RPCClient objects (client.py 99-171), by number *)
Record xcl := mkXc { xc_thread : nat; xc_addr : nat; xc_open : bool }.
(** ObjectProxy objects (proxy.py 83-110), by number: the server, whether it is an attribute of another
    proxy ([_parent_proxy]) and [_client_] *)
Record xpx := mkXp { xp_addr : nat; xp_attr : bool; xp_client : option nat }.
(** a request (client.py 227-319): the thread it is made in, the proxy it is made with (None: an attribute made for this
    request only), the client that sends it and whether it could *)
Record xev := mkXe { xe_thread : nat; xe_proxy : option nat; xe_client : nat; xe_ok : bool }.
(** the process: proxies, clients, the registry (client.py 65-66) and the requests made *)
Record xst := mkXs {
  xs_px : list xpx;
  xs_cl : list xcl;
  xs_keys : list ((nat * nat) * nat);     (* clients_by_thread *)
  xs_log : list xev
}.
(** a fresh process (client.py 65) *)
Definition xst0 : xst := mkXs [] [] [] [].

(** client.py 69-89 [get_client] in thread [t], with the constructor (99-171) *)
Definition get_client (st : xst) (t a : nat) : xst * nat :=
  match dget (xs_keys st) (t, a) with
  | Some c => (st, c)
  | None =>
      let c := List.length (xs_cl st) in
      (mkXs (xs_px st) (xs_cl st ++ [mkXc t a true]) (dset (xs_keys st) (t, a) c) (xs_log st), c)
  end.
(** l[i] = x: [self.__dict__['_client_'] = ...] (proxy.py 152) and [_socket.close] (client.py 600) *)
Fixpoint put {A} (l : list A) (i : nat) (x : A) : list A :=
  match l, i with
  | [], _ => []
  | _ :: r, O => x :: r
  | y :: r, S j => y :: put r j x
  end.
(** the request is given to client [c] (client.py 227-319 [send]) *)
Definition given_to (st : xst) (t : nat) (i : option nat) (c : nat) : xst :=
  mkXs (xs_px st) (xs_cl st) (xs_keys st)
       (xs_log st ++ [mkXe t i c match nth_error (xs_cl st) c with Some k => xc_open k | None => false end]).
(** proxy.py 149-153 [_client] of proxy [i], then the request: [__call__] (347), [_undefer] (256),
    [_delete] (265), [_get_value] (234) *)
Definition use (st : xst) (t i : nat) : xst :=
  match nth_error (xs_px st) i with
  | None => st
  | Some p =>
      match xp_client p with
      | Some c => given_to st t (Some i) c
      | None =>
          let '(st1, c) := get_client st t (xp_addr p) in
          given_to (mkXs (put (xs_px st1) i (mkXp (xp_addr p) (xp_attr p) (Some c))) (xs_cl st1) (xs_keys st1) (xs_log st1)) t (Some i) c
      end
  end.

(** what a program does with proxies and clients; lines of proxy.py unless named *)
Inductive xop :=
| XReceive (a : nat)          (* a proxy arrives, from the server at address a or passed on by another *)
| XAttr (i : nat)             (* p.attr (289-300): a proxy of its own *)
| XCopy (i : nat)             (* p._copy() (139-147); of an attribute: not modelled here, see C37 *)
| XUse (t i : nat)            (* a request with proxy i in thread t *)
| XOperate (t i : nat)        (* an operator (358-513), or p.attr(...): an attribute made and used at once *)
| XClose (t c : nat).         (* client c is closed in thread t (client.py 595-601, 91-96) *)
(** one of them: proxy.py 139-153, 271-300, client.py 69-96, 595-601 *)
Definition xstep (st : xst) (o : xop) : xst :=
  match o with
  | XReceive a => mkXs (xs_px st ++ [mkXp a false None]) (xs_cl st) (xs_keys st) (xs_log st)
  | XAttr i =>
      match nth_error (xs_px st) i with
      | None => st
      | Some p => mkXs (xs_px st ++ [mkXp (xp_addr p) true None]) (xs_cl st) (xs_keys st) (xs_log st)
      end
  | XCopy i =>
      match nth_error (xs_px st) i with
      | None => st
      | Some p => if xp_attr p then st else mkXs (xs_px st ++ [mkXp (xp_addr p) false None]) (xs_cl st) (xs_keys st) (xs_log st)
      end
  | XUse t i => use st t i
  | XOperate t i =>
      match nth_error (xs_px st) i with
      | None => st
      | Some p => let '(st1, c) := get_client st t (xp_addr p) in given_to st1 t None c
      end
  | XClose t c =>
      match nth_error (xs_cl st) c with
      | None => st
      | Some k => mkXs (xs_px st) (put (xs_cl st) c (mkXc (xc_thread k) (xc_addr k) false)) (ddel (xs_keys st) (t, xc_addr k)) (xs_log st)
      end
  end.
(** a program (proxy.py 139-153) *)
Definition xrun (os : list xop) : xst := fold_left xstep os xst0.
