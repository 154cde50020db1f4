(** teleprox/client.py: [RPCClient.send], [process_msg], [_server_disconnected],
    [_close_request_returned], [_read_and_process_one] and the futures they manage
    (lines 99-177, 227-319, 502-586). *)
From Verif Require Import Py ObjTableModel SerModel FrameModel ServerModel.

(** What a Future holds: a result, or an exception (RemoteCallException carries
    the type name sent by the server). (client.py 549-561, 637-645) *)
Definition outcome := res pyval.

(** the attributes set by client.py 132-171, with the futures of 312 *)
Record cl := mkCl {
  c_ser : string;                 (* self.serializer.type *)
  c_local : option string;        (* address of the server of this thread, if any *)
  c_st : sst;                     (* that server's proxied objects *)
  c_next : Z;                     (* self.next_request_id *)
  c_futs : dict Z bool;           (* self.futures (weak): req_id -> has the close callback *)
  c_done : dict Z outcome;        (* completed futures, by req_id *)
  c_disc : bool;                  (* self._disconnected *)
  c_open : bool                   (* the socket is open *)
}.

(** assignment to an attribute of client.py 132-171 *)
Definition set_futs (c : cl) (f : dict Z bool) : cl :=
  mkCl (c_ser c) (c_local c) (c_st c) (c_next c) f (c_done c) (c_disc c) (c_open c).
(** assignment to an attribute of client.py 132-171 *)
Definition set_done (c : cl) (d : dict Z outcome) : cl :=
  mkCl (c_ser c) (c_local c) (c_st c) (c_next c) (c_futs c) d (c_disc c) (c_open c).
(** assignment to an attribute of client.py 132-171 *)
Definition set_next (c : cl) (n : Z) : cl :=
  mkCl (c_ser c) (c_local c) (c_st c) n (c_futs c) (c_done c) (c_disc c) (c_open c).
(** assignment to an attribute of client.py 132-171 *)
Definition set_cst (c : cl) (st : sst) : cl :=
  mkCl (c_ser c) (c_local c) st (c_next c) (c_futs c) (c_done c) (c_disc c) (c_open c).
(** assignment to an attribute of client.py 132-171 *)
Definition set_disc (c : cl) : cl :=
  mkCl (c_ser c) (c_local c) (c_st c) (c_next c) (c_futs c) (c_done c) true (c_open c).

(** client.py 99-171, a freshly connected client *)
Definition new_client (ser : string) (local : option string) (st : sst) : cl :=
  mkCl ser local st 0 [] [] false true.

(** the argument sync, client.py 283-319 *)
Inductive sync_mode := Sync | Async | Off | BadSync.

Section Client.
  Variable V : venv.

  (** client.py 283-319 [send].  Result: the message handed to the socket, if any,
      and the future's request ID ([Ok None] for sync='off').  Waiting for the
      result when sync='sync' is not part of this (see WaitModel). *)
  Definition send (c : cl) (action : string) (opts : option pyval) (rt : string) (sync : sync_mode)
    : cl * option msg * res (option Z) :=
    if c_disc c then (c, None, Err RuntimeError)
    else
      let '(c1, req) := match sync with
                        | Off => (c, -1)
                        | _ => (set_next c (c_next c + 1), c_next c)
                        end in
      let '(c2, data) :=
        match opts with
        | None => (c1, Ok PEmpty)
        | Some v => let '(st', r) := dumps V (c_ser c1) (c_local c1) (c_st c1) v in (set_cst c1 st', r)
        end in
      match data with
      | Err e => (c2, None, Err e)
      | Ok p =>
          if c_open c2 then
            let m := mkMsg req action rt (c_ser c2) p in
            match sync with
            | Off => (c2, Some m, Ok None)
            | _ =>
                let c3 := set_futs c2 (dset (c_futs c2) req (String.eqb action "close")) in
                (c3, Some m, match sync with BadSync => Err ValueError | _ => Ok (Some req) end)
            end
          else (c2, None, Err ZMQError)
      end.

  (** client.py 575-586 [_server_disconnected]: every pending future fails.  (The
      close callback of a failing future, lines 563-573, raises again and is
      ignored by concurrent.futures.) *)
  Definition server_disconnected (c : cl) : cl :=
    set_disc (set_futs (set_done c
      (fold_left (fun d k => dset d k (Err RuntimeError)) (dkeys (c_futs c)) (c_done c))) []).

  (** set_result / set_exception on a future, with the callback installed by
      [send] for action 'close' (client.py 308-311, 563-568) *)
  Definition complete (c : cl) (rid : Z) (is_close : bool) (o : outcome) : cl :=
    let c1 := set_done c (dset (c_done c) rid o) in
    if is_close then match o with Ok (VBool true) => server_disconnected c1 | _ => c1 end
    else c1.

  (** RemoteCallException( *msg['error'] ), client.py 554, 637-640: exactly two
      arguments.  Simplification: the type name must be a str. *)
  Definition remote_exc (v : pyval) : res exn :=
    match v with
    | VTuple [VStr t; _] | VList [VStr t; _] => Ok (RemoteCallException t)
    | _ => Err TypeError
    end.

  (** client.py 539-561 [process_msg] *)
  Definition process_msg (c : cl) (m : pyval) : cl * option exn :=
    match m with
    | VDict d =>
        match field d "action" with
        | Err e => (c, Some e)
        | Ok (VStr a) =>
            if String.eqb a "return" then
              match field d "req_id" with
              | Err e => (c, Some e)
              | Ok (VInt rid) =>
                  match dget (c_futs c) rid with
                  | None => (c, None)
                  | Some is_close =>
                      let c1 := set_futs c (ddel (c_futs c) rid) in
                      match field d "error" with
                      | Err e => (c1, Some e)
                      | Ok VNone =>
                          match field d "rval" with
                          | Err e => (c1, Some e)
                          | Ok v => (complete c1 rid is_close (Ok v), None)
                          end
                      | Ok err =>
                          match remote_exc err with
                          | Err e => (c1, Some e)
                          | Ok x => (complete c1 rid is_close (Err x), None)
                          end
                      end
                  end
              | Ok _ => (c, None)
              end
            else if String.eqb a "disconnect" then (server_disconnected c, None)
            else (c, Some ValueError)
        | Ok _ => (c, Some ValueError)
        end
    | _ => (c, Some AttributeError)
    end.

  (** client.py 520-529 [_read_and_process_one], given the message read *)
  Definition client_recv (c : cl) (p : payload) : cl * option exn :=
    match loads V (c_ser c) (c_local c) (c_st c) p with
    | Err e => (c, Some e)
    | Ok v => process_msg c v
    end.

  (** The last reference to a future goes away: WeakValueDictionary forgets it. (client.py 151) *)
  Definition drop_future (c : cl) (rid : Z) : cl := set_futs c (ddel (c_futs c) rid).
End Client.
