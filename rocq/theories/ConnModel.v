(** teleprox/client.py: [RPCClient.disconnected], [_read_and_process_all], [close],
    [close_server] (lines 213-225, 531-537, 595-617) and [Future.done] (643-668),
    for one client and the messages waiting in its socket.

    Using a closed socket raises ZMQError (library behaviour of pyzmq). *)
From Verif Require Import Py ObjTableModel SerModel FrameModel ServerModel ClientModel.

(** the socket is closed (client.py 600) *)
Definition set_closed (k : cl) : cl :=
  mkCl (c_ser k) (c_local k) (c_st k) (c_next k) (c_futs k) (c_done k) (c_disc k) false.

(** what close_server() returns: True without asking, or what [send] returns (client.py 603-614) *)
Inductive closing := AlreadyClosed | Requested (fut : option Z).

Section Conn.
  Variable V : venv.

  (** client.py 531-537 [_read_and_process_all] on an open socket: the messages left
      and the exception raised, if any.  TimeoutError, which says that there is
      nothing to read, ends the loop wherever it comes from. *)
  Fixpoint read_all (k : cl) (inbox : list payload) : cl * list payload * option exn :=
    match inbox with
    | [] => (k, [], None)
    | p :: rest =>
        let '(k1, x) := client_recv V k p in
        match x with
        | None => read_all k1 rest
        | Some TimeoutError => (k1, rest, None)
        | Some e => (k1, rest, Some e)
        end
    end.

  (** client.py 213-225 [disconnected] *)
  Definition disconnected (k : cl) (inbox : list payload) : cl * list payload * res bool :=
    if c_disc k then (k, inbox, Ok true)
    else if c_open k then
      let '(k1, rest, x) := read_all k inbox in
      match x with
      | None => (k1, rest, Ok (c_disc k1))
      | Some ZMQError => (set_disc k1, rest, Ok true)
      | Some e => (k1, rest, Err e)
      end
    else (set_disc k, inbox, Ok true).

  (** client.py 595-600 [close]; the registry is in RegistryModel *)
  Definition close_client (k : cl) : cl := set_closed k.

  (** client.py 606-617 [close_server], up to the waiting for the result (WaitModel) *)
  Definition close_server (k : cl) (inbox : list payload) (rt : string) (sync : sync_mode)
    : cl * list payload * option msg * res closing :=
    let '(k1, rest, r) := disconnected k inbox in
    match r with
    | Err e => (k1, rest, None, Err e)
    | Ok true => (k1, rest, None, Ok AlreadyClosed)
    | Ok false =>
        let '(k2, m, r2) := send V k1 "close" None rt sync in
        (k2, rest, m, match r2 with Ok f => Ok (Requested f) | Err e => Err e end)
    end.
End Conn.

(** client.py 643-668: [Future.done] is that of concurrent.futures, which looks at
    the future only, not at the messages in the socket *)
Definition future_done (V : venv) (k : cl) (inbox : list payload) (rid : Z) : cl * list payload * bool :=
  (k, inbox, dmem (c_done k) rid).
