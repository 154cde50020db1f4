(** Where log records are sent: start_log_server, get_logger_address, set_logger_address and LogSender.connect
    (log/remote.py 71-115, 139-195).

    Simplified: the thread of a LogSender handles each record before the next thing happens (the orders of the
    threads are in LogFwdModel); zmq (library) delivers what is sent to a connected address.  Sending on a PUSH
    socket that is connected to nothing blocks; the thread that does so handles no other record, also if the
    socket is closed under it.  connect (library) raises ZMQError for text that is no address. *)
From Verif Require Import Py.
Local Open Scope nat_scope.

(** the argument of set_logger_address (remote.py 104): an address, or text that is none *)
Inductive address := Good (n : nat) | Bad.
(** LogSender (remote.py 139-162, 185-195): its socket (None; open; open and connected), whether its thread hangs
    in send, and the records in its queue, with the one the thread holds *)
Record sender := mkSn { sn_sock : option (option nat); sn_hangs : bool; sn_kept : list nat }.
(** remote.py 71-73: server (its address), sender, server_addr; all senders that were attached to the root logger
    (146-147); what has been sent, and where to *)
Record logst := mkL { l_server : option nat; l_sender : option nat; l_addr : option nat; l_all : list sender;
                      l_sent : list (nat * nat) }.
(** remote.py 71-73 *)
Definition logst0 : logst := mkL None None None [] [].

(** LogSender.connect (remote.py 185-195) *)
Definition connect (s : sender) (a : address) : sender * res nat :=
  match a with
  | Good n => (mkSn (Some (Some n)) (sn_hangs s) (sn_kept s), Ok n)
  | Bad => (mkSn (Some None) (sn_hangs s) (sn_kept s), Err ZMQError)
  end.
(** LogSender.__init__ before connect (remote.py 139-153) *)
Definition fresh : sender := mkSn None false [].
(** the sender with number [i] is changed (remote.py 111) *)
Fixpoint put (l : list sender) (i : nat) (s : sender) : list sender :=
  match l, i with [], _ => [] | _ :: r, O => s :: r | x :: r, S i => x :: put r i s end.
(** set_logger_address (remote.py 104-115) *)
Definition set_logger_address (st : logst) (a : address) : logst * res unit :=
  match l_sender st with
  | Some i =>
      let '(s, r) := connect (nth i (l_all st) fresh) a in
      let all := put (l_all st) i s in
      match r with
      | Ok n => (mkL (l_server st) (Some i) (Some n) all (l_sent st), Ok tt)
      | Err e => (mkL (l_server st) (Some i) (l_addr st) all (l_sent st), Err e)
      end
  | None =>
      let '(s, r) := connect fresh a in
      let all := (l_all st ++ [s])%list in
      match r with
      | Ok n => (mkL (l_server st) (Some (List.length (l_all st))) (Some n) all (l_sent st), Ok tt)
      | Err e => (mkL (l_server st) None (l_addr st) all (l_sent st), Err e)
      end
  end.
(** start_log_server (remote.py 76-87); the server gets address [n] *)
Definition start_log_server (st : logst) (n : nat) : logst * res unit :=
  match l_server st with
  | Some _ => (st, Err (UserExc "Exception"))
  | None => (mkL (Some n) (l_sender st) (l_addr st) (l_all st) (l_sent st), Ok tt)
  end.
(** get_logger_address (remote.py 90-101) *)
Definition get_logger_address (st : logst) : option nat :=
  match l_server st with None => l_addr st | Some n => Some n end.

(** LogSender.handle, run and _handle (remote.py 160-183) *)
Definition handle (s : sender) (r : nat) : sender * list (nat * nat) :=
  if sn_hangs s then (mkSn (sn_sock s) true (sn_kept s ++ [r]), [])
  else match sn_sock s with
       | None => (s, [])
       | Some None => (mkSn (sn_sock s) true (sn_kept s ++ [r]), [])
       | Some (Some n) => (s, [(n, r)])
       end.
(** a record reaches all handlers of the root logger (library; remote.py 146-147) *)
Definition log (st : logst) (r : nat) : logst :=
  let l := map (fun s => handle s r) (l_all st) in
  mkL (l_server st) (l_sender st) (l_addr st) (map fst l) (l_sent st ++ List.concat (map snd l)).

(** what a program does: remote.py 76, 104; logging (library) *)
Inductive lop := OStart (n : nat) | OSet (a : address) | OLog (r : nat).
(** one of these (remote.py 76-115, 160-183) *)
Definition lstep (st : logst) (o : lop) : logst :=
  match o with
  | OStart n => fst (start_log_server st n)
  | OSet a => fst (set_logger_address st a)
  | OLog r => log st r
  end.
(** a program (remote.py 71-115, 160-183) *)
Definition lrun (st : logst) (os : list lop) : logst := fold_left lstep os st.
