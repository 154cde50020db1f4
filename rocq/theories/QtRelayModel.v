(** QtRPCServer: the polling thread teleprox/qt_poll_thread.py 40-70 and the Qt thread
    qt_server.py 61-85.  Sockets and the Qt event queue are queues (library behaviour:
    they keep order and do not lose messages while the process runs; a queued signal is
    delivered in the thread of the receiver).  What processing a request does is not
    modelled here: any list of replies. *)
From Verif Require Import Py.

(** a message at the RPC socket; [None]: one that _read_one (server.py 238-250) rejects *)
Definition request := option nat.
(** [name, data] (qt_poll_thread.py 52) *)
Definition reply := (string * nat)%type.

(** qt_poll_thread.py 45-61: polling at 49; then before 51, before 58, with what the poll found; ended *)
Inductive qpc := QPoll | QRet (ret rpc : bool) | QRpc (rpc : bool) | QStopped | QDead.
(** the sockets and signals of qt_poll_thread.py 16-38 *)
Record qst := mkQ { q_in : list request (* at rpc_socket *); q_ret : list reply (* at return_socket *);
                    q_events : list nat (* emitted, not yet processed *); q_pc : qpc; q_exit : bool;
                    q_done : list nat (* processed by the Qt thread *); q_out : list reply (* sent by rpc_socket *) }.
(** the sockets and signals of qt_poll_thread.py 16-38 *)
Definition q0 : qst := mkQ [] [] [] QPoll false [] [].

Inductive qlab :=
| QArrive (m : request)
| QRun                          (* one step of the polling thread *)
| QProcess (rs : list reply)    (* the Qt thread takes a request and sends replies *)
| QSend (r : reply)             (* the Qt thread sends something else (server.py 409: disconnect messages) *)
| QStop                         (* qt_poll_thread.py 65-70 [stop] *)
| QExit.                        (* the process ends: after QApplication.quit() and 81-85 *)

(** qt_poll_thread.py 54: [name] is bytes, so it is never equal to the str 'STOP' *)
Definition is_stop (name : string) : bool := false.

Definition qrun1 (s : qst) : qst :=
  match q_pc s with
  | QPoll =>      (* 49: with nothing to read, poll again *)
      match q_ret s, q_in s with
      | [], [] => s
      | _, _ => mkQ (q_in s) (q_ret s) (q_events s)
                    (QRet (match q_ret s with [] => false | _ => true end) (match q_in s with [] => false | _ => true end))
                    (q_exit s) (q_done s) (q_out s)
      end
  | QRet true rpc =>     (* 51-56 *)
      match q_ret s with
      | [] => s
      | (name, data) :: r =>
          if is_stop name then mkQ (q_in s) r (q_events s) QStopped (q_exit s) (q_done s) (q_out s)
          else mkQ (q_in s) r (q_events s) (QRpc rpc) (q_exit s) (q_done s) (q_out s ++ [(name, data)])
      end
  | QRet false rpc => mkQ (q_in s) (q_ret s) (q_events s) (QRpc rpc) (q_exit s) (q_done s) (q_out s)
  | QRpc true =>         (* 58-61 *)
      match q_in s with
      | [] => s
      | None :: r => mkQ r (q_ret s) (q_events s) QDead (q_exit s) (q_done s) (q_out s)
      | Some m :: r => mkQ r (q_ret s) (q_events s ++ [m]) QPoll (q_exit s) (q_done s) (q_out s)
      end
  | QRpc false => mkQ (q_in s) (q_ret s) (q_events s) QPoll (q_exit s) (q_done s) (q_out s)
  | QStopped | QDead => s
  end.

(** qt_poll_thread.py 40-61 and server.py 262-343 *)
Definition qstep (s : qst) (l : qlab) : qst :=
  if q_exit s then s else
  match l with
  | QArrive m => mkQ (q_in s ++ [m]) (q_ret s) (q_events s) (q_pc s) (q_exit s) (q_done s) (q_out s)
  | QRun => qrun1 s
  | QProcess rs =>
      match q_events s with
      | [] => s
      | m :: ev => mkQ (q_in s) (q_ret s ++ rs) ev (q_pc s) (q_exit s) (q_done s ++ [m]) (q_out s)
      end
  | QSend r => mkQ (q_in s) (q_ret s ++ [r]) (q_events s) (q_pc s) (q_exit s) (q_done s) (q_out s)
  | QStop => mkQ (q_in s) (q_ret s ++ [("STOP", 0%nat)]) (q_events s) (q_pc s) (q_exit s) (q_done s) (q_out s)
  | QExit => mkQ (q_in s) (q_ret s) (q_events s) (q_pc s) true (q_done s) (q_out s)
  end.
(** qt_poll_thread.py 40-61 and server.py 262-343 *)
Definition qrun (s : qst) (ls : list qlab) : qst := fold_left qstep ls s.
