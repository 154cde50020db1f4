(** LogServer.stop and the thread of a LogServer (log/remote.py 236-266).

    Simplified: nothing else closes the socket; handlers raise nothing (library: Handler.handleError). *)
From Verif Require Import Py.
Local Open Scope nat_scope.

(** what can arrive (remote.py 260-261): a record with its level, or bytes that are not JSON *)
Inductive lmsg := Rec (level : Z) (id : nat) | Junk.
(** where the thread is: before [while self.running] (256), before poll (257), finished (266), ended by an
    exception (261) *)
Inductive place := AtTest | AtPoll | Finished | Died.
(** LogServer (remote.py 236-248): running, what waits in the socket, the thread, what was passed on, whether the
    socket is closed *)
Record lsrv := mkLS { v_running : bool; v_waiting : list lmsg; v_place : place; v_passed : list nat; v_closed : bool }.
(** remote.py 236-248 *)
Definition lsrv0 : lsrv := mkLS true [] AtTest [] false.

(** remote.py 260-265: one message; [level] is that of the logger (263) *)
Definition receive (filtering : bool) (level : Z) (s : lsrv) (m : lmsg) (rest : list lmsg) : lsrv :=
  match m with
  | Junk => mkLS (v_running s) rest Died (v_passed s) (v_closed s)
  | Rec l id => mkLS (v_running s) rest AtTest
                     (v_passed s ++ (if (filtering && (l <? level)%Z)%bool then [] else [id])) (v_closed s)
  end.
(** the thread does one thing (remote.py 253-266) *)
Definition thread (filtering : bool) (level : Z) (s : lsrv) : lsrv :=
  match v_place s with
  | AtTest => if v_running s then mkLS true (v_waiting s) AtPoll (v_passed s) (v_closed s)
              else mkLS false (v_waiting s) Finished (v_passed s) true
  | AtPoll => match v_waiting s with
              | [] => mkLS (v_running s) [] AtTest (v_passed s) (v_closed s)
              | m :: r => receive filtering level s m r
              end
  | Finished | Died => s
  end.
(** what can happen: a message arrives (library), stop() is called (remote.py 250-251), the thread does something
    (253-266) *)
Inductive lev := Arrives (m : lmsg) | Stop | Thread.
(** remote.py 250-266 *)
Definition vstep (filtering : bool) (level : Z) (s : lsrv) (e : lev) : lsrv :=
  match e with
  | Arrives m => mkLS (v_running s) (v_waiting s ++ [m]) (v_place s) (v_passed s) (v_closed s)
  | Stop => mkLS false (v_waiting s) (v_place s) (v_passed s) (v_closed s)
  | Thread => thread filtering level s
  end.
(** a history (remote.py 236-266) *)
Definition vrun (filtering : bool) (level : Z) (s : lsrv) (es : list lev) : lsrv := fold_left (vstep filtering level) es s.
