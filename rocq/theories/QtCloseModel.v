(** QtRPCServer processing requests: teleprox/qt_server.py 68-85 over the RPCServer of
    ServerModel.  The only difference that matters here: _final_close (81-85) sleeps instead of
    closing the socket, and nothing else looks at _closed: the poll thread goes on reading
    (qt_poll_thread.py 45-61, QtRelayModel) and every request is handed to _process_one.
    Simplified: QApplication.quit() (70-74) does not happen (quit_on_close=False), or has no
    effect yet. *)
From Verif Require Import Py SerModel FrameModel ServerModel.

(** the socket stays as it was (qt_server.py 81-85) *)
Definition keep_sock (s s' : sv) : sv :=
  mkSv (sv_addr s') (sv_sers s') (sv_clients s') (sv_names s') (sv_st s') (sv_closed s') (sv_open s) (sv_reg s').
(** server.py 298-323 with qt_server.py 81-85 *)
Definition qt_finish (V : venv) (s : sv) (a : activation) (r : res pyval) : sv * list output * option exn :=
  let '(s', o, x) := finish_request V s a r in (keep_sock s s', o, x).
(** server.py 262-297 with qt_server.py 68-85 *)
Definition qt_begin (V : venv) (s : sv) (caller : string) (m : msg) : sv * list output * begun :=
  let '(s', o, b) := begin_request V s caller m in (keep_sock s s', o, b).
(** a request to its end; [out]: what the called function does, if one is called.
    Simplified: the function changes nothing of the server.  [true]: the function was called
    (server.py 262-323 with qt_server.py 68-85) *)
Definition qt_one (V : venv) (s : sv) (caller : string) (m : msg) (out : res pyval) : sv * list output * bool :=
  match qt_begin V s caller m with
  | (s1, o, Finished _ _) => (s1, o, false)
  | (s1, o, InCall a _ _ _) => let '(s2, o2, _) := qt_finish V s1 a out in (s2, o ++ o2, true)
  end.
(** requests one after another (server.py 262-323 with qt_server.py 68-85) *)
Fixpoint qt_all (V : venv) (s : sv) (l : list (string * msg * res pyval)) : sv * list (list output * bool) :=
  match l with
  | [] => (s, [])
  | (c, m, out) :: r => let '(s1, o, b) := qt_one V s c m out in let '(s2, os) := qt_all V s1 r in (s2, (o, b) :: os)
  end.
