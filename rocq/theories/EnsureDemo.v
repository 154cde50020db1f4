(** A client that connects to a slow server. *)
From Verif Require Import Py ObjTableModel SerModel FrameModel ServerModel ClientModel RpcDemo WaitModel EnsureModel.

Definition limits : ecfg := mkEc Plain 1000000000 1000000 1000000 0.
Definition fresh_client : cl := new_client "json" None (mkSst ostate_init []).
Definition pong (rid : Z) : payload :=
  PJson (JObj [("action", JStr "return"); ("req_id", JInt rid); ("rval", JStr "pong"); ("error", JNull)]).
(** each ping is answered 150 ms after it was sent *)
Definition attempt (i : Z) : list wlabel :=
  [WGo; WGo; WGo; WGo; WTick 50000000] ++
  (if i =? 0 then [] else [WArrive (pong (i - 1)); WGo; WGo; WGo; WGo]) ++ [WTick 50000000; WGo; WGo].
Definition slow_run : list wlabel := flat_map attempt [0; 1; 2; 3; 4; 5; 6; 7; 8; 9] ++ [WGo].
