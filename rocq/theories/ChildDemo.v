(** Demonstration data for child processes. *)
From Verif Require Import Py ChildModel ChildSpec.

(** computing takes at most 1 ms, close_server at most 5 ms more than its timeout *)
Definition demo_k : ccfg := mkCc 1000000 5000000 (Z.to_nat 32768) false.
(** wait(10) on a child that exits with code 3 after 1.6 ms; its output is not captured *)
Definition exits_early : list clab :=
  [LCall CWait 10000000000; LGo; LGo; LGo; LTick 1000000; LGo; LTick 600000; LExit 3; LGo; LGo].
(** wait(1 ms) on a child that does not exit *)
Definition stays : list clab := [LCall CWait 1000000; LGo; LGo; LGo; LTick 1000000; LGo; LGo].
(** the child exits at once, a process it started keeps its output open: wait(10 ms) *)
Definition grandchild : list clab :=
  [LExit 0; LHup 1; LCall CWait 10000000; LGo; LGo; LGo; LGo; LGo; LGo; LTick 10000000; LGo; LGo; LTick 1; LGo].
(** stop(10): the server answers after 1 ms and the child exits 1 ms later *)
Definition quick_stop : list clab :=
  [LCall CStop 10000000000; LTick 1000000; LReply (Ok true); LGo; LTick 1000000; LExit 0; LGo; LGo; LGo].
(** the child writes to both pipes and exits with code 4 *)
Definition leaves_output : list clab := [LWrite 0 [104; 105]; LWrite 1 [33]; LHup 0; LHup 1; LExit 4].
