(** Which handlers get a log record, and who configures them: start_log_server,
    get_logger_address, set_logger_address, the start of LogSender.__init__ and the end of
    LogServer.run (teleprox/log/remote.py 71-114, 139-162, 260-265), basic_config
    (log/__init__.py 14-36) and log_exceptions (log/handler.py 131-151), with the logger
    hierarchy of Python's logging module (library) and sys.excepthook and
    threading.excepthook (library).

    Not modelled: filters, logging.disable, Logger.disabled, and what the handlers do with a
    record (LogHandlerModel, LogFwdModel). *)
From Verif Require Import Py.

(** the name of a logger, last component first: "a.b.c" is [["c"; "b"; "a"]], the root [[]]
    (the argument of logging.getLogger (library), as at remote.py 145, 242) *)
Definition lname := list string.
(** the argument of logging.getLogger (library), as at remote.py 145, 242 *)
Definition lname_dec (a b : lname) : {a = b} + {a <> b} := list_eq_dec string_dec a b.
(** logging.Logger: level (0 is NOTSET), propagate, handlers
    (Python logging, used at log/__init__.py 26-30 and remote.py 144-147) *)
Record lg := mkLg { g_level : Z; g_prop : bool; g_hand : list nat }.
(** Python logging, used at log/__init__.py 26-30 and remote.py 144-147 *)
Definition tree := lname -> lg.
(** a logger nobody has configured; the root has level WARNING (Python logging before log/__init__.py 26-30) *)
Definition plain : lg := mkLg 0 true [].
(** Python logging before log/__init__.py 26-30 *)
Definition tree0 : tree := fun n => match n with [] => mkLg 30 true [] | _ => plain end.
(** Logger.setLevel, addHandler (library): log/__init__.py 27, 30; remote.py 147 *)
Definition set_lg (t : tree) (n : lname) (x : lg) : tree := fun m => if lname_dec m n then x else t m.
(** Logger.addHandler (library) *)
Definition add_handler (t : tree) (n : lname) (h : nat) : tree :=
  set_lg t n (mkLg (g_level (t n)) (g_prop (t n)) (g_hand (t n) ++ [h])).

(** Logger.getEffectiveLevel (library) *)
Fixpoint effective (t : tree) (n : lname) : Z :=
  if g_level (t n) =? 0 then match n with [] => 0 | _ :: p => effective t p end else g_level (t n).
(** Logger.callHandlers (library): the logger's own handlers, then its parent's *)
Fixpoint reached (t : tree) (n : lname) : list nat :=
  g_hand (t n) ++ (if g_prop (t n) then match n with [] => [] | _ :: p => reached t p end else []).

(** the two kinds of handlers made here, and any others
    (RPCLogHandler, handler.py 53; LogSender, remote.py 117) *)
Inductive hkind := HConsole | HSender | HOther (level : Z).
(** RPCLogHandler, handler.py 53; LogSender, remote.py 117 *)
Definition hlevel (k : hkind) : Z := match k with HOther l => l | _ => 0 end.
(** what remote.py 262-265 and the library read of a logging.LogRecord *)
Record lrec := mkR { lr_name : lname; lr_level : Z; lr_id : nat }.
(** what is done with a record; [ToStderr]: logging.lastResort (library) *)
Inductive dest := To (h : nat) | ToStderr.

(** sys.excepthook and threading.excepthook: the interpreter's own, the logging one
    (handler.py 131-139), or somebody else's *)
Inductive hook := HkPython | HkLog | HkUser (i : nat).

Record gst := mkG {
  g_tree : tree;
  g_kinds : list hkind;               (* all handlers, by number *)
  g_server : bool;                    (* remote.py 71, 85: server is not None *)
  g_sender : option nat;              (* 72: sender *)
  g_making : option (nat * string);   (* set_logger_address is inside LogSender.__init__, 147-151 *)
  g_addr : option string;             (* 73: server_addr *)
  g_sys : hook; g_thread : hook;
  g_out : list (dest * lrec)
}.
(** remote.py 71-73, handler.py 127-128, log/__init__.py 13 *)
Definition gst0 : gst := mkG tree0 [] false None None None HkPython HkPython [].

(** Logger.callHandlers (library) *)
Definition kind_of (g : gst) (h : nat) : hkind := nth h (g_kinds g) (HOther 0).
(** the handlers of [n] and its parents that take a record of this level (Logger.callHandlers (library)) *)
Definition takers (g : gst) (n : lname) (level : Z) : list nat :=
  filter (fun h => hlevel (kind_of g h) <=? level) (reached (g_tree g) n).
(** LogSender.handle (remote.py 160-162) fails while record_queue does not exist; Logger.callHandlers
    stops there *)
Fixpoint deliver (making : option (nat * string)) (hs : list nat) : list nat * res unit :=
  match hs with
  | [] => ([], Ok tt)
  | h :: r => if match making with Some (m, _) => Nat.eqb m h | None => false end then ([], Err AttributeError)
              else let '(l, e) := deliver making r in (h :: l, e)
  end.
(** the handlers of remote.py 160-162 and handler.py 73-77 are given records *)
Definition out (g : gst) (l : list (dest * lrec)) : gst :=
  mkG (g_tree g) (g_kinds g) (g_server g) (g_sender g) (g_making g) (g_addr g) (g_sys g) (g_thread g) (g_out g ++ l).
(** Logger.handle (library) of logger [n] *)
Definition handle (g : gst) (n : lname) (r : lrec) : gst * res unit :=
  match reached (g_tree g) n with
  | [] => (out g (if 30 <=? lr_level r then [(ToStderr, r)] else []), Ok tt)
  | _ => let '(l, e) := deliver (g_making g) (takers g n (lr_level r)) in
         (out g (map (fun h => (To h, r)) l), e)
  end.
(** Logger.log, info, warning, ... (library) *)
Definition log (g : gst) (n : lname) (level : Z) (id : nat) : gst * res unit :=
  if effective (g_tree g) n <=? level then handle g n (mkR n level id) else (g, Ok tt).

(** remote.py 14: logging.getLogger(__name__) *)
Definition remote_logger : lname := ["remote"; "log"; "teleprox"]%string.
(** remote.py 260-265: a record arrives at the global LogServer *)
Definition forwarded (g : gst) (r : lrec) : gst * res unit :=
  if g_server g then
    if lr_level r <? effective (g_tree g) remote_logger then (g, Ok tt)
    else handle g remote_logger r
  else (g, Ok tt).

(** remote.py 76-87 *)
Definition start_log_server (g : gst) : gst * res unit :=
  if g_server g then (g, Err (UserExc "Exception"))
  else (mkG (g_tree g) (g_kinds g) true (g_sender g) (g_making g) (g_addr g) (g_sys g) (g_thread g) (g_out g), Ok tt).

(** handler.py 142-151 *)
Definition log_exceptions (g : gst) : gst :=
  mkG (g_tree g) (g_kinds g) (g_server g) (g_sender g) (g_making g) (g_addr g)
      (match g_sys g with HkLog => g_sys g | _ => HkLog end)
      (match g_thread g with HkLog => g_thread g | _ => HkLog end) (g_out g).

(** log/__init__.py 25-36 *)
Definition basic_config (g : gst) (level : Z) (exceptions start_server : bool) : gst * res unit :=
  let root := g_tree g [] in
  let t1 := set_lg (g_tree g) [] (mkLg level (g_prop root) (g_hand root)) in
  let t2 := add_handler t1 [] (List.length (g_kinds g)) in
  let g1 := mkG t2 (g_kinds g ++ [HConsole]) (g_server g) (g_sender g) (g_making g) (g_addr g) (g_sys g) (g_thread g) (g_out g) in
  let g2 := if exceptions then log_exceptions g1 else g1 in
  if start_server then start_log_server g2 else (g2, Ok tt).

(** remote.py 104-113, with LogSender(addr, '') up to 147.  Simplified: one call at a time. *)
Definition set_address_begin (g : gst) (addr : string) : gst :=
  match g_sender g, g_making g with
  | Some _, _ => mkG (g_tree g) (g_kinds g) (g_server g) (g_sender g) (g_making g) (Some addr) (g_sys g) (g_thread g) (g_out g)
  | None, Some _ => g
  | None, None =>
      let h := List.length (g_kinds g) in
      mkG (add_handler (g_tree g) [] h) (g_kinds g ++ [HSender]) (g_server g) None (Some (h, addr)) (g_addr g)
          (g_sys g) (g_thread g) (g_out g)
  end.
(** remote.py 151-158, and the assignments at 113 and 114.  Simplified: connect does not fail. *)
Definition set_address_end (g : gst) : gst :=
  match g_making g with
  | Some (h, a) => mkG (g_tree g) (g_kinds g) (g_server g) (Some h) None (Some a) (g_sys g) (g_thread g) (g_out g)
  | None => g
  end.
(** remote.py 90-101; [own]: the address of the server in this process *)
Definition logger_address (g : gst) (own : string) : option string := if g_server g then Some own else g_addr g.

(** an exception nobody catches ends the main program, or a thread; sys.exit() in a thread
    raises SystemExit there (library; handler.py 131-139) *)
Inductive uncaught := InMain (id : nat) | InThread (id : nat) | ExitInThread (id : nat).
(** who learns of it.  The interpreter prints a traceback, except for SystemExit in a thread.
    (library; handler.py 131-139) *)
Inductive report := Printed | Silent | Logged (l : list dest) | Given (user_hook : nat).
(** handler.py 131-139: logging.getLogger().warning(...) *)
Definition log_hook (g : gst) (id : nat) : gst * report :=
  let g' := fst (log g [] 30 id) in
  (g', Logged (map fst (skipn (List.length (g_out g)) (g_out g')))).
(** sys.excepthook and threading.excepthook are called (library), handler.py 131-139 *)
Definition ends_with (g : gst) (u : uncaught) : gst * report :=
  let '(hk, id) := match u with InMain i => (g_sys g, i) | InThread i | ExitInThread i => (g_thread g, i) end in
  match hk with
  | HkPython => (g, match u with ExitInThread _ => Silent | _ => Printed end)
  | HkUser i => (g, Given i)
  | HkLog => log_hook g id
  end.

(** what a program does
    (the calls of log/__init__.py 14-36, remote.py 76-114, handler.py 142-151, and of Python logging) *)
Inductive gop :=
| GLevel (n : lname) (level : Z)              (* getLogger(n).setLevel(level) *)
| GProp (n : lname) (b : bool)                (* getLogger(n).propagate = b *)
| GAdd (n : lname) (level : Z)                (* getLogger(n).addHandler(a new handler) *)
| GHooks (i j : nat)                          (* somebody sets both hooks *)
| GBasic (level : Z) (exceptions start_server : bool)
| GServer | GExceptions
| GSetAddr (a : string) | GSetAddrEnd
| GLog (n : lname) (level : Z) (id : nat)
| GForward (r : lrec)
| GUncaught (u : uncaught).
(** log/__init__.py 14-36, remote.py 76-114, 260-265, handler.py 142-151 *)
Definition gstep (g : gst) (o : gop) : gst :=
  match o with
  | GLevel n l => mkG (set_lg (g_tree g) n (mkLg l (g_prop (g_tree g n)) (g_hand (g_tree g n)))) (g_kinds g) (g_server g) (g_sender g)
                      (g_making g) (g_addr g) (g_sys g) (g_thread g) (g_out g)
  | GProp n b => mkG (set_lg (g_tree g) n (mkLg (g_level (g_tree g n)) b (g_hand (g_tree g n)))) (g_kinds g) (g_server g) (g_sender g)
                     (g_making g) (g_addr g) (g_sys g) (g_thread g) (g_out g)
  | GAdd n l => mkG (add_handler (g_tree g) n (List.length (g_kinds g))) (g_kinds g ++ [HOther l]) (g_server g) (g_sender g)
                    (g_making g) (g_addr g) (g_sys g) (g_thread g) (g_out g)
  | GHooks i j => mkG (g_tree g) (g_kinds g) (g_server g) (g_sender g) (g_making g) (g_addr g) (HkUser i) (HkUser j) (g_out g)
  | GBasic l e s => fst (basic_config g l e s)
  | GServer => fst (start_log_server g)
  | GExceptions => log_exceptions g
  | GSetAddr a => set_address_begin g a
  | GSetAddrEnd => set_address_end g
  | GLog n l i => fst (log g n l i)
  | GForward r => fst (forwarded g r)
  | GUncaught u => fst (ends_with g u)
  end.
(** a history of steps (log/__init__.py 14-36, remote.py 76-265, handler.py 131-151) *)
Definition grun (os : list gop) : gst := fold_left gstep os gst0.
