(** Specification vocabulary for the logger hierarchy. *)
From Verif Require Import Py LogTreeModel.

(** [a] is [n] or one of its parents *)
Definition above (a n : lname) : Prop := exists p, n = p ++ a.
(** messages of [n] go on to [a]: [n] and the loggers between propagate *)
Definition propagates (t : tree) (n a : lname) : Prop :=
  exists p, n = p ++ a /\ forall b, above b n -> above a b -> b <> a -> g_prop (t b) = true.
(** the level that counts for [n]: the nearest one that is set *)
Definition level_is (t : tree) (n : lname) (l : Z) : Prop :=
  exists a, above a n /\ g_level (t a) = l /\ l <> 0 /\ forall b, above b n -> above a b -> b <> a -> g_level (t b) = 0.
(** a message of that level is taken by logger [n] and given to the handlers of the root *)
Definition passes (g : gst) (n : lname) (level : Z) : Prop :=
  (exists l, level_is (g_tree g) n l /\ l <= level) /\ propagates (g_tree g) n [].

(** how often the record was given to a handler of this kind *)
Definition is_console (g : gst) (d : dest) : bool := match d with To h => match kind_of g h with HConsole => true | _ => false end | ToStderr => false end.
Definition is_sender (g : gst) (d : dest) : bool := match d with To h => match kind_of g h with HSender => true | _ => false end | ToStderr => false end.
Definition times (f : dest -> bool) (l : list (dest * lrec)) : nat := List.length (filter (fun x => f (fst x)) l).
(** what was done with records between two states *)
Definition news (g g' : gst) : list (dest * lrec) := skipn (List.length (g_out g)) (g_out g').

(** calls of basic_config in a history *)
Definition is_basic (o : gop) : bool := match o with GBasic _ _ _ => true | _ => false end.
Definition basics (os : list gop) : nat := List.length (filter is_basic os).
(** nothing sets the hooks for uncaught exceptions *)
Definition keeps_hooks (o : gop) : bool := match o with GHooks _ _ => false | _ => true end.
(** only the root logger is configured *)
Definition only_root (t : tree) : Prop := forall n, n <> [] -> t n = mkLg 0 true [].
(** the level of this handler lets the record pass *)
Definition takes (g : gst) (h : nat) (level : Z) : Prop :=
  match nth_error (g_kinds g) h with Some (HOther l) => l <= level | _ => 0 <= level end.
(** the hooks are those of the interpreter *)
Definition python_hooks (g : gst) : Prop := g_sys g = HkPython /\ g_thread g = HkPython.
(** an error, not sys.exit() *)
Definition is_error (u : uncaught) : Prop := match u with ExitInThread _ => False | _ => True end.
(** the logger to which start_log_server attaches the server: "teleprox.log.remote" *)
Definition server_logger : lname := ["remote"; "log"; "teleprox"]%string.
