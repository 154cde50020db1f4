(** What a child should be told by its parent. *)
From Verif Require Import Py UtilModel UtilSpec ProcessModel.
Local Open Scope Z_scope.

Definition no_dash (s : string) : Prop := forall r, s <> String "-" r.
(** the log address in use is one the code can send *)
Definition sendable (a : option text) : Prop := a = None \/ exists b, a = Some (TBytes b).
(** the log address and level the documentation promises the child *)
Definition log_text (a : option text) : cval :=
  match a with None => VNone | Some (TStr s) | Some (TBytes s) => VStr s end.
Record asked := mkAsk { a_name : string; a_qt : bool; a_daemon : bool; a_log : cval; a_level : Z; a_listen : string; a_boot : string; a_prefix : string }.
Definition got (c : conf) (a : asked) : Prop :=
  dget c "procname" = Some (VStr (a_name a)) /\ dget c "qt" = Some (VBool (a_qt a)) /\ dget c "daemon" = Some (VBool (a_daemon a)) /\
  dget c "logaddr" = Some (a_log a) /\ dget c "loglevel" = Some (VInt (a_level a)) /\ dget c "listen_addr" = Some (VStr (a_listen a)) /\
  dget c "bootstrap_addr" = Some (VStr (a_boot a)) /\ dget c "child_name_prefix" = Some (VStr (a_prefix a)) /\
  dget c "class_name" = Some (VStr (if a_qt a then "QtRPCServer" else "RPCServer")).
(** words a shell leaves alone (as far as blanks go) *)
Definition plain_word (s : string) : Prop := s <> EmptyString /\ ~ occurs " " s.
(** the name the child is to have: the one given, or that of the parent with "_child",
    after the prefix for process names *)
Definition asks_name (p : parent) (q : request) (name : string) : Prop :=
  (exists n, q_name q = Some n /\ name = (p_prefix p ++ n)%string) \/
  (q_name q = None /\ name = (p_prefix p ++ p_name p ++ "_child")%string).
(** the log server it is to use: the one given; otherwise that of the parent, but none for
    a daemon *)
Definition asks_log (p : parent) (q : request) (a : option text) : Prop :=
  (exists t, q_log_addr q = Some t /\ a = Some t) \/
  (q_log_addr q = None /\ q_daemon q = true /\ a = None) \/
  (q_log_addr q = None /\ q_daemon q = false /\ a = p_logger p).
(** a word written in small or capital letters *)
Inductive spells : string -> string -> Prop :=
| sp_nil : spells "" ""
| sp_same c s w : spells s w -> spells (String c s) (String c w)
| sp_small k s w : (65 <= k <= 90)%nat -> spells s w -> spells (String (ascii_of_nat (k + 32)) s) (String (ascii_of_nat k) w).
(** the level it is to have: the one given, as a number or by name; otherwise that of the parent *)
Definition asks_level (p : parent) (q : request) (n : Z) : Prop :=
  match q_log_level q with
  | LNone => n = p_level p
  | LInt k => n = k
  | LStr s => exists w, spells s w /\
      In (w, n) [("CRITICAL", 50); ("FATAL", 50); ("ERROR", 40); ("WARNING", 30); ("WARN", 30); ("INFO", 20); ("DEBUG", 10); ("NOTSET", 0)]
  end.
(** a request for a child with this name, log server and level that the code can send *)
Definition readable (p : parent) (q : request) (name : string) (log : option text) (n : Z) : Prop :=
  asks_name p q name /\ no_dash name /\ asks_log p q log /\ sendable log /\ asks_level p q n /\ 0 <= n.
