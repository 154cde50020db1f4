(** Filters of loggers and handlers: LogSender.handle (remote.py 160-162) and QtLogHandler.handle
    (logviewer.py 57-58) replace logging.Handler.handle (library), RPCLogHandler (handler.py 73-77) does not;
    LogServer.run (remote.py 256-265) gives records to Logger.handle (library).

    Simplified: filters only say yes or no; the handlers of the logger and of its parents are one list
    (LogTreeModel has the tree); Logger.disabled is a flag. *)
From Verif Require Import Py.

(** what filters and levels look at: the level and anything else (logging.LogRecord, remote.py 262) *)
Record flrec := mkFR { fr_level : Z; fr_rest : nat }.
(** a filter of a logger or a handler (logging.Filterer.filters (library), inherited by remote.py 117,
    handler.py 39 and logviewer.py 48) *)
Definition lfilter := flrec -> bool.
(** RPCLogHandler (handler.py 39), LogSender (remote.py 117), QtLogHandler (logviewer.py 48), any handler of
    the library *)
Inductive fkind := FConsole | FSender | FQt | FLibrary.
(** a handler: its kind, its level, its filters (logging.Handler.__init__, called at handler.py 54-57,
    remote.py 141, logviewer.py 54) *)
Record fhand := mkFH { fh_kind : fkind; fh_level : Z; fh_filters : list lfilter }.
(** logging.Filterer.filter (library) *)
Definition passes (fs : list lfilter) (r : flrec) : bool := forallb (fun f => f r) fs.
(** [handle]: logging.Handler.handle (library) for handler.py 73-77; remote.py 160-162; logviewer.py 57-58.
    The result says whether the record goes on: to emit, to the queue, to the signal *)
Definition h_handle (h : fhand) (r : flrec) : bool :=
  match fh_kind h with
  | FConsole | FLibrary => passes (fh_filters h) r
  | FSender | FQt => true
  end.
(** Logger.callHandlers (library): the numbers of the handlers that pass the record on (handler.py 73-77,
    remote.py 160-162, logviewer.py 57-58) *)
Fixpoint call_handlers (n : nat) (hs : list fhand) (r : flrec) : list nat :=
  match hs with
  | [] => []
  | h :: t => ((if fh_level h <=? fr_level r then if h_handle h r then [n] else [] else []) ++ call_handlers (S n) t r)%list
  end.
(** a logger with the handlers its records come to (logging.Logger, used at remote.py 144-147, 242) *)
Record flog := mkFL { fl_level : Z; fl_disabled : bool; fl_filters : list lfilter; fl_hands : list fhand }.
(** Logger.handle (library), called by Logger._log (library) and remote.py 265 *)
Definition logger_handle (l : flog) (r : flrec) : list nat :=
  if fl_disabled l then [] else if passes (fl_filters l) r then call_handlers 0 (fl_hands l) r else [].
(** Logger.log (library): isEnabledFor, then handle; with [fl_level] the effective level
    (library; the callers are in the program, and in server.py and client.py) *)
Definition local_log (l : flog) (r : flrec) : list nat :=
  if fl_disabled l then [] else if fl_level l <=? fr_level r then logger_handle l r else [].
(** LogServer.run for one record (remote.py 262-265) *)
Definition server_log (by_level : bool) (l : flog) (r : flrec) : list nat :=
  if by_level && (fr_level r <? fl_level l) then [] else logger_handle l r.
