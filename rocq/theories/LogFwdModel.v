(** Log forwarding: LogSender and LogServer, teleprox/log/remote.py 76-266, and the
    header of RPCLogHandler, handler.py 105-117.

    The sender thread, threads that log, and a thread that calls connect() or close()
    take steps in any order; reads and writes of [self.socket], queue operations and
    socket calls are one step each.  Simplified: at most one call of connect() or
    close() is under way at a time.  JSON and [%] are library behaviour: [fmt] stands
    for [msg % args] and may raise; a record either has a JSON form or not. *)
From Verif Require Import Py.
Local Open Scope Z_scope.

(** logging.LogRecord (library): the attributes that matter.  [f_json]: all other
    attributes have a JSON form (exc_info as set by logger.exception has none). *)
Record frec := mkF { f_id : nat; f_level : Z; f_msg : string;
                     f_args : option (list string) (* None: the attribute is None *);
                     f_thread : Z; f_threadName : string;
                     f_attrs : dict string string (* host_name, process_name, ... if set *);
                     f_json : bool }.
(** what json.dumps is given (175-182): no args, [msg] formatted *)
Record wrec := mkW { w_id : nat; w_level : Z; w_msg : string; w_thread : Z; w_threadName : string;
                     w_attrs : dict string string }.

Section Fwd.
  (** [msg % args] (library behaviour, may raise) *)
  Variable fmt : string -> list string -> res string.

  (** remote.py 20-22: names known to a process *)
  Record names := mkN { n_host : string; n_process : option string; n_threads : dict Z string }.

  (** remote.py 175-183 up to the call of send: [len(None)] raises TypeError; json.dumps
      raises TypeError *)
  Definition prepare (n : names) (r : frec) : res wrec :=
    bind (match f_args r with
          | None => Err TypeError
          | Some [] => Ok (f_msg r)
          | Some a => fmt (f_msg r) a
          end) (fun msg =>
    let at1 := match n_process n with Some p => dset (f_attrs r) "process_name" p | None => f_attrs r end in
    let tn := match dget (n_threads n) (f_thread r) with Some t => t | None => f_threadName r end in
    let at2 := dset at1 "thread_name" tn in
    let at3 := dset at2 "host_name" (n_host n) in
    Ok (mkW (f_id r) (f_level r) msg (f_thread r) (f_threadName r) at3)).
  (** remote.py 175-183 *)
  Definition dumps (r : frec) (w : wrec) : res wrec := if f_json r then Ok w else Err TypeError.

  (** logging.makeLogRecord (library): attributes as given, args = () *)
  Definition make_record (w : wrec) : frec :=
    mkF (w_id w) (w_level w) (w_msg w) (Some []) (w_thread w) (w_threadName w) (w_attrs w) true.

  (** the sender thread: waiting at 166; has a record, before 173; past 173; about to
      send on socket [k] (183: [self.socket.send] is evaluated before json.dumps); ended *)
  Inductive fth := FWait | FGot (r : frec) | FChecked (r : frec) | FSend (k : nat) (r : frec) (w : wrec)
                 | FEnd | FDead (e : exn).
  (** a call of close() or connect() under way *)
  Inductive cth := CIdle | CConn (* past 191 *) | CPut (* past 200 *) | CSwap (old : option nat) (* past 201 *).

  (** the threads, queue and socket of remote.py 139-158 *)
  Record fst_ := mkFS { s_q : list (option frec); s_sock : option nat; s_next : nat; s_shut : list nat (* closed sockets *);
                        s_th : fth; s_call : cth; s_sent : list (nat * wrec) }.
  (** 139-156 with address=None: nothing connected yet *)
  Definition fs0 : fst_ := mkFS [] None 0 [] FWait CIdle [].

  Inductive flab :=
  | LHandle (r : frec)     (* 160-162 *)
  | LRun                   (* one step of the sender thread *)
  | LConnect               (* 190-191 *)
  | LConnect2              (* 193-195 *)
  | LClose                 (* 200 *)
  | LClose2                (* 201 *)
  | LClose3.               (* 202-203 *)

  Definition set_th (s : fst_) (t : fth) : fst_ := mkFS (s_q s) (s_sock s) (s_next s) (s_shut s) t (s_call s) (s_sent s).

  (** remote.py 164-183 *)
  Definition frun1 (n : names) (s : fst_) : fst_ :=
    match s_th s with
    | FWait =>
        match s_q s with
        | [] => s
        | None :: q => mkFS q (s_sock s) (s_next s) (s_shut s) FEnd (s_call s) (s_sent s)
        | Some r :: q => mkFS q (s_sock s) (s_next s) (s_shut s) (FGot r) (s_call s) (s_sent s)
        end
    | FGot r => match s_sock s with None => set_th s FWait | Some _ => set_th s (FChecked r) end
    | FChecked r =>
        match prepare n r with
        | Err e => set_th s (FDead e)
        | Ok w =>
            match s_sock s with
            | None => set_th s (FDead AttributeError)
            | Some k => match dumps r w with Err e => set_th s (FDead e) | Ok w => set_th s (FSend k r w) end
            end
        end
    | FSend k r w =>
        if existsb (Nat.eqb k) (s_shut s) then set_th s (FDead ZMQError)
        else mkFS (s_q s) (s_sock s) (s_next s) (s_shut s) FWait (s_call s) (s_sent s ++ [(k, w)])
    | FEnd | FDead _ => s
    end.

  (** remote.py 160-204 *)
  Definition fstep (n : names) (s : fst_) (l : flab) : fst_ :=
    match l with
    | LHandle r => mkFS (s_q s ++ [Some r]) (s_sock s) (s_next s) (s_shut s) (s_th s) (s_call s) (s_sent s)
    | LRun => frun1 n s
    | LConnect =>
        match s_call s with
        | CIdle => mkFS (s_q s) (s_sock s) (s_next s)
                        (match s_sock s with Some k => k :: s_shut s | None => s_shut s end) (s_th s) CConn (s_sent s)
        | _ => s
        end
    | LConnect2 =>
        match s_call s with
        | CConn => mkFS (s_q s) (Some (s_next s)) (S (s_next s)) (s_shut s) (s_th s) CIdle (s_sent s)
        | _ => s
        end
    | LClose =>
        match s_call s with
        | CIdle => mkFS (s_q s ++ [None]) (s_sock s) (s_next s) (s_shut s) (s_th s) CPut (s_sent s)
        | _ => s
        end
    | LClose2 =>
        match s_call s with
        | CPut => mkFS (s_q s) None (s_next s) (s_shut s) (s_th s) (CSwap (s_sock s)) (s_sent s)
        | _ => s
        end
    | LClose3 =>
        match s_call s with
        | CSwap old => mkFS (s_q s) (s_sock s) (s_next s)
                            (match old with Some k => k :: s_shut s | None => s_shut s end) (s_th s) CIdle (s_sent s)
        | _ => s
        end
    end.
  (** a history of steps (remote.py 160-204) *)
  Definition frun (n : names) (s : fst_) (ls : list flab) : fst_ := fold_left (fstep n) ls s.

  (** LogServer.run, remote.py 253-266: each message with the effective level of the
      logger at that time; [None] is a message that is not JSON for a dictionary: the
      thread dies.  Result: records given to the logger, and whether the thread lives. *)
  Fixpoint server_run (filter_by_level : bool) (ms : list (option wrec * Z)) : list frec * bool :=
    match ms with
    | [] => ([], true)
    | (None, _) :: _ => ([], false)
    | (Some w, level) :: r =>
        let rec := make_record w in
        let '(out, alive) := server_run filter_by_level r in
        (if filter_by_level && (f_level rec <? level) then out else rec :: out, alive)
    end.

  (** RPCLogHandler.get_thread_header, handler.py 105-108: the three names shown.
      [hex] is ['thread-%x' % tid] (library). *)
  Variable hex : Z -> string.
  (** getattr(record, name, default), handler.py 105-108 *)
  Definition attr_or (r : frec) (a : string) (d : string) : string :=
    match dget (f_attrs r) a with Some v => v | None => d end.
  (** remote.py 59-66 *)
  Definition get_thread_name (n : names) (tid : Z) : string :=
    match dget (n_threads n) tid with Some t => t | None => hex tid end.
  (** handler.py 105-108 *)
  Definition header (n : names) (r : frec) : string * option string * string :=
    (attr_or r "hostname" (n_host n),
     match dget (f_attrs r) "process_name" with Some p => Some p | None => n_process n end,
     attr_or r "thread_name" (get_thread_name n (f_thread r))).
End Fwd.
