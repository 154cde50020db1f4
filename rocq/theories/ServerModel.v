(** teleprox/server.py: [RPCServer._process_one], [_send_error], [_send_result],
    [process_action], [_final_close], [auto_proxy] (lines 230-415, 435-437, 477-482).

    A request that calls an object runs user code in the middle of [_process_one];
    the user code may in turn let the server process other requests (a reentrant
    client waiting for a reply does that).  So [_process_one] is split where user
    code runs: [begin_request] up to the call, [finish_request] after it. *)
From Verif Require Import Py ObjTableModel SerModel FrameModel.

(** Everything outside teleprox the server depends on. (as used by server.py 262-415) *)
Record venv := mkVenv {
  ve_ser : senv;
  ve_limit : nat;                        (* recursion limit available to json *)
  ve_utf8 : string -> bool;
  ve_import : string -> res pyval;       (* builtins.__import__(name) *)
  ve_from : pyval -> pyval -> res pyval; (* map(mod.__getattr__, fromlist) *)
  ve_tb : exn -> string                  (* formatted traceback *)
}.

(** server.py 136-184 *)
Record sv := mkSv {
  sv_addr : string;
  sv_sers : list string;            (* keys of self._serializers *)
  sv_clients : dict string string;  (* {socket_id: serializer_type} *)
  sv_names : dict string pyval;     (* self._namespace *)
  sv_st : sst;                      (* proxied objects *)
  sv_closed : bool;                 (* self._closed *)
  sv_open : bool;                   (* the socket is open *)
  sv_reg : bool                     (* servers_by_thread[self._thread] is self *)
}.

(** assignment to an attribute of server.py 136-184 *)
Definition set_clients (s : sv) (c : dict string string) : sv :=
  mkSv (sv_addr s) (sv_sers s) c (sv_names s) (sv_st s) (sv_closed s) (sv_open s) (sv_reg s).
(** assignment to an attribute of server.py 136-184 *)
Definition set_names (s : sv) (n : dict string pyval) : sv :=
  mkSv (sv_addr s) (sv_sers s) (sv_clients s) n (sv_st s) (sv_closed s) (sv_open s) (sv_reg s).
(** assignment to an attribute of server.py 136-184 *)
Definition set_st (s : sv) (t : sst) : sv :=
  mkSv (sv_addr s) (sv_sers s) (sv_clients s) (sv_names s) t (sv_closed s) (sv_open s) (sv_reg s).
(** assignment to an attribute of server.py 136-184 *)
Definition set_closed (s : sv) : sv :=
  mkSv (sv_addr s) (sv_sers s) (sv_clients s) (sv_names s) (sv_st s) true (sv_open s) (sv_reg s).
(** assignment to an attribute of server.py 136-184 *)
Definition set_sock_closed (s : sv) : sv :=
  mkSv (sv_addr s) (sv_sers s) (sv_clients s) (sv_names s) (sv_st s) (sv_closed s) false (sv_reg s).
(** assignment to an attribute of server.py 136-184 *)
Definition set_unreg (s : sv) : sv :=
  mkSv (sv_addr s) (sv_sers s) (sv_clients s) (sv_names s) (sv_st s) (sv_closed s) (sv_open s) false.

(** server.py 325-343; sys.excepthook at 320 *)
Inductive output :=
| Sent (to : string) (p : payload)   (* socket.send_multipart([to, data]) *)
| Hook (e : exn).                    (* sys.excepthook *)

Section Server.
  Variable V : venv.
  Let E := ve_ser V.

  (** self._serializers[t].dumps(v, server=..., ...) (server.py 338-342) *)
  Definition dumps (t : string) (srv : option string) (st : sst) (v : pyval) : sst * res payload :=
    if String.eqb t "msgpack" then
      let '(st', r) := msgpack_dumps E srv st v in (st', bind r (fun w => Ok (PPack w)))
    else
      let '(st', r) := jdumps E (ve_limit V) srv st v in (st', bind r (fun j => Ok (PJson j))).
  (** self._serializers[t].loads(data, server=..., ...).  Data in another format
      is a ValueError (both formats reject each other's dicts and lists). (server.py 287-290) *)
  Definition loads (t : string) (srv : option string) (st : sst) (p : payload) : res pyval :=
    match p with
    | PPack w => if String.eqb t "msgpack" then unpack E srv st w else Err ValueError
    | PJson j => if String.eqb t "msgpack" then Err ValueError else jloads E srv st j
    | _ => Err ValueError
    end.

  (** socket.send_multipart on a closed socket raises ZMQError (server.py 343) *)
  Definition sock_send (s : sv) (to : string) (p : payload) : list output * option exn :=
    if sv_open s then ([Sent to p], None) else ([], Some ZMQError).

  (** server.py 332-343 [_send_result] *)
  Definition reply (req : Z) (rval error : pyval) : pyval :=
    fields [("action", VStr "return"); ("req_id", VInt req); ("rval", rval); ("error", error)].
  Definition send_result (s : sv) (caller : string) (req : Z) (rval error : pyval)
    : sv * list output * option exn :=
    if ve_utf8 V caller then                                (* caller.decode(), line 335 *)
      match dget (sv_clients s) caller with
      | None => (s, [], Some KeyError)
      | Some t =>
          if smem t (sv_sers s) then
            let '(st', r) := dumps t (Some (sv_addr s)) (sv_st s) (reply req rval error) in
            let s' := set_st s st' in
            match r with
            | Err e => (s', [], Some e)
            | Ok p => let '(o, x) := sock_send s' caller p in (s', o, x)
            end
          else (s, [], Some KeyError)
      end
    else (s, [], Some UnicodeDecodeError).

  (** server.py 325-330 [_send_error]; the transcript is one string here *)
  Definition error_value (e : exn) : pyval := VTuple [VStr (exn_name e); VList [VStr (ve_tb V e)]].
  Definition send_error (s : sv) (caller : string) (req : Z) (e : exn) : sv * list output * option exn :=
    if ve_utf8 V caller                                     (* caller.decode(), line 326 *)
    then send_result s caller req VNone (error_value e)
    else (s, [], Some UnicodeDecodeError).

  (** server.py 193-206; the new proxy as a value *)
  Definition make_proxy (s : sv) (v : pyval) : sv * res pyval :=
    let '(st', r) := proxy_value E (sv_addr s) (sv_st s) v in (set_st s st', r).

  (** server.py 477-482 [auto_proxy] with self.serialize_types *)
  Definition auto_proxy (s : sv) (v : pyval) : sv * res pyval :=
    if ser_ok E v then (s, Ok v) else make_proxy s v.

  (** ** Actions *)

  (** opts['k']: TypeError unless opts is a dict (server.py 349-398) *)
  Definition opt (opts : pyval) (k : string) : res pyval :=
    match opts with VDict d => field d k | _ => Err TypeError end.
  (** opts.get('k', default) (server.py 350-351) *)
  Definition opt_get (opts : pyval) (k : string) (dflt : pyval) : res pyval :=
    match opts with
    | VDict d => Ok (match kget d (VStr k) with Some v => v | None => dflt end)
    | _ => Err AttributeError
    end.
  (** positional arguments.  Simplification: only list and tuple can be unpacked. (server.py 355) *)
  Definition arg_list (v : pyval) : res (list pyval) :=
    match v with VList l => Ok l | VTuple l => Ok l | _ => Err TypeError end.
  (** len(kwargs), then unpacking.  Simplification: only dicts have a length. (server.py 353, 361) *)
  Definition kwarg_list (v : pyval) : res (list (pyval * pyval)) :=
    match v with VDict d => Ok d | _ => Err TypeError end.

  (** name.lstrip('.').split('.') (server.py 376-387) *)
  Fixpoint lstrip_dots (s : string) : string :=
    match s with String "." r => lstrip_dots r | _ => s end.
  (** server.py 376-387 *)
  Fixpoint split_dots (s : string) : list string :=
    match s with
    | "" => [""]
    | String c r =>
        if Ascii.eqb c "." then "" :: split_dots r
        else match split_dots r with
             | h :: t => String c h :: t
             | [] => [String c ""]
             end
    end.
  (** server.py 376-387 *)
  Definition do_import (opts : pyval) : res pyval :=
    bind (opt opts "module") (fun m =>
    bind (opt_get opts "fromlist" (VList [])) (fun fl =>
      match m with
      | VStr name =>
          bind (ve_import V name) (fun md =>
            match fl with
            | VList [] | VTuple [] =>
                getattrs E md (tl (split_dots (lstrip_dots name)))
            | _ => ve_from V md fl
            end)
      | _ => Err TypeError
      end)).

  (** server.py 390-411, the loop over known clients *)
  Fixpoint send_disconnects (s : sv) (caller : string) (l : list (string * string)) : list output * option exn :=
    match l with
    | [] => ([], None)
    | (c, t) :: r =>
        if String.eqb c caller then send_disconnects s caller r
        else if smem t (sv_sers s) then
          match snd (dumps t None (sv_st s) (fields [("action", VStr "disconnect")])) with
          | Err e => ([], Some e)
          | Ok p =>
              match sock_send s c p with
              | (o, Some e) => (o, Some e)
              | (o, None) => let '(o', x) := send_disconnects s caller r in (o ++ o', x)
              end
          end
        else ([], Some KeyError)
    end.

  (** server.py 364-370 *)
  Definition do_delete (s : sv) (opts : pyval) : sv * res pyval :=
    match opt opts "obj_id", opt opts "ref_id" with
    | Err e, _ => (s, Err e)
    | Ok (VInt oid), rid =>
        match dget (prefs (tab (ss_o (sv_st s)))) oid with
        | None => (s, Err KeyError)
        | Some _ =>
            match rid with
            | Err e => (s, Err e)
            | Ok (VInt rid) =>
                let '(t', r) := delete_ref (id_in (hp (ss_o (sv_st s)))) (tab (ss_o (sv_st s))) oid rid in
                (set_st s (mkSst (mkS t' (hp (ss_o (sv_st s)))) (ss_boxes (sv_st s))),
                 bind r (fun _ => Ok VNone))
            | Ok _ => (s, Err KeyError)
            end
        end
    | Ok _, _ => (s, Err KeyError)
    end.

  (** what process_action does: server.py 345-415 *)
  Inductive action_result :=
  | AVal (r : res pyval)
  | ACall (f : pyval) (args : list pyval) (kw : list (pyval * pyval)).   (* user code to run *)

  (** server.py 345-415 [process_action].  Simplification: names in the
      namespace are strings. *)
  Definition process_action (s : sv) (action : string) (opts : pyval) (caller : string)
    : sv * list output * action_result :=
    if String.eqb action "call_obj" then
      (s, [], match opt opts "obj" with
              | Err e => AVal (Err e)
              | Ok f =>
                  match bind (opt_get opts "kwargs" (VDict [])) kwarg_list,
                        bind (opt_get opts "args" (VTuple [])) arg_list with
                  | Err e, _ => AVal (Err e)
                  | Ok _, Err e => AVal (Err e)
                  | Ok kw, Ok args => ACall f args kw
                  end
              end)
    else if String.eqb action "get_obj" then (s, [], AVal (opt opts "obj"))
    else if String.eqb action "delete" then
      let '(s', r) := do_delete s opts in (s', [], AVal r)
    else if String.eqb action "get_item" then
      (s, [], AVal (bind (opt opts "name") (fun n =>
         match n with
         | VStr k => match dget (sv_names s) k with Some v => Ok v | None => Err KeyError end
         | _ => Err KeyError
         end)))
    else if String.eqb action "set_item" then
      match opt opts "obj", opt opts "name" with
      | Ok v, Ok (VStr k) => (set_names s (dset (sv_names s) k v), [], AVal (Ok VNone))
      | Ok _, Ok _ => (s, [], AVal (Err TypeError))
      | Err e, _ => (s, [], AVal (Err e))
      | Ok _, Err e => (s, [], AVal (Err e))
      end
    else if String.eqb action "import" then (s, [], AVal (do_import opts))
    else if String.eqb action "ping" then (s, [], AVal (Ok (VStr "pong")))
    else if String.eqb action "close" then
      let s1 := set_closed s in
      let '(o, x) := send_disconnects s1 caller (sv_clients s1) in
      match x with
      | Some e => (s1, o, AVal (Err e))
      | None =>
          if sv_reg s1 then (set_unreg s1, o, AVal (Ok (VBool true)))
          else (s1, o, AVal (Err KeyError))      (* unregister_server, lines 119-125 *)
      end
    else (s, [], AVal (Err ValueError)).

  (** ** _process_one *)

  (** what is left of a [_process_one] call while its user code runs (server.py 293-305) *)
  Record activation := mkAct { a_caller : string; a_msg : msg }.

  (** server.py 298-323, given the outcome of the action *)
  Definition finish_request (s : sv) (a : activation) (r : res pyval) : sv * list output * option exn :=
    let caller := a_caller a in
    let req := m_req (a_msg a) in
    let '(s1, o, esc) :=
      if 0 <=? req then
        match r with
        | Ok v =>
            let '(s0, pv) :=
              if String.eqb (m_rt (a_msg a)) "auto" then auto_proxy s v
              else if String.eqb (m_rt (a_msg a)) "proxy" then make_proxy s v
              else (s, Ok v) in
            match pv with
            | Err e => (s0, [], Some e)             (* outside any try block *)
            | Ok v' =>
                match send_result s0 caller req v' VNone with
                | (s1, o, None) => (s1, o, None)
                | (s1, o, Some e) =>
                    let '(s2, o2, x) := send_error s1 caller req e in (s2, o ++ o2, x)
                end
            end
        | Err e => send_error s caller req e
        end
      else
        (s, match r with Ok _ => [] | Err e => [Hook e] end, None) in
    match esc with
    | Some e => (s1, o, Some e)
    | None =>
        if String.eqb (m_action (a_msg a)) "close" then (set_sock_closed s1, o, None)   (* _final_close *)
        else (s1, o, None)
    end.

  (** how far a request has come: server.py 262-297 *)
  Inductive begun :=
  | Finished (r : res pyval) (esc : option exn)   (* outcome of the action; [Some e]: exception [e] leaves _process_one *)
  | InCall (a : activation) (f : pyval) (args : list pyval) (kw : list (pyval * pyval)).

  (** server.py 262-297 up to user code, if any; the rest if there is none *)
  Definition begin_request (s : sv) (caller : string) (m : msg) : sv * list output * begun :=
    let s1 := set_clients s (dset (sv_clients s) caller (m_ser m)) in
    let a := mkAct caller m in
    let fin s' o r := let '(s2, o2, x) := finish_request s' a r in (s2, o ++ o2, Finished r x) in
    if smem (m_ser m) (sv_sers s1) then
      if ve_utf8 V caller then                       (* caller.decode(), line 285 *)
        let opts := match m_opts m with
                    | PEmpty => Ok VNone
                    | p => loads (m_ser m) (Some (sv_addr s1)) (sv_st s1) p
                    end in
        match opts with
        | Err e => fin s1 [] (Err e)
        | Ok opts =>
            match process_action s1 (m_action m) opts caller with
            | (s2, o, AVal r) => fin s2 o r
            | (s2, o, ACall f args kw) => (s2, o, InCall a f args kw)
            end
        end
      else fin s1 [] (Err UnicodeDecodeError)
    else fin s1 [] (Err ValueError).
End Server.
