(** The whole system: one server, any number of clients with different
    identities, and the network between them, under every schedule.

    Library behaviour (zmq): a DEALER socket's messages reach the ROUTER in the
    order sent, and the other way round; the ROUTER takes messages from any client
    that has one waiting; messages from a DEALER are not lost (send blocks instead);
    messages from the ROUTER to a client that does not read are dropped once the
    queue holds [cap] messages (the high-water mark), and so are messages to
    identities that are not connected. *)
From Verif Require Import Py ObjTableModel SerModel FrameModel ServerModel ClientModel.

(** What has happened so far; never read by the system itself.
    (the sends and reads of client.py 297-298, 520-529; server.py 239-343) *)
Inductive event :=
| EvSent (c : string) (m : msg)                       (* client c transmitted m *)
| EvExec (c : string) (m : msg)                       (* the server started on it *)
| EvDone (c : string) (m : msg) (r : res pyval) (esc : option exn)
                                                      (* the action's outcome was r; [esc]: exception that left _process_one *)
| EvReply (c : string) (m : msg) (r : res pyval) (p : payload)   (* this went out to c as the reply *)
| EvTell (c : string) (p : payload)                   (* disconnect notice to c *)
| EvLost (c : string) (p : payload)                   (* dropped by the network *)
| EvRead (c : string) (p : payload) (e : option exn)  (* client c read p; exception raised, if any *)
| EvDrop (c : string) (rid : Z).                      (* c's future rid went away *)

(** server.py 136-184 with the clients of client.py 132-171 *)
Record sys := mkSys {
  y_sv : sv;
  y_stack : list activation;              (* requests whose user code is running, innermost first *)
  y_dead : bool;                          (* an exception ended run_forever *)
  y_cl : dict string cl;
  y_up : dict string (list frame);        (* on the way from each client *)
  y_down : dict string (list payload);    (* on the way to each client *)
  y_log : list event                      (* oldest first *)
}.

(** what user code run by server.py 352-363 may do: server.py 193, 233 *)
Inductive user_act :=
| UName (k : string) (v : pyval)     (* server[k] = v *)
| UAlloc (a : Z)                     (* creates an object *)
| UFree (o : obj)
| UProxy (o : obj).                  (* server.get_proxy(o) *)

(** steps: client.py 99-171, 227-319, 502-529; server.py 252-343 *)
Inductive label :=
| Join (c : string) (ser : string) (local : option string) (st : sst)
| CSend (c : string) (action : string) (opts : option pyval) (rt : string) (sync : sync_mode)
| CRecv (c : string)
| CDrop (c : string) (rid : Z)
| CLocal (c : string) (st : sst)     (* the objects of the server in the client's own thread change *)
| SRecv (c : string)                 (* the server reads the next message of client c *)
| SUser (u : user_act)               (* code in the server's process does something *)
| SReturn (r : res pyval).           (* the innermost user call returns or raises *)

Section Rpc.
  Variable V : venv.
  Variable cap : nat.

  (** the messages on their way to or from a client (zmq, under client.py 297-298 and server.py 239-343) *)
  Definition queue {A} (d : dict string (list A)) (c : string) : list A :=
    match dget d c with Some q => q | None => [] end.

  (** hand one message to the network (zmq, under server.py 343) *)
  Definition deliver (y : sys) (c : string) (p : payload) : sys :=
    if dmem (y_cl y) c && (List.length (queue (y_down y) c) <? cap)%nat then
      mkSys (y_sv y) (y_stack y) (y_dead y) (y_cl y) (y_up y)
            (dset (y_down y) c (queue (y_down y) c ++ [p])) (y_log y)
    else
      mkSys (y_sv y) (y_stack y) (y_dead y) (y_cl y) (y_up y) (y_down y) (y_log y ++ [EvLost c p]).

  (** the log for the statements, of what server.py 252-343 and client.py 297-298, 502-529 do *)
  Definition logged (y : sys) (e : event) : sys :=
    mkSys (y_sv y) (y_stack y) (y_dead y) (y_cl y) (y_up y) (y_down y) (y_log y ++ [e]).

  (** the server's sends while it works on (or finishes) request [m] of [c] with
      outcome [r]: a message to the caller is the reply, others are notices (server.py 325-343, 390-409) *)
  Fixpoint emit (y : sys) (c : string) (m : msg) (r : res pyval) (os : list output) : sys :=
    match os with
    | [] => y
    | Sent to p :: rest =>
        let ev := if String.eqb to c then EvReply c m r p else EvTell to p in
        emit (deliver (logged y ev) to p) c m r rest
    | Hook _ :: rest => emit y c m r rest
    end.

  (** a state changed in one field (of server.py 136-184, client.py 132-171) *)
  Definition set_sv (y : sys) (s : sv) : sys :=
    mkSys s (y_stack y) (y_dead y) (y_cl y) (y_up y) (y_down y) (y_log y).
  (** a state changed in one field (of server.py 136-184, client.py 132-171) *)
  Definition set_stack (y : sys) (k : list activation) : sys :=
    mkSys (y_sv y) k (y_dead y) (y_cl y) (y_up y) (y_down y) (y_log y).
  (** a state changed in one field (of server.py 136-184, client.py 132-171) *)
  Definition set_cl (y : sys) (d : dict string cl) : sys :=
    mkSys (y_sv y) (y_stack y) (y_dead y) d (y_up y) (y_down y) (y_log y).
  (** a state changed in one field (of server.py 136-184, client.py 132-171) *)
  Definition set_up (y : sys) (d : dict string (list frame)) : sys :=
    mkSys (y_sv y) (y_stack y) (y_dead y) (y_cl y) d (y_down y) (y_log y).
  (** a state changed in one field (of server.py 136-184, client.py 132-171) *)
  Definition set_down (y : sys) (d : dict string (list payload)) : sys :=
    mkSys (y_sv y) (y_stack y) (y_dead y) (y_cl y) (y_up y) d (y_log y).
  (** an exception left _process_one: in the main loop it ends run_forever,
      otherwise the enclosing user code sees it (server.py 316-323, 444-454; client.py 494-500) *)
  Definition escaped (y : sys) (x : option exn) : sys :=
    match x, y_stack y with
    | Some _, [] => mkSys (y_sv y) [] true (y_cl y) (y_up y) (y_down y) (y_log y)
    | _, _ => y
    end.

  (** server.py 193-206, 230-236 *)
  Definition user_step (s : sv) (u : user_act) : sv :=
    match u with
    | UName k v => set_names s (dset (sv_names s) k v)
    | UAlloc a => set_st s (mkSst (fst (ostep (ss_o (sv_st s)) (Alloc a))) (ss_boxes (sv_st s)))
    | UFree o => set_st s (mkSst (fst (ostep (ss_o (sv_st s)) (Free o))) (ss_boxes (sv_st s)))
    | UProxy o => set_st s (mkSst (fst (ostep (ss_o (sv_st s)) (GetProxy o true))) (ss_boxes (sv_st s)))
    end.

  (** is the server thread able to read its socket?  In the main loop only while
      running() (server.py 452); inside user code whenever a reentrant client
      waits (client.py 494-500; the check in server.py 256 tests a method object
      and never fails) *)
  Definition can_read (y : sys) : bool :=
    negb (y_dead y) && sv_open (y_sv y) &&
    match y_stack y with [] => negb (sv_closed (y_sv y)) | _ => true end.

  (** client.py 99-171, 227-319, 502-529; server.py 252-343 *)
  Definition ystep (y : sys) (l : label) : sys :=
    match l with
    | Join c ser local st =>
        if dmem (y_cl y) c || negb (ve_utf8 V c) ||
           negb (String.eqb ser "msgpack" || String.eqb ser "json") then y
        else set_down (set_up (set_cl y (dset (y_cl y) c (new_client ser local st)))
               (dset (y_up y) c [])) (dset (y_down y) c [])
    | CSend c action opts rt sync =>
        match dget (y_cl y) c with
        | None => y
        | Some k =>
            if ve_utf8 V action && ve_utf8 V rt then
              let '(k', m, _) := send V k action opts rt sync in
              let y1 := set_cl y (dset (y_cl y) c k') in
              match m with
              | None => y1
              | Some m => logged (set_up y1 (dset (y_up y1) c (queue (y_up y1) c ++ [client_frames m]))) (EvSent c m)
              end
            else y
        end
    | CRecv c =>
        match dget (y_cl y) c, queue (y_down y) c with
        | Some k, p :: rest =>
            let '(k', e) := client_recv V k p in
            logged (set_down (set_cl y (dset (y_cl y) c k')) (dset (y_down y) c rest)) (EvRead c p e)
        | _, _ => y
        end
    | CDrop c rid =>
        match dget (y_cl y) c with
        | None => y
        | Some k => logged (set_cl y (dset (y_cl y) c (drop_future k rid))) (EvDrop c rid)
        end
    | CLocal c st =>
        match dget (y_cl y) c with
        | None => y
        | Some k => set_cl y (dset (y_cl y) c (set_cst k st))
        end
    | SRecv c =>
        match can_read y, queue (y_up y) c with
        | true, f :: rest =>
            let y0 := set_up y (dset (y_up y) c rest) in
            match read_one (ve_utf8 V) c f with
            | Err e => escaped y0 (Some e)
            | Ok (_, m) =>
                let y1 := logged y0 (EvExec c m) in
                match begin_request V (y_sv y1) c m with
                | (s', os, Finished r x) =>
                    escaped (logged (emit (set_sv y1 s') c m r os) (EvDone c m r x)) x
                | (s', os, InCall a _ _ _) => set_stack (emit (set_sv y1 s') c m (Ok VNone) os) (a :: y_stack y1)
                end
            end
        | _, _ => y
        end
    | SUser u => set_sv y (user_step (y_sv y) u)
    | SReturn r =>
        match y_stack y with
        | [] => y
        | a :: rest =>
            let '(s', os, x) := finish_request V (y_sv y) a r in
            escaped (logged (emit (set_stack (set_sv y s') rest) (a_caller a) (a_msg a) r os)
                            (EvDone (a_caller a) (a_msg a) r x)) x
        end
    end.

  (** a server that nobody has talked to, server.py 136-184 *)
  Definition yinit (s : sv) : sys := mkSys s [] false [] [] [] [].
  (** a history of steps (client.py 227-319, 502-529; server.py 252-343) *)
  Fixpoint yrun (y : sys) (ls : list label) : sys :=
    match ls with [] => y | l :: r => yrun (ystep y l) r end.
End Rpc.
