(** Specification vocabulary for whole runs: what the event log says. *)
From Verif Require Import Py ObjTableModel SerModel FrameModel ServerModel ClientModel RpcModel.

(** messages of client [c], in the order in which they were sent / executed *)
Definition sent_by (c : string) (log : list event) : list msg :=
  flat_map (fun e => match e with EvSent c' m => if String.eqb c' c then [m] else [] | _ => [] end) log.
Definition executed_for (c : string) (log : list event) : list msg :=
  flat_map (fun e => match e with EvExec c' m => if String.eqb c' c then [m] else [] | _ => [] end) log.

(** disconnect notices sent to client [c] *)
Definition told (c : string) (log : list event) : list payload :=
  flat_map (fun e => match e with EvTell c' p => if String.eqb c' c then [p] else [] | _ => [] end) log.

(** messages sent to client [c] in reply to its request number [rid] *)
Definition replied (c : string) (rid : Z) (log : list event) : list payload :=
  flat_map (fun e => match e with EvReply c' m _ p => if String.eqb c' c && (m_req m =? rid) then [p] else [] | _ => [] end) log.

(** everything the server did: requests executed, replies and notices sent *)
Definition server_events (log : list event) : list event :=
  filter (fun e => match e with EvExec _ _ | EvReply _ _ _ _ | EvTell _ _ => true | _ => false end) log.

(** every client that joins uses a serializer the server has *)
Definition joins_supported (sers : list string) (ls : list label) : Prop :=
  Forall (fun l => match l with Join _ ser _ _ => smem ser sers = true | _ => True end) ls.

(** a server before any traffic *)
Definition fresh_server (s : sv) : Prop :=
  sv_clients s = [] /\ sv_closed s = false /\ sv_open s = true /\ sv_reg s = true.

(** One client on its own, receiving arbitrary data.  [client_run] returns what it
    transmitted as well. *)
Inductive cop :=
| OSend (action : string) (opts : option pyval) (rt : string) (sync : sync_mode)
| ORecv (p : payload)
| ODrop (rid : Z)
| OLocal (st : sst).
Definition cop_step (V : venv) (c : cl) (o : cop) : cl * list msg :=
  match o with
  | OSend a opts rt s => let '(c', m, _) := send V c a opts rt s in (c', match m with Some m => [m] | None => [] end)
  | ORecv p => (fst (client_recv V c p), [])
  | ODrop rid => (drop_future c rid, [])
  | OLocal st => (set_cst c st, [])
  end.
Fixpoint client_run (V : venv) (c : cl) (os : list cop) : cl * list msg :=
  match os with
  | [] => (c, [])
  | o :: r => let '(c1, m1) := cop_step V c o in let '(c2, m2) := client_run V c1 r in (c2, m1 ++ m2)
  end.

(** pending / finished requests of a client *)
Definition pending (c : cl) (rid : Z) : Prop := In rid (dkeys (c_futs c)).
Definition finished (c : cl) (rid : Z) (o : outcome) : Prop := dget (c_done c) rid = Some o.

(** no message is under way and no request is being worked on *)
Definition quiescent (y : sys) : Prop :=
  (forall c, queue (y_up y) c = []) /\ (forall c, queue (y_down y) c = []) /\ y_stack y = [].

(** The options of a request, as the server reads them. *)
Definition options (V : venv) (s : sv) (m : msg) : res pyval :=
  match m_opts m with
  | PEmpty => Ok VNone
  | p => loads V (m_ser m) (Some (sv_addr s)) (sv_st s) p
  end.

(** the first message of client [c] that the server has not started on *)
Definition next_request (y : sys) (c : string) : option msg :=
  nth_error (sent_by c (y_log y)) (List.length (executed_for c (y_log y))).

(** The assignment to a published name that a step of the system makes, if any:
    server[k] = v, or the server (if its socket is open) executing a set_item request. *)
Definition assignment (V : venv) (y : sys) (l : label) : option (string * pyval) :=
  match l with
  | SUser (UName k v) => Some (k, v)
  | SRecv c =>
      match sv_open (y_sv y), next_request y c with
      | true, Some m =>
          if String.eqb (m_action m) "set_item" then
            match options V (y_sv y) m with
            | Ok (VDict d) =>
                match kget d (VStr "name"), kget d (VStr "obj") with
                | Some (VStr k), Some v => Some (k, v)
                | _, _ => None
                end
            | _ => None
            end
          else None
      | _, _ => None
      end
  | _ => None
  end.
(** the value most recently assigned to [k], [d] being the one before the run *)
Fixpoint latest (V : venv) (cap : nat) (y : sys) (ls : list label) (k : string) (d : option pyval) : option pyval :=
  match ls with
  | [] => d
  | l :: r =>
      latest V cap (ystep V cap y l) r k
        (match assignment V y l with
         | Some (k', v) => if String.eqb k' k then Some v else d
         | None => d
         end)
  end.

(** steps that only work off what is under way: the server reads a message, a
    client reads one, user code returns *)
Definition delivery (l : label) : Prop :=
  match l with SRecv _ | CRecv _ | SReturn _ => True | _ => False end.
