(** Specification vocabulary for the life of proxies in whole runs. *)
From Verif Require Import Py ObjTableModel SerModel FrameModel ServerModel ClientModel RpcModel RpcSpec.

(** all objects that occur anywhere in a value *)
Fixpoint mentions (v : pyval) : list obj :=
  match v with
  | VObj o => [o]
  | VList l | VTuple l => flat_map mentions l
  | VDict d => flat_map (fun kv => mentions (fst kv) ++ mentions (snd kv)) d
  | VSub _ b => mentions b
  | _ => []
  end.

(** they exist, and are not themselves the plain values some proxies stand for *)
Definition existing (st : sst) (v : pyval) : Prop :=
  forall o, In o (mentions v) -> dmem (addrs (hp (ss_o st))) o = true /\ dget (ss_boxes st) o = None.

(** What Python guarantees: the objects in the outcome of a request exist at the
    moment the server turns it into a reply. *)
Fixpoint results_exist (V : venv) (cap : nat) (y : sys) (ls : list label) : Prop :=
  match ls with
  | [] => True
  | l :: r =>
      (forall c m v x, In (EvDone c m (Ok v) x) (skipn (List.length (y_log y)) (y_log (ystep V cap y l))) ->
         existing (sv_st (y_sv y)) v) /\
      results_exist V cap (ystep V cap y l) r
  end.

(** [m] is a request to delete the proxy with these IDs *)
Definition asks_delete (V : venv) (m : msg) (oid rid : Z) : Prop :=
  m_action m = "delete" /\ exists s d, options V s m = Ok (VDict d) /\
    kget d (VStr "obj_id") = Some (VInt oid) /\ kget d (VStr "ref_id") = Some (VInt rid).

(** results that come back as a proxy: asked for, or an object that is not serializable *)
Definition by_proxy (V : venv) (m : msg) (v : pyval) : Prop :=
  m_rt m = "proxy" \/ exists o, v = VObj o /\ ser_ok (ve_ser V) v = false.
