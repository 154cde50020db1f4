(** Specification vocabulary shared by the client and server properties: which
    values a serializer is supposed to carry, and what arrives. *)
From Verif Require Import Py ObjTableModel SerModel SerSpec FrameModel ServerModel ClientModel.

(** Assumptions about the world outside teleprox: serializable types and ints
    behave (see [good_env]), json can nest at least eight levels, and the names
    of the two serializers are valid UTF-8. *)
Record good_venv (V : venv) : Prop := {
  gv_ser : good_env (ve_ser V);
  gv_limit : (8 <= ve_limit V)%nat;
  gv_msgpack : ve_utf8 V "msgpack" = true;
  gv_json : ve_utf8 V "json" = true
}.

(** serializer [t] can carry [v] *)
Definition supported (V : venv) (t : string) (v : pyval) : Prop :=
  if String.eqb t "msgpack" then sendable (ve_ser V) v /\ (mdepth (ve_ser V) v <= 512)%nat
  else jsendable (ve_ser V) v /\ (jdepth (ve_ser V) v <= ve_limit V)%nat.
(** how [v] looks after a trip through serializer [t] *)
Definition seen (V : venv) (t : string) (v : pyval) : pyval :=
  if String.eqb t "msgpack" then v else jnf (ve_ser V) v.

(** a value without proxies and without objects that need one *)
Definition plain_value (V : venv) (v : pyval) : Prop := objs (ve_ser V) v = [] /\ proxies v = [].

(** a result that fits into a reply (which nests one deeper) *)
Definition carried (V : venv) (t : string) (v : pyval) : Prop :=
  if String.eqb t "msgpack" then sendable (ve_ser V) v /\ (mdepth (ve_ser V) v <= 511)%nat
  else jsendable (ve_ser V) v /\ (S (jdepth (ve_ser V) v) <= ve_limit V)%nat.

(** the message by which a server says goodbye *)
Definition notice : pyval := fields [("action", VStr "disconnect")].

(** results that come back as they are: not requested as a proxy, supported, and
    free of objects that need proxies *)
Definition simple (V : venv) (t rt : string) (v : pyval) : Prop :=
  rt <> "proxy" /\ carried V t v /\ plain_value V v.

(** what the caller gets to see, given what the request [m] produced at the server *)
Definition answers (V : venv) (t : string) (m : msg) (r : res pyval) (o : outcome) : Prop :=
  match r with
  | Err e => o = Err (RemoteCallException (exn_name e))
  | Ok v => (simple V t (m_rt m) v -> o = Ok (seen V t v)) /\
            ((exists v', o = Ok v') \/ (exists x, o = Err (RemoteCallException x)))
  end.

(** the server can answer client [c], which uses serializer [t] *)
Definition served (V : venv) (s : sv) (c t : string) : Prop :=
  ve_utf8 V c = true /\ dget (sv_clients s) c = Some t /\ smem t (sv_sers s) = true /\ sv_open s = true.
