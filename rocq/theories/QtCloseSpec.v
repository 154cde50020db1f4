(** Specification vocabulary for closed servers. *)
From Verif Require Import Py SerModel FrameModel ServerModel WireSpec.

(** two servers that differ only in whether they count as closed *)
Definition twins (a b : sv) : Prop :=
  sv_addr a = sv_addr b /\ sv_sers a = sv_sers b /\ sv_clients a = sv_clients b /\ sv_names a = sv_names b /\ sv_st a = sv_st b /\ sv_open a = sv_open b.
Definition asks_close (x : string * msg * res pyval) : Prop := m_action (snd (fst x)) = "close"%string.
(** the messages [o] tell client [c], which uses serializer [t], that the server has closed *)
Definition tells (V : venv) (o : list output) (c t : string) : Prop :=
  exists p, In (Sent c p) o /\ forall srv st, loads V t srv st p = Ok notice.
(** every client the server knows uses a serializer the server has; each RPCClient asks in UTF-8
    and has pinged before it asks the server to close *)
Definition fit_to_close (V : venv) (s : sv) (c : string) (m : msg) : Prop :=
  ve_utf8 V c = true /\ sv_open s = true /\ (forall c' t, In (c', t) (sv_clients s) -> smem t (sv_sers s) = true) /\
  dget (sv_clients s) c = Some (m_ser m) /\ m_action m = "close"%string /\ m_opts m = PEmpty /\ m_rt m <> "proxy"%string.
