(** Proxies in messages and their options: proxy.py 121-137, serializer.py 185-194,
    client.py 153-154 and 525, server.py 290. *)
From Verif Require Import Py ObjTableModel SerModel FrameModel ServerModel ClientModel ApiModel ProxyModel.

(** proxy.py 121-137 [__getstate__] with serializer.py 116-119: what is sent of a proxy.  The
    options are not part of it (the update is commented out, line 136). *)
Definition getstate (p : px) : pyval := VProxy (x_rec p).

(** serializer.py 185-194: a proxy found in a message.  [opts] is the argument proxy_opts of
    loads(): the client's default_proxy_options (client.py 525) or {} (server.py 290).  The result is
    the object itself when it belongs to the own server [srv]. *)
Definition decode_proxy (E : senv) (opts : list (string * pyval)) (srv : option string) (st : sst) (r : proxyrec)
  : res (pyval + px) :=
  bind (make r []) (fun p =>
    let '(q, o) := set_options p opts in
    bind o (fun _ =>
      if match srv with Some a => String.eqb a (p_addr r) | None => false end
      then bind (unwrap_proxy E st r) (fun v => Ok (inl v))
      else Ok (inr q))).
