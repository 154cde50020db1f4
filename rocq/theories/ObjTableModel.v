(** Model of the proxy reference table of [RPCServer]
    (teleprox/server.py 168-181, 193-228, 364-370) together with the part of the
    Python heap it depends on: [id(obj)] is the memory address of a live object
    and may be used again for another object once the first has been freed. *)
From Verif Require Import Py.

(** Identity of a Python object over the whole history of the process.
    Two different objects have different [obj]s even if they are never alive at
    the same time; [id()] does not have this property. (what [id] at server.py 209, 213 tells apart) *)
Definition obj := nat.

(** server.py 173-181: [_next_object_id], [_next_ref_id], [_proxy_refs], [_proxy_id_map]. *)
Record otable := mkT {
  next_oid : Z;
  next_rid : Z;
  prefs : dict Z (obj * list Z);    (* obj_id: [object, set(refs)] *)
  idmap : dict Z Z                  (* id(obj): obj_id *)
}.

(** server.py 173, 179-181 *)
Definition otable_init : otable := mkT 0 0 [] [].

Section Table.
  Variable id_of : obj -> Z.        (* Python's id() in the current heap *)

  (** server.py 208-214 [_get_object_id] *)
  Definition get_object_id (t : otable) (o : obj) : otable * Z :=
    match dget (idmap t) (id_of o) with
    | Some oid => (t, oid)
    | None =>
        let oid := next_oid t in
        (mkT (next_oid t + 1) (next_rid t) (prefs t) (dset (idmap t) (id_of o) oid), oid)
    end.

  (** server.py 193-206 [get_proxy].  [opts_ok] says whether the keyword
      arguments are all known proxy options; if not, the ObjectProxy
      constructor at line 202 raises KeyError (proxy.py 225-227) after the IDs
      have been taken but before the reference is recorded.  The result is the
      pair (obj_id, ref_id) carried by the new proxy. *)
  Definition get_proxy (opts_ok : bool) (t : otable) (o : obj) : otable * res (Z * Z) :=
    let rid := next_rid t in
    let t1 := mkT (next_oid t) (next_rid t + 1) (prefs t) (idmap t) in
    let '(t2, oid) := get_object_id t1 o in
    if opts_ok then
      let entry := match dget (prefs t2) oid with      (* setdefault(oid, [obj, set()]) *)
                   | Some e => e
                   | None => (o, [])
                   end in
      (mkT (next_oid t2) (next_rid t2)
           (dset (prefs t2) oid (fst entry, sadd rid (snd entry))) (idmap t2),
       Ok (oid, rid))
    else (t2, Err KeyError).

  (** server.py 364-370, action 'delete'.  Every failing subscript, [remove] or
      [del] is a KeyError. *)
  Definition delete_ref (t : otable) (oid rid : Z) : otable * res unit :=
    match dget (prefs t) oid with
    | None => (t, Err KeyError)
    | Some (o, refs) =>
        if smem rid refs then
          let refs' := srem rid refs in
          match refs' with
          | [] =>
              let t1 := mkT (next_oid t) (next_rid t) (ddel (prefs t) oid) (idmap t) in
              if dmem (idmap t1) (id_of o)
              then (mkT (next_oid t1) (next_rid t1) (prefs t1) (ddel (idmap t1) (id_of o)), Ok tt)
              else (t1, Err KeyError)
          | _ :: _ =>
              (mkT (next_oid t) (next_rid t) (dset (prefs t) oid (o, refs')) (idmap t), Ok tt)
          end
        else (t, Err KeyError)
    end.
End Table.

(** server.py 219-224, the part of [unwrap_proxy] before the attribute loop; the reference
    ID of the proxy is not looked at. *)
Definition lookup_oid (t : otable) (oid rid : Z) : res obj :=
  match dget (prefs t) oid with
  | Some (o, _) => Ok o
  | None => Err KeyError
  end.

(** * Heap

    Library behaviour: live objects have pairwise different addresses; an object
    is only freed when nothing refers to it, in particular not while it is in
    [_proxy_refs]; the allocator may return any address not in use. *)
(** addresses: id(obj), server.py 209, 213 *)
Record heap := mkH { addrs : dict obj Z; fresh_obj : obj }.

(** addresses: id(obj), server.py 209, 213 *)
Definition id_in (h : heap) (o : obj) : Z :=
  match dget (addrs h) o with Some a => a | None => -1 end.  (* only used for live objects *)

(** the table of server.py 173-181 and the heap *)
Record ostate := mkS { tab : otable; hp : heap }.
(** the table of server.py 173-181 and the heap *)
Definition ostate_init : ostate := mkS otable_init (mkH [] O).

(** an entry of _proxy_refs holds the object, server.py 203 *)
Definition held (t : otable) (o : obj) : bool :=
  existsb (fun e => Nat.eqb (fst (snd e)) o) (prefs t).

(** the calls of server.py 193-228, 364-370 and the program's own allocations *)
Inductive oop :=
| Alloc (a : Z)                       (* the program creates an object; it lands at address a *)
| Free (o : obj)                      (* Python frees an object nothing refers to *)
| GetProxy (o : obj) (opts_ok : bool)
| Delete (oid rid : Z)
| Use (oid rid : Z).                  (* unwrap_proxy of a proxy with these IDs *)

(** the calls of server.py 193-228, 364-370 and the program's own allocations *)
Inductive oout :=
| ONothing                            (* the environment could not do this now *)
| OAlloc (o : obj)
| OFreed
| OProxy (oid rid : Z)
| ODeleted
| OObj (o : obj)
| OErr (e : exn).

(** One event.  Environment moves that are impossible in the current state
    (allocating at an occupied address, freeing a referenced object, proxying an
    object that does not exist) do nothing. (server.py 193-228, 364-370) *)
Definition ostep (s : ostate) (op : oop) : ostate * oout :=
  match op with
  | Alloc a =>
      if existsb (fun e => Z.eqb (snd e) a) (addrs (hp s)) then (s, ONothing)
      else let o := fresh_obj (hp s) in
           (mkS (tab s) (mkH (dset (addrs (hp s)) o a) (S o)), OAlloc o)
  | Free o =>
      if dmem (addrs (hp s)) o && negb (held (tab s) o)
      then (mkS (tab s) (mkH (ddel (addrs (hp s)) o) (fresh_obj (hp s))), OFreed)
      else (s, ONothing)
  | GetProxy o ok =>
      if dmem (addrs (hp s)) o then
        let '(t', r) := get_proxy (id_in (hp s)) ok (tab s) o in
        (mkS t' (hp s), match r with Ok (oid, rid) => OProxy oid rid | Err e => OErr e end)
      else (s, ONothing)
  | Delete oid rid =>
      let '(t', r) := delete_ref (id_in (hp s)) (tab s) oid rid in
      (mkS t' (hp s), match r with Ok _ => ODeleted | Err e => OErr e end)
  | Use oid rid =>
      (s, match lookup_oid (tab s) oid rid with Ok o => OObj o | Err e => OErr e end)
  end.

(** Histories: the trace of events with their outcomes, oldest first.
    (a history of calls (server.py 193-228, 364-370)) *)
Definition otrace := list (oop * oout).

(** a history of calls (server.py 193-228, 364-370) *)
Fixpoint orun (s : ostate) (ops : list oop) : ostate * otrace :=
  match ops with
  | [] => (s, [])
  | op :: rest =>
      let '(s1, out) := ostep s op in
      let '(s2, tr) := orun s1 rest in
      (s2, (op, out) :: tr)
  end.
