(** teleprox/serializer.py: values, encode/decode, and the traversals done by
    msgpack and json around them.

    Library behaviour:
    - msgpack.dumps(use_bin_type=True, strict_types=True, default=f) packs values
      whose type is exactly None, bool, int (in -2^63 .. 2^64-1), float, str,
      bytes, list or dict; anything else (including larger ints and subclasses) is
      replaced once by f(value); nesting is limited to 511 levels below the top
      (ValueError).  The wire format itself is modelled as a tree.
    - msgpack.loads (>= 1.0: raw=False, strict_map_key=True, use_list=True) refuses
      map keys that are not str or bytes (ValueError) and calls object_hook on
      every map, innermost first.
    - json.dumps accepts None, bool, int, float, str, list, tuple, dict and their
      subclasses; keys may be str, int, float, bool or None and are converted to
      strings; anything else goes through default().  json.loads calls object_hook
      on every object, innermost first; of duplicate keys the last one wins.
    - pickle, numpy dtype parsing, getattr, type names and float repr are parameters. *)
From Verif Require Import Py ObjTableModel DateTimeModel NdArrayModel Base64Model.
From Coq Require Import DecimalString.

(** ** Python values *)

(** numpy scalars, serializer.py 130-144 *)
Inductive npkind := KBool | KInt | KFloat | KComplex | KOther.
(** np.dtype: its str(), item size, kind and whether it can be exported through
    the buffer protocol (datetime64 cannot). *)
Record dtype := mkDtype { dt_str : string; dt_item : nat; dt_kind : npkind; dt_buffer : bool }.
(** numpy scalars, serializer.py 130-144 *)
Inductive npval := NBool (b : bool) | NInt (z : Z) | NFloat (f : Z) | NComplex.

(** The state of an ObjectProxy that is sent (proxy.py 121-137). *)
Record proxyrec := mkP { p_addr : string; p_oid : Z; p_rid : Z; p_type : string; p_attrs : list string }.

(** what serializer.py 96-153 distinguishes *)
Inductive pyval :=
| VNone
| VBool (b : bool)
| VInt (z : Z)
| VFloat (f : Z)                       (* a double, by its bit pattern *)
| VStr (s : string)
| VBytes (s : string)
| VList (l : list pyval)
| VTuple (l : list pyval)
| VDict (d : list (pyval * pyval))     (* insertion order *)
| VDatetime (t : datetime)
| VDate (d : date)
| VNdarray (d : dtype) (shape : list nat) (data : string)  (* elements in C order, see NdArrayModel *)
| VNp (d : dtype) (v : npval)          (* numpy scalar *)
| VDtype (d : dtype)
| VProxy (p : proxyrec)
| VSub (cls : string) (v : pyval)      (* instance of a subclass of v's type with v's content *)
| VObj (o : obj).                      (* any other Python object *)

(** isinstance looks through subclasses (isinstance, serializer.py 96-153) *)
Fixpoint base_of (v : pyval) : pyval := match v with VSub _ b => base_of b | _ => v end.

(** serializer.py 32 *)
Definition encode_key : string := "___type_name___".

(** pieces of the values made at serializer.py 98-150 *)
Definition bytes_of (s : string) : list ascii := list_ascii_of_string s.
(** pieces of the values made at serializer.py 98-150 *)
Definition of_bytes (l : list ascii) : string := string_of_list_ascii l.

(** pieces of the values made at serializer.py 98-150 *)
Definition vlist_ints (l : list nat) : list pyval := map (fun n => VInt (Z.of_nat n)) l.
(** pieces of the values made at serializer.py 98-150 *)
Definition vstrs (l : list string) : list pyval := map VStr l.
(** pieces of the values made at serializer.py 98-150 *)
Definition fields (l : list (string * pyval)) : pyval := VDict (map (fun '(k, v) => (VStr k, v)) l).

(** State of the sending/receiving thread's RPC server, if it has one: its
    address, its reference table and the heap; [boxes] gives the value of
    objects that are plain values (anything can be sent by proxy). (serializer.py 70-94) *)
Record sst := mkSst { ss_o : ostate; ss_boxes : dict obj pyval }.

(** Everything outside teleprox that (de)serialization depends on. *)
Record senv := mkEnv {
  ser_ok : pyval -> bool;            (* isinstance(obj, self._serialize_types) *)
  pickle_dumps : pyval -> res string;
  pickle_loads : string -> res pyval;
  np_dtype : string -> res dtype;    (* np.dtype(s) *)
  exec_dtype : string -> res dtype;  (* np.dtype(eval(s)), serializer.py 167-171 *)
  type_str : pyval -> string;        (* str(type(obj)) *)
  getattr_of : pyval -> string -> res pyval;
  float_repr : Z -> string
}.

Section Ser.
  Variable E : senv.

  (** address for the next new object: one above all used ones (any unused
      address would do) (id() of a new object, server.py 208-214) *)
  Definition fresh_addr (h : heap) : Z :=
    1 + fold_right Z.max 0 (map snd (addrs h)).

  (** server.get_proxy(obj) (server.py 193-206) for a value: objects have an
      identity; a plain value is a new Python object of its own. *)
  Definition proxy_value (addr : string) (st : sst) (v : pyval) : sst * res pyval :=
    match v with
    | VObj o =>
        let '(t', r) := get_proxy (id_in (hp (ss_o st))) true (tab (ss_o st)) o in
        (mkSst (mkS t' (hp (ss_o st))) (ss_boxes st),
         match r with
         | Ok (oid, rid) => Ok (VProxy (mkP addr oid rid (type_str E v) []))
         | Err e => Err e
         end)
    | _ =>
        let h := hp (ss_o st) in
        let o := fresh_obj h in
        let h' := mkH (dset (addrs h) o (fresh_addr h)) (S o) in
        let '(t', r) := get_proxy (id_in h') true (tab (ss_o st)) o in
        (mkSst (mkS t' h') (dset (ss_boxes st) o v),
         match r with
         | Ok (oid, rid) => Ok (VProxy (mkP addr oid rid (type_str E v) []))
         | Err e => Err e
         end)
    end.

  (** proxy.py 121-137 [__getstate__] as serializer.py 117-119 sends it *)
  Definition proxy_state (p : proxyrec) : pyval :=
    fields [(encode_key, VStr "proxy"); ("rpc_addr", VStr (p_addr p)); ("obj_id", VInt (p_oid p));
            ("ref_id", VInt (p_rid p)); ("type_str", VStr (p_type p));
            ("attributes", VTuple (vstrs (p_attrs p)))].

  (** serializer.py 108-154, after the proxy decision *)
  Definition encode_value (v : pyval) : res pyval :=
    match base_of v with
    | VNdarray d shape data =>
        Ok (fields [(encode_key, VStr "ndarray"); ("data", VBytes data);
                    ("dtype", VStr (dt_str d)); ("shape", VTuple (vlist_ints shape))])
    | VProxy p => Ok (proxy_state p)
    | VDatetime t => Ok (fields [(encode_key, VStr "datetime"); ("data", VStr (strftime_datetime t))])
    | VDate d => Ok (fields [(encode_key, VStr "date"); ("data", VStr (strftime_date d))])
    | VTuple l => Ok (fields [(encode_key, VStr "tuple"); ("data", VList l)])
    | VNone => Ok (fields [(encode_key, VStr "none")])
    | VNp d n =>
        bind (match n with
              | NBool b => Ok (VBool b)
              | NInt z => Ok (VInt z)
              | NFloat f => Ok (VFloat f)
              | NComplex => Err TypeError
              end)
          (fun val => Ok (fields [(encode_key, VStr "np_number"); ("dtype", VDtype d); ("value", val)]))
    | _ => bind (pickle_dumps E v)
             (fun s => Ok (fields [(encode_key, VStr "pickle"); ("pickle_str", VBytes s)]))
    end.

  (** serializer.py 96-154 [Serializer.encode].  [srv] is the address of
      self.server, if there is one. *)
  Definition encode (srv : option string) (st : sst) (v : pyval) : sst * res pyval :=
    if ser_ok E v then (st, encode_value v)
    else match srv with
         | None => (st, Err TypeError)
         | Some addr =>
             let '(st', r) := proxy_value addr st v in
             (st', bind r encode_value)
         end.

  (** ** Decoding *)

  (** dicts with keys of any kind (library), for dct.pop at serializer.py 160 *)
  Definition key_eqb (a b : pyval) : bool :=
    match a, b with
    | VStr x, VStr y => String.eqb x y
    | VBytes x, VBytes y => String.eqb x y
    | _, _ => false
    end.
  (** dicts with keys of any kind (library), for dct.pop at serializer.py 160 *)
  Fixpoint kget (d : list (pyval * pyval)) (k : pyval) : option pyval :=
    match d with
    | [] => None
    | (k', v) :: r => if key_eqb k' k then Some v else kget r k
    end.
  (** dicts with keys of any kind (library), for dct.pop at serializer.py 160 *)
  Fixpoint kset (d : list (pyval * pyval)) (k v : pyval) : list (pyval * pyval) :=
    match d with
    | [] => [(k, v)]
    | (k', v') :: r => if key_eqb k' k then (k', v) :: r else (k', v') :: kset r k v
    end.
  (** dicts with keys of any kind (library), for dct.pop at serializer.py 160 *)
  Fixpoint kdel (d : list (pyval * pyval)) (k : pyval) : list (pyval * pyval) :=
    match d with
    | [] => []
    | (k', v') :: r => if key_eqb k' k then r else (k', v') :: kdel r k
    end.
  (** dct[name] (library), serializer.py 166-194 *)
  Definition field (d : list (pyval * pyval)) (k : string) : res pyval :=
    match kget d (VStr k) with Some v => Ok v | None => Err KeyError end.

  (** the shape, serializer.py 172 *)
  Fixpoint nats_of (l : list pyval) : option (list nat) :=
    match l with
    | [] => Some []
    | VInt z :: r => if z <? 0 then None
                     else match nats_of r with Some ns => Some (Z.to_nat z :: ns) | None => None end
    | _ :: _ => None
    end.
  (** the attributes of a proxy, serializer.py 187 *)
  Fixpoint strs_of (l : list pyval) : option (list string) :=
    match l with
    | [] => Some []
    | VStr s :: r => match strs_of r with Some ss => Some (s :: ss) | None => None end
    | _ :: _ => None
    end.

  (** np.frombuffer(data, dtype).reshape(shape), as a value.  Anything but bytes,
      a dtype and a list or tuple of non-negative ints is a TypeError here
      (simplification: numpy also accepts a bare int and -1). (serializer.py 172) *)
  Definition make_array (d : dtype) (data : pyval) (shape : pyval) : res pyval :=
    match data with
    | VBytes b =>
        match (match shape with VList l => nats_of l | VTuple l => nats_of l | _ => None end) with
        | Some sh =>
            bind (frombuffer_reshape (bytes_of b) (dt_item d) sh)
              (fun _ => Ok (VNdarray d sh b))
        | None => Err TypeError
        end
    | _ => Err TypeError
    end.

  (** server.py 216-228 [unwrap_proxy] *)
  Fixpoint getattrs (v : pyval) (attrs : list string) : res pyval :=
    match attrs with
    | [] => Ok v
    | a :: r => bind (getattr_of E v a) (fun v' => getattrs v' r)
    end.
  (** what an ID stands for, server.py 221 *)
  Definition unbox (st : sst) (o : obj) : pyval :=
    match dget (ss_boxes st) o with Some v => v | None => VObj o end.
  (** server.py 216-228 *)
  Definition unwrap_proxy (st : sst) (p : proxyrec) : res pyval :=
    bind (lookup_oid (tab (ss_o st)) (p_oid p) (p_rid p)) (fun o => getattrs (unbox st o) (p_attrs p)).

  (** serializer.py 186-194.  Simplification: a 'proxy' dict must have exactly the
      fields that encode writes; anything else is a TypeError. *)
  Definition decode_proxy (srv : option string) (st : sst) (d : list (pyval * pyval)) : res pyval :=
    match field d "rpc_addr", field d "obj_id", field d "ref_id", field d "type_str", field d "attributes" with
    | Ok (VStr addr), Ok (VInt oid), Ok (VInt rid), Ok (VStr ty), Ok at_ =>
        match (match at_ with VTuple l => strs_of l | VList l => strs_of l | _ => None end) with
        | Some attrs =>
            let p := mkP addr oid rid ty attrs in
            match srv with
            | Some a => if String.eqb addr a then unwrap_proxy st p else Ok (VProxy p)
            | None => Ok (VProxy p)
            end
        | None => Err TypeError
        end
    | _, _, _, _, _ => Err TypeError
    end.

  (** dtype.type(value), serializer.py 176 *)
  Definition np_make (d : dtype) (v : pyval) : res pyval :=
    match dt_kind d, v with
    | KBool, VBool b => Ok (VNp d (NBool b))
    | KInt, VInt z => Ok (VNp d (NInt z))
    | KFloat, VFloat f => Ok (VNp d (NFloat f))
    | _, _ => Err TypeError
    end.

  (** serializer.py 156-195 [Serializer.decode] on a dict *)
  Definition decode (srv : option string) (st : sst) (d0 : list (pyval * pyval)) : res pyval :=
    let d := kdel d0 (VStr encode_key) in
    match kget d0 (VStr encode_key) with
    | Some (VStr t) =>
        if String.eqb t "ndarray" then
          bind (field d "dtype") (fun dt =>
            match dt with
            | VStr s =>
                bind (if prefix "[" s then exec_dtype E s else np_dtype E s) (fun dd =>
                bind (field d "data") (fun data => bind (field d "shape") (fun sh => make_array dd data sh)))
            | _ => Err AttributeError
            end)
        else if String.eqb t "pickle" then
          bind (field d "pickle_str") (fun s =>
            match s with VBytes b => pickle_loads E b | _ => Err TypeError end)
        else if String.eqb t "np_number" then
          bind (field d "dtype") (fun dt =>
            match dt with
            | VDtype dd => bind (field d "value") (fun v => np_make dd v)
            | _ => Err AttributeError
            end)
        else if String.eqb t "datetime" then
          bind (field d "data") (fun s =>
            match s with VStr x => bind (strptime_datetime x) (fun t => Ok (VDatetime t)) | _ => Err TypeError end)
        else if String.eqb t "date" then
          bind (field d "data") (fun s =>
            match s with VStr x => bind (strptime_date x) (fun t => Ok (VDate t)) | _ => Err TypeError end)
        else if String.eqb t "tuple" then
          bind (field d "data") (fun s =>
            match s with VList l => Ok (VTuple l) | VTuple l => Ok (VTuple l) | _ => Err TypeError end)
        else if String.eqb t "none" then Ok VNone
        else if String.eqb t "proxy" then decode_proxy srv st d
        else Ok (VDict d)
    | _ => Ok (VDict d)
    end.

  (** ** msgpack *)

  (** what msgpack transports (library), serializer.py 244 *)
  Inductive wire :=
  | WNil | WBool (b : bool) | WInt (z : Z) | WFloat (f : Z) | WStr (s : string) | WBin (s : string)
  | WArr (l : list wire) | WMap (l : list (wire * wire)).

  (** integers that msgpack packs (library), serializer.py 244 *)
  Definition int_fits (z : Z) : bool := (- 2 ^ 63 <=? z) && (z <? 2 ^ 64).

  Section Pack.
    Variable rec : sst -> pyval -> sst * res wire.

    (** msgpack on lists and maps (library), serializer.py 244 *)
    Fixpoint pack_list (st : sst) (l : list pyval) : sst * res (list wire) :=
      match l with
      | [] => (st, Ok [])
      | v :: r =>
          let '(st1, w) := rec st v in
          match w with
          | Err e => (st1, Err e)
          | Ok w =>
              let '(st2, ws) := pack_list st1 r in
              (st2, bind ws (fun ws => Ok (w :: ws)))
          end
      end.
    (** msgpack on lists and maps (library), serializer.py 244 *)
    Fixpoint pack_pairs (st : sst) (l : list (pyval * pyval)) : sst * res (list (wire * wire)) :=
      match l with
      | [] => (st, Ok [])
      | (k, v) :: r =>
          let '(st1, wk) := rec st k in
          match wk with
          | Err e => (st1, Err e)
          | Ok wk =>
              let '(st2, wv) := rec st1 v in
              match wv with
              | Err e => (st2, Err e)
              | Ok wv =>
                  let '(st3, ws) := pack_pairs st2 r in
                  (st3, bind ws (fun ws => Ok ((wk, wv) :: ws)))
              end
          end
      end.
    (** msgpack Packer._pack: the types packed directly ([None]: not one of them) (library, serializer.py 244) *)
    Definition pack_native (st : sst) (v : pyval) : option (sst * res wire) :=
      match v with
      | VNone => Some (st, Ok WNil)
      | VBool b => Some (st, Ok (WBool b))
      | VInt z => if int_fits z then Some (st, Ok (WInt z)) else None
      | VFloat f => Some (st, Ok (WFloat f))
      | VStr s => Some (st, Ok (WStr s))
      | VBytes s => Some (st, Ok (WBin s))
      | VList l => let '(st', r) := pack_list st l in Some (st', bind r (fun ws => Ok (WArr ws)))
      | VDict d => let '(st', r) := pack_pairs st d in Some (st', bind r (fun ws => Ok (WMap ws)))
      | _ => None
      end.
  End Pack.

  (** msgpack Packer._pack with default=self.encode; [n] is nest_limit + 1 (library, serializer.py 244) *)
  Fixpoint pack (n : nat) (srv : option string) (st : sst) (v : pyval) : sst * res wire :=
    match n with
    | O => (st, Err ValueError)
    | S n' =>
        match pack_native (pack n' srv) st v with
        | Some r => r
        | None =>
            let '(st1, e) := encode srv st v in
            match e with
            | Err x => (st1, Err x)
            | Ok v' =>
                match pack_native (pack n' srv) st1 v' with
                | Some r => r
                | None => (st1, Err TypeError)
                end
            end
        end
    end.

  (** serializer.py 239-244 [MsgpackSerializer.dumps] *)
  Definition msgpack_dumps (srv : option string) (st : sst) (v : pyval) : sst * res wire :=
    pack 512 srv st v.

  (** strict_map_key of msgpack (library), serializer.py 259 *)
  Definition key_ok (k : pyval) : bool := match k with VStr _ => true | VBytes _ => true | _ => false end.
  (** strict_map_key of msgpack (library), serializer.py 259 *)
  Definition map_item (d : list (pyval * pyval)) (k v : pyval) : res (list (pyval * pyval)) :=
    if key_ok k then Ok (kset d k v) else Err ValueError.

  (** msgpack.loads with object_hook=self.decode; serializer.py 246-259 [MsgpackSerializer.loads] *)
  Fixpoint unpack (srv : option string) (st : sst) (w : wire) : res pyval :=
    match w with
    | WNil => Ok VNone
    | WBool b => Ok (VBool b)
    | WInt z => Ok (VInt z)
    | WFloat f => Ok (VFloat f)
    | WStr s => Ok (VStr s)
    | WBin s => Ok (VBytes s)
    | WArr l =>
        bind ((fix ul (l : list wire) : res (list pyval) :=
                 match l with
                 | [] => Ok []
                 | x :: r => bind (unpack srv st x) (fun v => bind (ul r) (fun vs => Ok (v :: vs)))
                 end) l) (fun vs => Ok (VList vs))
    | WMap l =>
        bind ((fix um (l : list (wire * wire)) (d : list (pyval * pyval)) : res (list (pyval * pyval)) :=
                 match l with
                 | [] => Ok d
                 | (k, x) :: r =>
                     bind (unpack srv st k) (fun kv => bind (unpack srv st x) (fun v =>
                       bind (map_item d kv v) (fun d' => um r d')))
                 end) l []) (fun d => decode srv st d)
    end.

  (** ** JSON *)

  (** what JSON transports (library), serializer.py 286 *)
  Inductive json :=
  | JNull | JBool (b : bool) | JInt (z : Z) | JFloat (f : Z) | JStr (s : string)
  | JArr (l : list json) | JObj (l : list (string * json)).

  (** decimal digits of an int (library), as for dict keys at serializer.py 286 *)
  Definition str_of_Z (z : Z) : string := NilZero.string_of_int (Z.to_int z).

  (** json.dumps: conversion of dict keys; TypeError otherwise (library, serializer.py 286) *)
  Definition json_key (k : pyval) : res string :=
    match base_of k with
    | VStr s => Ok s
    | VFloat f => Ok (float_repr E f)
    | VNp d (NFloat f) => if String.eqb (dt_str d) "float64" then Ok (float_repr E f) else Err TypeError
    | VBool true => Ok "true"
    | VBool false => Ok "false"
    | VNone => Ok "null"
    | VInt z => Ok (str_of_Z z)
    | _ => Err TypeError
    end.

  (** serializer.py 293-309 [JsonSerializer.encode].  np.ndarray.data fails for
      dtypes without buffer export (ValueError). *)
  Definition jencode (srv : option string) (st : sst) (v : pyval) : sst * res pyval :=
    match base_of v with
    | VNdarray d shape data =>
        (st, if dt_buffer d
             then Ok (fields [(encode_key, VStr "ndarray"); ("data", VStr (of_bytes (b64encode (bytes_of data))));
                              ("dtype", VStr (dt_str d)); ("shape", VTuple (vlist_ints shape))])
             else Err ValueError)
    | VBytes s =>
        (st, Ok (fields [(encode_key, VStr "bytes"); ("data", VStr (of_bytes (b64encode (bytes_of s))))]))
    | VNone => (st, Ok VNone)
    | _ => encode srv st v
    end.

  Section JPack.
    Variable rec : sst -> pyval -> sst * res json.
    (** json on lists and dicts (library), serializer.py 286 *)
    Fixpoint j_list (st : sst) (l : list pyval) : sst * res (list json) :=
      match l with
      | [] => (st, Ok [])
      | v :: r =>
          let '(st1, w) := rec st v in
          match w with
          | Err e => (st1, Err e)
          | Ok w => let '(st2, ws) := j_list st1 r in (st2, bind ws (fun ws => Ok (w :: ws)))
          end
      end.
    (** json on lists and dicts (library), serializer.py 286 *)
    Fixpoint j_pairs (st : sst) (l : list (pyval * pyval)) : sst * res (list (string * json)) :=
      match l with
      | [] => (st, Ok [])
      | (k, v) :: r =>
          match json_key k with
          | Err e => (st, Err e)
          | Ok ks =>
              let '(st2, wv) := rec st v in
              match wv with
              | Err e => (st2, Err e)
              | Ok wv => let '(st3, ws) := j_pairs st2 r in (st3, bind ws (fun ws => Ok ((ks, wv) :: ws)))
              end
          end
      end.
    (** json encoder: the types written directly (library, serializer.py 286) *)
    Definition j_native (st : sst) (v : pyval) : option (sst * res json) :=
      match base_of v with
      | VNone => Some (st, Ok JNull)
      | VBool b => Some (st, Ok (JBool b))
      | VInt z => Some (st, Ok (JInt z))
      | VFloat f => Some (st, Ok (JFloat f))
      | VNp d (NFloat f) => if String.eqb (dt_str d) "float64" then Some (st, Ok (JFloat f)) else None
      | VStr s => Some (st, Ok (JStr s))
      | VList l => let '(st', r) := j_list st l in Some (st', bind r (fun ws => Ok (JArr ws)))
      | VTuple l => let '(st', r) := j_list st l in Some (st', bind r (fun ws => Ok (JArr ws)))
      | VDict d => let '(st', r) := j_pairs st d in Some (st', bind r (fun ws => Ok (JObj ws)))
      | _ => None
      end.
  End JPack.

  (** serializer.py 283-286 [JsonSerializer.dumps] with 270-281; [n] is the
      interpreter's recursion limit (RecursionError is a RuntimeError).  What
      default() returns is written in turn. *)
  Fixpoint jdumps (n : nat) (srv : option string) (st : sst) (v : pyval) : sst * res json :=
    match n with
    | O => (st, Err RuntimeError)
    | S n' =>
        match j_native (jdumps n' srv) st v with
        | Some r => r
        | None =>
            let '(st1, e) := jencode srv st v in
            match e with
            | Err x => (st1, Err x)
            | Ok v' => jdumps n' srv st1 v'
            end
        end
    end.

  (** serializer.py 311-323 [JsonSerializer.decode] *)
  Definition jdecode (srv : option string) (st : sst) (d : list (pyval * pyval)) : res pyval :=
    match kget d (VStr encode_key) with
    | Some (VStr t) =>
        if String.eqb t "ndarray" then
          bind (field d "data") (fun x => match x with
            | VStr s => bind (b64decode (bytes_of s)) (fun b =>
                bind (field d "dtype") (fun dt => match dt with
                  | VStr ds => bind (np_dtype E ds) (fun dd =>
                      bind (field d "shape") (fun sh => make_array dd (VBytes (of_bytes b)) sh))
                  | _ => Err TypeError
                  end))
            | _ => Err TypeError
            end)
        else if String.eqb t "bytes" then
          bind (field d "data") (fun x => match x with
            | VStr s => bind (b64decode (bytes_of s)) (fun b => Ok (VBytes (of_bytes b)))
            | _ => Err TypeError
            end)
        else decode srv st d
    | _ => decode srv st d
    end.

  (** serializer.py 288-291 [JsonSerializer.loads] *)
  Fixpoint jloads (srv : option string) (st : sst) (j : json) : res pyval :=
    match j with
    | JNull => Ok VNone
    | JBool b => Ok (VBool b)
    | JInt z => Ok (VInt z)
    | JFloat f => Ok (VFloat f)
    | JStr s => Ok (VStr s)
    | JArr l =>
        bind ((fix ul (l : list json) : res (list pyval) :=
                 match l with
                 | [] => Ok []
                 | x :: r => bind (jloads srv st x) (fun v => bind (ul r) (fun vs => Ok (v :: vs)))
                 end) l) (fun vs => Ok (VList vs))
    | JObj l =>
        bind ((fix um (l : list (string * json)) (d : list (pyval * pyval)) : res (list (pyval * pyval)) :=
                 match l with
                 | [] => Ok d
                 | (k, x) :: r => bind (jloads srv st x) (fun v => um r (kset d (VStr k) v))
                 end) l []) (fun d => jdecode srv st d)
    end.
End Ser.
