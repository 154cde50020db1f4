(** Specification vocabulary for serialization: which values are supported, what
    a receiver is supposed to see, and how deep a value is nested.  Nothing here
    mentions encode, decode, pack or unpack. *)
From Verif Require Import Py ObjTableModel ObjTableSpec DateTimeModel DateTimeSpec NdArrayModel SerModel.
From Coq Require Import DecimalString.

Definition All {A} (P : A -> Prop) : list A -> Prop :=
  fix all l := match l with [] => True | x :: r => P x /\ all r end.
Definition lmax : list nat -> nat := fold_right Nat.max 0%nat.

(** pickle brings the value back *)
Definition picklable (E : senv) (v : pyval) : Prop :=
  exists s, pickle_dumps E v = Ok s /\ pickle_loads E s = Ok v.

(** Assumptions about the environment: every modelled type except [VObj] is in
    serialize_types (true of default_serialize_types), and ints survive pickling. *)
Record good_env (E : senv) : Prop := {
  ge_types : forall v, (forall o, v <> VObj o) -> ser_ok E v = true;
  ge_int : forall z, picklable E (VInt z)
}.

(** numpy can make the dtype again from its str(), and the data has the right size *)
Definition dtype_ok (E : senv) (d : dtype) : Prop :=
  (if prefix "[" (dt_str d) then exec_dtype E (dt_str d) else np_dtype E (dt_str d)) = Ok d.
Definition array_ok (d : dtype) (sh : list nat) (data : string) : Prop :=
  dt_item d <> 0%nat /\ String.length data = (fold_right Nat.mul 1 sh * dt_item d)%nat.

Definition scalar_ok (d : dtype) (n : npval) : Prop :=
  match n with
  | NBool _ => dt_kind d = KBool
  | NInt _ => dt_kind d = KInt
  | NFloat _ => dt_kind d = KFloat
  | NComplex => False
  end.

(** the content of an instance of a subclass of a built-in type *)
Fixpoint content (v : pyval) : pyval := match v with VSub _ b => content b | _ => v end.

(** subclasses that are sent by pickle and hence keep their type *)
Definition pickled_class (v : pyval) : Prop :=
  match content v with
  | VBool _ | VInt _ | VFloat _ | VStr _ | VBytes _ | VList _ | VDict _ | VDtype _ => True
  | _ => False
  end.

(** dict keys: str or bytes, and not the reserved one *)
Definition good_key (k : pyval) : Prop :=
  match k with VStr s => s <> "___type_name___" | VBytes _ => True | _ => False end.

(** Values that msgpack is supposed to transport *)
Fixpoint sendable (E : senv) (v : pyval) : Prop :=
  match v with
  | VNone | VBool _ | VInt _ | VFloat _ | VStr _ | VBytes _ | VProxy _ => True
  | VList l | VTuple l => All (sendable E) l
  | VDict d => All (fun kv => good_key (fst kv) /\ sendable E (snd kv)) d /\ NoDup (map fst d)
  | VDatetime t => real_datetime t /\ 1000 <= yr (dpart t) /\ tz t = None
  | VDate d => real_date d /\ 1000 <= yr d
  | VNdarray d sh data => dtype_ok E d /\ array_ok d sh data
  | VNp d n => picklable E (VDtype d) /\ scalar_ok d n
  | VDtype d => picklable E v
  | VSub _ _ => pickled_class v /\ picklable E v
  | VObj o => ser_ok E v = true -> picklable E v
  end.

(** Objects in the value that are not serializable, one entry per occurrence,
    in the order in which the value is traversed *)
Fixpoint objs (E : senv) (v : pyval) : list obj :=
  match v with
  | VObj o => if ser_ok E v then [] else [o]
  | VList l | VTuple l => flat_map (objs E) l
  | VDict d => flat_map (fun kv => objs E (snd kv)) d
  | _ => []
  end.

(** They exist (the value refers to them) *)
Definition alive (E : senv) (s : ostate) (v : pyval) : Prop :=
  forall o, In o (objs E v) -> dmem (addrs (hp s)) o = true.

(** [arrives v tr v']: the receiver sees [v'], which is [v] with every occurrence
    of an unserializable object replaced by a proxy; [tr] lists the proxies made,
    in order, in the vocabulary of the reference table. *)
Inductive arrives (E : senv) (addr : string) : pyval -> otrace -> pyval -> Prop :=
| arr_same v : objs E v = [] -> arrives E addr v [] v
| arr_obj o oid rid : ser_ok E (VObj o) = false ->
    arrives E addr (VObj o) [(GetProxy o true, OProxy oid rid)]
      (VProxy (mkP addr oid rid (type_str E (VObj o)) []))
| arr_list l tr l' : arrive_all E addr l tr l' -> arrives E addr (VList l) tr (VList l')
| arr_tuple l tr l' : arrive_all E addr l tr l' -> arrives E addr (VTuple l) tr (VTuple l')
| arr_dict d tr d' : map fst d' = map fst d -> arrive_all E addr (map snd d) tr (map snd d') ->
    arrives E addr (VDict d) tr (VDict d')
with arrive_all (E : senv) (addr : string) : list pyval -> otrace -> list pyval -> Prop :=
| aa_nil : arrive_all E addr [] [] []
| aa_cons v t v' l tr l' : arrives E addr v t v' -> arrive_all E addr l tr l' ->
    arrive_all E addr (v :: l) (t ++ tr) (v' :: l').

Scheme arrives_mind := Minimality for arrives Sort Prop
  with arrive_all_mind := Minimality for arrive_all Sort Prop.
Combined Scheme arrives_mutind from arrives_mind, arrive_all_mind.

(** The proxies contained in a value *)
Fixpoint proxies (v : pyval) : list proxyrec :=
  match v with
  | VProxy p => [p]
  | VList l | VTuple l => flat_map proxies l
  | VDict d => flat_map (fun kv => proxies (snd kv)) d
  | _ => []
  end.

(** Replace every proxy by what it stands for *)
Fixpoint subst (h : proxyrec -> pyval) (v : pyval) : pyval :=
  match v with
  | VProxy p => h p
  | VList l => VList (map (subst h) l)
  | VTuple l => VTuple (map (subst h) l)
  | VDict d => VDict (map (fun kv => (fst kv, subst h (snd kv))) d)
  | _ => v
  end.

(** Nesting depth as msgpack counts it: what is sent as a dict is one deeper
    than it looks. *)
Definition zdepth (z : Z) : nat := if (- 2 ^ 63 <=? z) && (z <? 2 ^ 64) then 1 else 2.
Fixpoint mdepth (E : senv) (v : pyval) : nat :=
  match v with
  | VInt z => zdepth z
  | VList l => S (lmax (map (mdepth E) l))
  | VTuple l => S (S (lmax (map (mdepth E) l)))
  | VDict d => S (lmax (map (fun kv => mdepth E (snd kv)) d))
  | VDatetime _ | VDate _ | VDtype _ | VSub _ _ => 2
  | VNdarray _ sh _ => S (S (S (lmax (map (fun n => zdepth (Z.of_nat n)) sh))))
  | VNp _ _ => 3
  | VProxy p => match p_attrs p with [] => 3 | _ => 4 end
  | VObj _ => if ser_ok E v then 2 else 3
  | _ => 1
  end.

(** ** JSON *)

Definition json_str (f : Z -> string) (k : pyval) : option string :=
  match content k with
  | VStr s => Some s
  | VBool b => Some (if b then "true" else "false")
  | VNone => Some "null"
  | VInt z => Some (NilZero.string_of_int (Z.to_int z))
  | VFloat x => Some (f x)
  | VNp d (NFloat x) => if String.eqb (dt_str d) "float64" then Some (f x) else None
  | _ => None
  end.

(** Values the JSON serializer is supposed to transport *)
Fixpoint jsendable (E : senv) (v : pyval) : Prop :=
  match v with
  | VNone | VBool _ | VInt _ | VFloat _ | VStr _ | VBytes _ | VProxy _ => True
  | VList l | VTuple l => All (jsendable E) l
  | VDict d => All (fun kv => (exists s, json_str (float_repr E) (fst kv) = Some s /\ s <> "___type_name___")
                              /\ jsendable E (snd kv)) d
  | VDatetime t => real_datetime t /\ 1000 <= yr (dpart t) /\ tz t = None
  | VDate d => real_date d /\ 1000 <= yr d
  | VNdarray d sh data => np_dtype E (dt_str d) = Ok d /\ dt_buffer d = true /\ array_ok d sh data
  | VNp d n => picklable E (VDtype d) /\ scalar_ok d n
  | VDtype d => picklable E v
  | VSub _ b => match b with VBool _ | VInt _ | VFloat _ | VStr _ => True | _ => False end
  | VObj o => ser_ok E v = true -> picklable E v
  end.

(** d[k] = v for string keys: the last value of a key wins, at the first position *)
Fixpoint put (d : list (pyval * pyval)) (s : string) (v : pyval) : list (pyval * pyval) :=
  match d with
  | [] => [(VStr s, v)]
  | (VStr s', v') :: r => if String.eqb s' s then (VStr s', v) :: r else (VStr s', v') :: put r s v
  | kv :: r => kv :: put r s v
  end.
Definition key_or_empty (f : Z -> string) (k : pyval) : string :=
  match json_str f k with Some s => s | None => EmptyString end.

(** JSON normal form: tuples are lists, keys are strings, float64 scalars are
    floats, subclasses of the basic types are the basic types *)
Fixpoint jnf (E : senv) (v : pyval) : pyval :=
  match v with
  | VList l | VTuple l => VList (map (jnf E) l)
  | VDict d => VDict (fold_left (fun acc kv => put acc (key_or_empty (float_repr E) (fst kv)) (snd kv))
                        (map (fun kv => (fst kv, jnf E (snd kv))) d) [])
  | VNp d (NFloat f) => if String.eqb (dt_str d) "float64" then VFloat f else v
  | VSub _ b => b
  | _ => v
  end.

(** Values that are their own normal form *)
Fixpoint in_jnf (v : pyval) : Prop :=
  match v with
  | VTuple _ | VSub _ _ => False
  | VNp d (NFloat _) => String.eqb (dt_str d) "float64" = false
  | VList l => All in_jnf l
  | VDict d => All (fun kv => (exists s, fst kv = VStr s) /\ in_jnf (snd kv)) d /\ NoDup (map fst d)
  | _ => True
  end.

Fixpoint jdepth (E : senv) (v : pyval) : nat :=
  match v with
  | VList l | VTuple l => S (lmax (map (jdepth E) l))
  | VDict d => S (lmax (map (fun kv => jdepth E (snd kv)) d))
  | VBytes _ | VDatetime _ | VDate _ => 3
  | VNdarray _ _ _ | VProxy _ => 4
  | VNp _ _ => 7
  | VDtype _ | VObj _ => 5
  | _ => 1
  end.
