(** numpy arrays as strided views of memory, and what serializer.py 108-115 /
    163-172 (msgpack) and 294-302 / 314-318 (JSON) do with them; shared arrays of
    shmem.py 40-82.

    Library behaviour (numpy): an array is a start address, a shape and strides in
    bytes over a memory; element i1..in lies at start + i1*s1 + ... + in*sn; the
    C_CONTIGUOUS flag is computed with relaxed stride checking; [tobytes] and
    [ascontiguousarray] traverse in C order; [frombuffer(b, dtype).reshape(shape)]
    is a C-ordered array over the bytes b. *)
From Verif Require Import Py.

(** numpy arrays, as read at serializer.py 109-114 and shmem.py 40-71 *)
Definition memory := Z -> ascii.

(** numpy arrays, as read at serializer.py 109-114 and shmem.py 40-71 *)
Record ndarray := mkA {
  a_mem : memory;            (* the memory it lives in *)
  a_off : Z;                 (* address of element 0..0 *)
  a_shape : list nat;
  a_strides : list Z;        (* bytes; same length as the shape *)
  a_item : nat               (* dtype.itemsize *)
}.

(** bytes [p, p + w) of a memory (numpy, for serializer.py 109-114) *)
Definition mem_slice (m : memory) (p : Z) (w : nat) : list ascii :=
  map (fun j => m (p + Z.of_nat j)) (seq 0 w).

(** numpy: address of an element (numpy, for serializer.py 109-114) *)
Fixpoint elem_addr (off : Z) (idx : list nat) (strides : list Z) : Z :=
  match idx, strides with
  | i :: idx', s :: strides' => elem_addr (off + Z.of_nat i * s) idx' strides'
  | _, _ => off
  end.

(** numpy: the bytes of element [idx] (numpy, for serializer.py 109-114) *)
Definition elem (a : ndarray) (idx : list nat) : list ascii :=
  mem_slice (a_mem a) (elem_addr (a_off a) idx (a_strides a)) (a_item a).

(** numpy: C-order traversal (numpy, for serializer.py 109-114) *)
Fixpoint traverse (m : memory) (w : nat) (shape : list nat) (strides : list Z) (off : Z) : list ascii :=
  match shape, strides with
  | n :: shape', s :: strides' =>
      flat_map (fun i => traverse m w shape' strides' (off + Z.of_nat i * s)) (seq 0 n)
  | _, _ => mem_slice m off w
  end.

(** numpy ndarray.tobytes() (serializer.py 113) *)
Definition tobytes (a : ndarray) : list ascii :=
  traverse (a_mem a) (a_item a) (a_shape a) (a_strides a) (a_off a).

(** numpy, for serializer.py 109-113, 172 *)
Definition prod (shape : list nat) : nat := fold_right Nat.mul 1%nat shape.

(** strides of a C-ordered array (numpy, for serializer.py 109-113, 172) *)
Fixpoint c_strides (w : nat) (shape : list nat) : list Z :=
  match shape with
  | [] => []
  | _ :: shape' => Z.of_nat (prod shape' * w) :: c_strides w shape'
  end.

(** numpy flagsobject.c [_UpdateContiguousFlags]: dimensions of length 1 are
    ignored; an array with a dimension of length 0 is contiguous.  The fold runs
    from the last axis; its state is (flag, expected stride). (numpy, for serializer.py 109-113, 172) *)
Fixpoint c_contig_aux (w : Z) (shape : list nat) (strides : list Z) : bool * Z :=
  match shape, strides with
  | n :: shape', s :: strides' =>
      let '(ok, sd) := c_contig_aux w shape' strides' in
      if (n =? 1)%nat then (ok, sd)
      else (ok && (s =? sd), sd * Z.of_nat n)
  | _, _ => (true, w)
  end.
(** numpy, for serializer.py 109-113, 172 *)
Definition c_contiguous (a : ndarray) : bool :=
  existsb (fun n => (n =? 0)%nat) (a_shape a) ||
  fst (c_contig_aux (Z.of_nat (a_item a)) (a_shape a) (a_strides a)).

(** memory holding the given bytes from address 0 on (the buffer of serializer.py 172, 318) *)
Definition mem_of (b : list ascii) : memory := fun p => nth (Z.to_nat p) b zero.

(** numpy ascontiguousarray: copy in C order (an array of dimension 0 is always
    contiguous, so its promotion to one dimension is not needed here) (serializer.py 110) *)
Definition ascontiguousarray (a : ndarray) : ndarray :=
  mkA (mem_of (tobytes a)) 0 (a_shape a) (c_strides (a_item a) (a_shape a)) (a_item a).

(** serializer.py 109-113: the 'data' bytes sent with msgpack *)
Definition encode_bytes (a : ndarray) : list ascii :=
  let a' := if c_contiguous a then a else ascontiguousarray a in
  tobytes a'.

(** serializer.py 296-300: what b64encode gets with JSON: the raw memory of the
    (contiguous) array, from its start for nbytes bytes *)
Definition encode_raw (a : ndarray) : list ascii :=
  let a' := if c_contiguous a then a else ascontiguousarray a in
  mem_slice (a_mem a') (a_off a') (prod (a_shape a') * a_item a').

(** serializer.py 172, 318: np.frombuffer(data, dtype=dt).reshape(shape).
    ValueError if the buffer is no multiple of the item size or the shape does
    not fit. *)
Definition frombuffer_reshape (b : list ascii) (w : nat) (shape : list nat) : res ndarray :=
  if (w =? 0)%nat then Err ValueError
  else if negb (List.length b mod w =? 0)%nat then Err ValueError
  else if negb (List.length b / w =? prod shape)%nat then Err ValueError
  else Ok (mkA (mem_of b) 0 shape (c_strides w shape) w).

(** * Shared arrays, shmem.py *)

(** A SharedNDArray: the (shared) memory block starts at address 0 and has
    [sh_size] bytes; the data attribute is a view of it. (shmem.py 40-46) *)
Record shared := mkSh { sh_size : Z; sh_data : ndarray }.

(** numpy: does an array with these strides fit in a buffer of [size] bytes
    (np.ndarray(..., buffer, strides), offset 0)?  PyArray_CheckStrides: the
    lowest and highest byte reached. (numpy, for shmem.py 68-69) *)
Fixpoint extent (shape : list nat) (strides : list Z) (lo hi : Z) : Z * Z :=
  match shape, strides with
  | n :: shape', s :: strides' =>
      let d := s * (Z.of_nat n - 1) in
      if d <? 0 then extent shape' strides' (lo + d) hi else extent shape' strides' lo (hi + d)
  | _, _ => (lo, hi)
  end.
(** numpy, for shmem.py 68-69 *)
Definition fits (size : Z) (shape : list nat) (strides : list Z) (w : nat) : bool :=
  existsb (fun n => (n =? 0)%nat) shape ||
  (let '(lo, hi) := extent shape strides 0 0 in (0 <=? lo) && (hi + Z.of_nat w <=? size)).

(** shmem.py 64-65 [__reduce__]: what is sent (the block itself by name, and the
    shape, dtype and strides of the data) *)
Definition sh_reduce (x : shared) : Z * list nat * nat * list Z :=
  (sh_size x, a_shape (sh_data x), a_item (sh_data x), a_strides (sh_data x)).

(** shmem.py 67-70 [__reload__] in the receiving process: [m] is the content of
    the block, mapped there as well; a block that is too small is a ValueError *)
Definition sh_reload (m : memory) (p : Z * list nat * nat * list Z) : res shared :=
  let '(size, shape, w, strides) := p in
  if fits size shape strides w then Ok (mkSh size (mkA m 0 shape strides w)) else Err ValueError.

(** shmem.py 48-54 [zeros], 56-62 [copy]: the array starts at the block's start in C order.
    [SharedMemory(create=True, size=0)] raises ValueError.  [block] is the
    block's initial content (any bytes; zeros fills it, copy assigns it). *)
Definition sh_new (block : memory) (shape : list nat) (w : nat) : res shared :=
  let size := (prod shape * w)%nat in
  if (size =? 0)%nat then Err ValueError
  else Ok (mkSh (Z.of_nat size) (mkA block 0 shape (c_strides w shape) w)).

(** writing element [idx] of an array: the new memory (assignment to an element, as users of shmem.py 12-38 do) *)
Definition write_elem (a : ndarray) (idx : list nat) (v : list ascii) : memory :=
  let p := elem_addr (a_off a) idx (a_strides a) in
  fun q => if (p <=? q) && (q <? p + Z.of_nat (a_item a)) then nth (Z.to_nat (q - p)) v zero else a_mem a q.

(** the same array over another content of its memory (assignment to an element, as users of shmem.py 12-38 do) *)
Definition with_mem (a : ndarray) (m : memory) : ndarray :=
  mkA m (a_off a) (a_shape a) (a_strides a) (a_item a).
