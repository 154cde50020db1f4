(** Shared arrays: teleprox/shmem.py.  A segment is a map from addresses to bytes; an
    array is a view: segment, offset, shape, strides, item size (numpy, library
    behaviour).  Simplified: reading and writing are not bounds checked (that
    arrays made here fit is a theorem), dtype is only its item size. *)
From Verif Require Import Py.
Local Open Scope Z_scope.

(** numpy arrays over SharedMemory, shmem.py 40-62 *)
Definition bytes := list Z.
(** numpy arrays over SharedMemory, shmem.py 40-62 *)
Record view := mkV { v_seg : string; v_off : Z; v_shape : list Z; v_strides : list Z; v_item : nat }.
(** numpy arrays over SharedMemory, shmem.py 40-62 *)
Definition memory := string -> Z -> Z.

(** numpy: address of an element (numpy, reading and writing elements of shmem.py 40-46) *)
Fixpoint dot (ix st : list Z) : Z :=
  match ix, st with i :: ix, s :: st => i * s + dot ix st | _, _ => 0 end.
(** numpy, reading and writing elements of shmem.py 40-46 *)
Definition addr (v : view) (ix : list Z) : Z := v_off v + dot ix (v_strides v).
(** numpy, reading and writing elements of shmem.py 40-46 *)
Definition peek (m : memory) (seg : string) (a : Z) (n : nat) : bytes :=
  map (fun k => m seg (a + Z.of_nat k)) (seq 0 n).
(** numpy, reading and writing elements of shmem.py 40-46 *)
Definition poke (m : memory) (seg : string) (a : Z) (b : bytes) : memory :=
  fun s x => if String.eqb s seg && (a <=? x) && (x <? a + Z.of_nat (List.length b)) then nth (Z.to_nat (x - a)) b 0 else m s x.
(** numpy, reading and writing elements of shmem.py 40-46 *)
Definition read (m : memory) (v : view) (ix : list Z) : bytes := peek m (v_seg v) (addr v ix) (v_item v).
(** numpy, reading and writing elements of shmem.py 40-46 *)
Definition write (m : memory) (v : view) (ix : list Z) (b : bytes) : memory := poke m (v_seg v) (addr v ix) b.

(** numpy: np.prod of a shape, C order strides, all indices in C order (numpy, shmem.py 52-61) *)
Fixpoint prod (sh : list Z) : Z := match sh with [] => 1 | n :: r => n * prod r end.
(** numpy, shmem.py 52-61 *)
Fixpoint c_strides (item : Z) (sh : list Z) : list Z :=
  match sh with [] => [] | n :: r => item * prod r :: c_strides item r end.
(** numpy, shmem.py 52-61 *)
Fixpoint indices (sh : list Z) : list (list Z) :=
  match sh with
  | [] => [[]]
  | n :: r => flat_map (fun i => map (cons (Z.of_nat i)) (indices r)) (seq 0 (Z.to_nat n))
  end.
(** numpy: [data.fill(0)], [data[:] = arr[:]]; an array of no dimensions has no [:] (numpy, shmem.py 52-61) *)
Definition fill (m : memory) (v : view) (f : list Z -> bytes) : memory :=
  fold_left (fun m ix => write m v ix (f ix)) (indices (v_shape v)) m.

(** a wrapper: shmem.py 40-46 *)
Record shared := mkSh { sh_view : view; sh_close : bool }.
(** process state: memory of the machine, names in use, wrapped segments (all_shmem) in
    this process, segments this process has closed, sizes of the segments (shmem.py 10, 40-46) *)
Record shst := mkSS { ss_mem : memory; ss_linked : list string; ss_all : list string; ss_closed : list string;
                      ss_size : dict string Z }.

(** shmem.py 40-46 *)
Definition wrap (s : shst) (v : view) (close : bool) : shst * shared :=
  (mkSS (ss_mem s) (ss_linked s) (ss_all s ++ [v_seg v]) (ss_closed s) (ss_size s), mkSh v close).

(** SharedMemory(create=True, size) (library): a new name; size must be a positive integer *)
Definition create (s : shst) (name : string) (size : Z) : res shst :=
  if size <=? 0 then Err ValueError
  else Ok (mkSS (ss_mem s) (name :: ss_linked s) (ss_all s) (ss_closed s) (dset (ss_size s) name size)).
(** the memory written at shmem.py 53, 61 *)
Definition set_mem (s : shst) (m : memory) : shst := mkSS m (ss_linked s) (ss_all s) (ss_closed s) (ss_size s).

(** shmem.py 48-54.  np.prod(()) is the float 1.0: ftruncate raises TypeError *)
Definition zeros (s : shst) (name : string) (shape : list Z) (item : nat) (close : bool) : res (shst * shared) :=
  match shape with
  | [] => Err TypeError
  | _ => bind (create s name (prod shape * Z.of_nat item)) (fun s1 =>
         let v := mkV name 0 shape (c_strides (Z.of_nat item) shape) item in
         Ok (wrap (set_mem s1 (fill (ss_mem s1) v (fun _ => repeat 0 item))) v close))
  end.
(** shmem.py 56-62; [arr] gives the bytes of each element.  arr[:] raises IndexError (here
    as ValueError) for an array of no dimensions, after the memory was created *)
Definition copy (s : shst) (name : string) (shape : list Z) (item : nat) (arr : list Z -> bytes) (close : bool) : res (shst * shared) :=
  bind (create s name (prod shape * Z.of_nat item)) (fun s1 =>
  match shape with
  | [] => Err ValueError
  | _ => let v := mkV name 0 shape (c_strides (Z.of_nat item) shape) item in
         Ok (wrap (set_mem s1 (fill (ss_mem s1) v arr)) v close)
  end).

(** shmem.py 64-70: pickled as (shmem, shape, dtype, strides); unpickling attaches to the
    segment by name (library: FileNotFoundError if it is gone) and uses offset 0 and the
    default close=False *)
Definition reduce (a : shared) : string * list Z * nat * list Z :=
  (v_seg (sh_view a), v_shape (sh_view a), v_item (sh_view a), v_strides (sh_view a)).
(** shmem.py 67-70 *)
Definition reload (s : shst) (p : string * list Z * nat * list Z) : res (shst * shared) :=
  let '(seg, shape, item, strides) := p in
  if existsb (String.eqb seg) (ss_linked s) then Ok (wrap s (mkV seg 0 shape strides item) false) else Err FileNotFoundError.

(** shmem.py 73-82.  [shmem] is a SharedMemory object, so [shmem.close] is its method and
    always true; the flag of the wrapper is never looked at *)
Definition close_one (s : shst) (seg : string) : shst :=
  mkSS (ss_mem s) (filter (fun n => negb (String.eqb seg n)) (ss_linked s)) (ss_all s) (seg :: ss_closed s) (ss_size s).
(** shmem.py 73-82 *)
Definition close_all (s : shst) : shst :=
  let s := fold_left close_one (ss_all s) s in mkSS (ss_mem s) (ss_linked s) [] (ss_closed s) (ss_size s).
(** another process attached to the same machine: it shares memory and names, but has its
    own all_shmem (shmem.py 10, 67-70) *)
Definition other_process (s : shst) : shst := mkSS (ss_mem s) (ss_linked s) [] [] (ss_size s).
