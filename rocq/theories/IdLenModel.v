(** The length of names: the identity of a client's socket (client.py 104-105, 135-136), and the names of
    processes started without a name (process.py 133-135, bootstrap.py 76-78).

    zmq (library): setsockopt(IDENTITY) raises ZMQError (EINVAL) unless the identity has 1 to 255 bytes. *)
From Verif Require Import Py NameModel ProcessModel.
Local Open Scope Z_scope.

(** setsockopt(zmq.IDENTITY, ...) (library), client.py 136 *)
Definition set_identity (s : string) : res string :=
  let n := Z.of_nat (String.length s) in if (1 <=? n) && (n <=? 255) then Ok s else Err ZMQError.
(** RPCClient.__init__ as far as the identity: client.py 104-105, 133-136; the address can be reached *)
Definition new_client (p : process) (tid : N) (addr : string) : res string := set_identity (identity p tid addr).

(** a process starts a child without giving it a name: process.py 133-135; bootstrap.py 67, 76-78 *)
Definition spawn (prefix host : string) (p : process) (pid tid : N) : process :=
  child host pid (name_of (mkPar (pr_name p) None 0 prefix) (mkQ None (TStr "") false false None LNone)) tid.
(** the child of the child of ...; each has its own pid and main thread (process.py 133-135,
    bootstrap.py 67, 76-78) *)
Fixpoint generation (prefix host : string) (p : process) (ids : list (N * N)) : process :=
  match ids with [] => p | (pid, tid) :: r => generation prefix host (spawn prefix host p pid tid) r end.
