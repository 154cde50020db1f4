(** Names of hosts, processes and threads, and the identity of a client:
    teleprox/log/remote.py 17-66, teleprox/bootstrap.py 76-78, teleprox/client.py 103-105. *)
From Verif Require Import Py SerModel FrameModel.
From Coq Require Import HexadecimalString.

(** One Python process: its pid, and the module globals of log/remote.py 20-22. *)
Record process := mkProc {
  pr_host : string;                  (* host_name *)
  pr_pid : N;
  pr_name : string;                  (* process_name *)
  pr_threads : dict Z string         (* thread_names, keyed by ident *)
}.
(** log/remote.py 20-22 *)
Definition new_process (host : string) (pid : N) : process :=
  mkProc host pid ("process-" ++ str_of_Z (Z.of_N pid)) [].
(** log/remote.py 25-29 *)
Definition set_host_name (p : process) (n : string) : process :=
  mkProc n (pr_pid p) (pr_name p) (pr_threads p).
(** log/remote.py 37-41 *)
Definition set_process_name (p : process) (n : string) : process :=
  mkProc (pr_host p) (pr_pid p) n (pr_threads p).
(** log/remote.py 49-57 *)
Definition set_thread_name (p : process) (tid : N) (n : string) : process :=
  mkProc (pr_host p) (pr_pid p) (pr_name p) (dset (pr_threads p) (Z.of_N tid) n).
(** '%x' % n (log/remote.py 66) *)
Definition hex_str (n : N) : string := NilZero.string_of_uint (N.to_hex_uint n).
(** log/remote.py 59-66 *)
Definition get_thread_name (p : process) (tid : N) : string :=
  match dget (pr_threads p) (Z.of_N tid) with Some n => n | None => ("thread-" ++ hex_str tid)%string end.

(** the calls that choose names (log/remote.py 25-57), in the order they are made *)
Inductive naming := NHost (n : string) | NProcess (n : string) | NThread (tid : N) (n : string).
(** the setters of log/remote.py 20-66 *)
Definition name_step (p : process) (o : naming) : process :=
  match o with
  | NHost n => set_host_name p n
  | NProcess n => set_process_name p n
  | NThread tid n => set_thread_name p tid n
  end.
(** a history of calls of the setters of log/remote.py 20-66 *)
Definition name_all (p : process) (os : list naming) : process := fold_left name_step os p.

(** client.py 104-105 *)
Definition identity (p : process) (tid : N) (addr : string) : string :=
  client_name (pr_host p) (pr_name p) (get_thread_name p tid) addr.

(** bootstrap.py 76-78: a child started by start_process(name), in its main thread [tid] *)
Definition child (host : string) (pid : N) (name : string) (tid : N) : process :=
  set_process_name (set_thread_name (new_process host pid) tid "main_thread") name.
