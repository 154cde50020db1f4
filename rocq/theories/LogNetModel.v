(** Several processes that forward log records to each other: set_logger_address,
    get_logger_address, LogSender and LogServer of teleprox/log/remote.py (71-114, 160-191,
    252-266), with the loggers of each process as in LogTreeModel.

    Simplified: a record is sent to the address that is set when it is handled (see
    LogFwdModel for the queue between); encoding does not fail and keeps name, level and
    identity (LogFwdModel); messages may arrive in any order; connect does not fail. *)
From Verif Require Import Py LogTreeModel.

(** processes with their LogSenders (remote.py 117-203) and LogServers (206-266) *)
Record net := mkNet {
  n_proc : nat -> gst;             (* the processes *)
  n_dead : nat -> bool;            (* the thread of the LogServer has ended with an exception *)
  n_fly : list (string * lrec);    (* sent to this address, not yet received *)
  n_got : list (nat * lrec)        (* received by the LogServer of this process, in order *)
}.
(** no process has called anything of remote.py 76-114 *)
Definition net0 : net := mkNet (fun _ => gst0) (fun _ => false) [] [].

(** remote.py 160-191: the records given to the LogSender between two states, for the address set *)
Definition sends (g g' : gst) : list (string * lrec) :=
  match g_addr g with
  | None => []
  | Some a =>
      map (fun x => (a, snd x))
          (filter (fun x => match fst x with To h => match kind_of g h with HSender => true | _ => false end | ToStderr => false end)
                  (skipn (List.length (g_out g)) (g_out g')))
  end.
(** one process changes by the calls of remote.py 76-203 *)
Definition set_proc (f : nat -> gst) (p : nat) (g : gst) : nat -> gst := fun q => if Nat.eqb q p then g else f q.
(** the list without its i-th element (the message that remote.py 260 receives is gone) *)
Definition drop_nth {A} (i : nat) (l : list A) : list A := firstn i l ++ skipn (S i) l.

(** a call of remote.py 76-183 in a process, or remote.py 257-265 receiving a message *)
Inductive nop :=
| NOp (p : nat) (o : gop)         (* something happens in process p (but for [GForward]) *)
| NDeliver (i : nat) (p : nat).   (* the LogServer of p receives the i-th message on its way *)

(** [own p]: the address of the LogServer of process p (remote.py 249) *)
Definition nstep (own : nat -> string) (s : net) (o : nop) : net :=
  match o with
  | NOp p o =>
      match o with
      | GForward _ => s
      | _ => let g := n_proc s p in
             let g' := gstep g o in
             mkNet (set_proc (n_proc s) p g') (n_dead s) (n_fly s ++ sends g g') (n_got s)
      end
  | NDeliver i p =>                                     (* remote.py 256-265 *)
      match nth_error (n_fly s) i with
      | None => s
      | Some (a, r) =>
          let g := n_proc s p in
          if String.eqb (own p) a && g_server g && negb (n_dead s p) then
            let '(g', e) := forwarded g r in
            mkNet (set_proc (n_proc s) p g')
                  (match e with Ok _ => n_dead s | Err _ => fun q => if Nat.eqb q p then true else n_dead s q end)
                  (drop_nth i (n_fly s) ++ sends g g') (n_got s ++ [(p, r)])
          else s
      end
  end.
(** a history of steps (remote.py 76-266) *)
Definition nrun (own : nat -> string) (s : net) (os : list nop) : net := fold_left (nstep own) os s.
