(** RPCLogHandler: teleprox/log/handler.py 39-124.  Threads that emit, the polling
    thread, the exit handler and the clock take steps in any order; blocks under
    [record_lock] are one step each, and so is writing one record.  Times are
    integers; time.time() does not go back. *)
From Verif Require Import Py.
Local Open Scope Z_scope.

(** what handler.py 77, 85, 100 read of a logging.LogRecord *)
Record lrec := mkR { r_id : nat; r_created : Z; r_level : Z }.

(** list.sort(key=created) (library behaviour): stable *)
Fixpoint insert_rec (x : lrec) (l : list lrec) : list lrec :=
  match l with
  | [] => [x]
  | y :: r => if r_created y <? r_created x then y :: insert_rec x r else x :: l
  end.
(** list.sort by created, handler.py 77 (library) *)
Fixpoint sort_recs (l : list lrec) : list lrec :=
  match l with [] => [] | x :: r => insert_rec x (sort_recs r) end.

(** handler.py 95-103 [format]: with colours the level must be in the map (27-34) *)
Definition formats (color : bool) (r : lrec) : bool :=
  negb color || let ind := r_level r / 10 * 10 in (0 <=? ind) && (ind <=? 50).

(** the polling thread (79-93): before 82, before 84 with its limit, writing 90-91 *)
Inductive pst := PIdle | PGot (limit : Z) | PWrite (recs : list lrec).
(** the state of handler.py 53-66: pending records, the thread, flush_records *)
Record hst := mkH { h_now : Z; h_recs : list lrec; h_poll : pst; h_flush : option (list lrec); h_exit : bool;
                    h_out : list lrec (* written *); h_bad : list lrec (* format failed; logging prints an error instead *) }.
(** handler.py 53-66 *)
Definition h0 : hst := mkH 0 [] PIdle None false [] [].

Inductive hlab :=
| HTick (d : Z)
| HEmit (r : lrec)      (* 73-77 [emit] *)
| HLimit                (* 82 *)
| HCollect              (* 84-86 *)
| HWrite                (* 89-93: write the next record, or sleep and start over *)
| HFlush                (* 119-122 [flush_records] at exit: take all *)
| HFlushWrite           (* 123-124 *)
| HExit.                (* the process ends; daemon threads with it *)

(** handler.py 85-86 *)
Fixpoint pop_older (limit : Z) (l : list lrec) : list lrec * list lrec :=
  match l with
  | [] => ([], [])
  | x :: r => if r_created x <? limit then let '(a, b) := pop_older limit r in (x :: a, b) else ([], l)
  end.

(** logging.StreamHandler.emit: format and write; errors of format are not raised
    (logging.StreamHandler.emit, handler.py 91, 124) *)
Definition write (color : bool) (s : hst) (r : lrec) : hst :=
  if formats color r then mkH (h_now s) (h_recs s) (h_poll s) (h_flush s) (h_exit s) (h_out s ++ [r]) (h_bad s)
  else mkH (h_now s) (h_recs s) (h_poll s) (h_flush s) (h_exit s) (h_out s) (h_bad s ++ [r]).
(** the position of the thread (79-93) or of flush_records (119-124) of handler.py changes *)
Definition set_poll (s : hst) (p : pst) : hst := mkH (h_now s) (h_recs s) p (h_flush s) (h_exit s) (h_out s) (h_bad s).
(** the position of the thread (79-93) or of flush_records (119-124) of handler.py changes *)
Definition set_flush (s : hst) (f : option (list lrec)) : hst := mkH (h_now s) (h_recs s) (h_poll s) f (h_exit s) (h_out s) (h_bad s).

(** one step of handler.py 73-77, 79-93, 119-124 *)
Definition hstep (delay : Z) (color : bool) (s : hst) (l : hlab) : hst :=
  if h_exit s then s else
  match l with
  | HTick d => if 0 <=? d then mkH (h_now s + d) (h_recs s) (h_poll s) (h_flush s) (h_exit s) (h_out s) (h_bad s) else s
  | HEmit r => mkH (h_now s) (sort_recs (h_recs s ++ [r])) (h_poll s) (h_flush s) (h_exit s) (h_out s) (h_bad s)
  | HLimit => match h_poll s with PIdle => set_poll s (PGot (h_now s - delay)) | _ => s end
  | HCollect =>
      match h_poll s with
      | PGot limit => let '(a, b) := pop_older limit (h_recs s) in
                      mkH (h_now s) b (PWrite a) (h_flush s) (h_exit s) (h_out s) (h_bad s)
      | _ => s
      end
  | HWrite =>
      match h_poll s with
      | PWrite [] => set_poll s PIdle
      | PWrite (r :: rs) => write color (set_poll s (PWrite rs)) r
      | _ => s
      end
  | HFlush =>
      match h_flush s with
      | None => mkH (h_now s) [] (h_poll s) (Some (h_recs s)) (h_exit s) (h_out s) (h_bad s)
      | Some _ => s
      end
  | HFlushWrite =>
      match h_flush s with
      | Some (r :: rs) => write color (set_flush s (Some rs)) r
      | _ => s
      end
  | HExit => match h_flush s with
             | Some [] => mkH (h_now s) (h_recs s) (h_poll s) (h_flush s) true (h_out s) (h_bad s)
             | _ => s
             end
  end.
(** a history of steps (handler.py 73-124) *)
Definition hrun (delay : Z) (color : bool) (ls : list hlab) : hst := fold_left (hstep delay color) ls h0.
