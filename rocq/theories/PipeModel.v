(** Capture of a child's output: PipePoller.run, teleprox/log/stdio.py 15-24, with the
    two pollers of StdioLogSender (33-48).  Bytes and code points are integers. *)
From Verif Require Import Py.
Local Open Scope Z_scope.

(** bytes.decode() (library): strict UTF-8.  [need] more continuation bytes, the next
    one between [lo] and [hi], [acc] the code point so far. *)
Fixpoint utf8 (need : nat) (lo hi acc : Z) (l : list Z) : option (list Z) :=
  match l with
  | [] => match need with O => Some [] | _ => None end
  | b :: r =>
      match need with
      | O =>
          if b <? 128 then if b <? 0 then None else option_map (cons b) (utf8 0 128 191 0 r)
          else if b <? 194 then None
          else if b <? 224 then utf8 1 128 191 (b - 192) r
          else if b =? 224 then utf8 2 160 191 0 r
          else if b =? 237 then utf8 2 128 159 13 r
          else if b <? 240 then utf8 2 128 191 (b - 224) r
          else if b =? 240 then utf8 3 144 191 0 r
          else if b <? 244 then utf8 3 128 191 (b - 240) r
          else if b =? 244 then utf8 3 128 143 4 r
          else None
      | S m =>
          if (lo <=? b) && (b <=? hi)
          then match m with
               | O => option_map (cons (acc * 64 + (b - 128))) (utf8 0 128 191 0 r)
               | _ => utf8 m 128 191 (acc * 64 + (b - 128)) r
               end
          else None
      end
  end.
(** bytes.decode(), stdio.py 21 (library) *)
Definition decode (l : list Z) : option (list Z) := utf8 0 128 191 0 l.

(** pipe.readline() (library) on everything the child writes until it closes the pipe:
    up to and including the next newline (10) *)
Fixpoint readlines (l : list Z) : list (list Z) :=
  match l with
  | [] => []
  | 10 :: r => [10] :: readlines r
  | b :: r => match readlines r with
              | [] => [[b]]
              | x :: t => (b :: x) :: t
              end
  end.

(** how the thread ends: end of file (22-23) or an exception *)
Inductive pend := AtEof | Died (e : exn).
(** stdio.py 20-24: messages given to the callback; [line[:-1]] drops the last character *)
Fixpoint poll (prefix : list Z) (ls : list (list Z)) : list (list Z) * pend :=
  match ls with
  | [] => ([], AtEof)
  | x :: r =>
      match decode x with
      | None => ([], Died UnicodeDecodeError)
      | Some [] => ([], AtEof)
      | Some line => let '(out, e) := poll prefix r in ((prefix ++ removelast line) :: out, e)
      end
  end.
(** stdio.py 15-24 *)
Definition poller (prefix : list Z) (bytes : list Z) : list (list Z) * pend := poll prefix (readlines bytes).

(** stdio.py 33-48: stdout at INFO (20), stderr at WARNING (30); Logger.isEnabledFor
    (library): a level of 0 means that of the parent, [root]; 43-44: log_level, if given,
    is set on the logger (setting [.level] instead of calling setLevel makes no
    difference for a new logger). *)
Definition stdio_level (log_level : option Z) (root : Z) : Z :=
  match log_level with Some l => if l =? 0 then root else l | None => root end.
(** Logger.info and Logger.warning (library) called at stdio.py 24 *)
Definition stdio_log (log_level : option Z) (root : Z) (level : Z) (msgs : list (list Z)) : list (Z * list Z) :=
  if stdio_level log_level root <=? level then map (fun m => (level, m)) msgs else [].
(** stdio.py 46-48 *)
Definition capture (log_level : option Z) (root : Z) (pre_out pre_err : list Z) (out err : list Z) :=
  (stdio_log log_level root 20 (fst (poller pre_out out)), stdio_log log_level root 30 (fst (poller pre_err err))).
