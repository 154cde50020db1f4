(** What call patterns mean, without threads, queues or schedules. *)
From Verif Require Import Py ObjTableModel SerModel ReentrantModel.
Local Open Scope nat_scope.

(** What a program means, on its own: the result, given those of the futures made so far *)
Fixpoint meaning (p : prog) (env : list value) : value :=
  match p with
  | Ret v => v
  | Async _ q p' => meaning p' (env ++ [meaning q []])
  | Off _ _ p' => meaning p' env
  | Await i k => meaning (k (nth i env (Err AttributeError))) env
  end.
(** number of steps it takes *)
Fixpoint cost (p : prog) (env : list value) : nat :=
  match p with
  | Ret _ => 1
  | Async _ q p' => S (S (cost q [] + cost p' (env ++ [meaning q []])))
  | Off _ q p' => S (S (cost q [] + cost p' env))
  | Await i k => S (cost (k (nth i env (Err AttributeError))) env)
  end.
(** over all callers *)
Definition total (l : list (tid * prog)) : nat := fold_right (fun '(_, p) n => cost p [] + n) 0 l.

(** nothing is running and no request is unread *)
Definition idle (s : rsys) : Prop := r_frames s = [] /\ r_queue s = [].
