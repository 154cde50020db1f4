(** What log forwarding should do. *)
From Verif Require Import Py LogFwdModel.

(** the first list is what remains of the second after dropping some items *)
Inductive embeds {A B} (R : A -> B -> Prop) : list A -> list B -> Prop :=
| emb_nil : embeds R [] []
| emb_skip a b y : embeds R a b -> embeds R a (y :: b)
| emb_take a b x y : R x y -> embeds R a b -> embeds R (x :: a) (y :: b).

(** records given to the sender *)
Fixpoint handled (ls : list flab) : list frec :=
  match ls with [] => [] | LHandle r :: t => r :: handled t | _ :: t => handled t end.
(** steps other than calls of connect() and close() *)
Definition ordinary (l : flab) : Prop := match l with LHandle _ | LRun => True | _ => False end.

Section S.
  Variable fmt : string -> list string -> res string.
  (** the text of a record, as Python's logging shows it (LogRecord.getMessage) *)
  Definition get_message (r : frec) : res string :=
    match f_args r with None | Some [] => Ok (f_msg r) | Some a => fmt (f_msg r) a end.
  (** [w] is the record [r] as seen by whoever logged it *)
  Definition is_about (w : wrec) (r : frec) : Prop :=
    w_id w = f_id r /\ w_level w = f_level r /\ get_message r = Ok (w_msg w) /\
    w_thread w = f_thread r /\ w_threadName w = f_threadName r.
  (** the text can be made and everything has a JSON form *)
  Definition sendable (r : frec) : Prop :=
    f_json r = true /\ f_args r <> None /\ exists t, get_message r = Ok t.
End S.

(** steps without close(), in which connect() is only called, and returns, while the
    sender thread waits for a record *)
Inductive between_records (fmt : string -> list string -> res string) (n : names) : fst_ -> list flab -> Prop :=
| br_nil s : between_records fmt n s []
| br_step s l ls : ordinary l -> between_records fmt n (fstep fmt n s l) ls -> between_records fmt n s (l :: ls)
| br_connect s ls : s_th s = FWait ->
    between_records fmt n (frun fmt n s [LConnect; LConnect2]) ls ->
    between_records fmt n s (LConnect :: LConnect2 :: ls).

(** a run of the sender in which exactly [r] is logged and [w] is what it sends *)
Definition forwards (fmt : string -> list string -> res string) (n : names) (r : frec) (w : wrec) : Prop :=
  exists ls, handled ls = [r] /\ map snd (s_sent (frun fmt n fs0 ls)) = [w].
(** the name registered for a thread with set_thread_name, else the one Python gives it *)
Definition thread_name (n : names) (r : frec) : string :=
  match dget (n_threads n) (f_thread r) with Some t => t | None => f_threadName r end.

(** records taken from the queue or still in it *)
Definition queued (s : fst_) : list frec :=
  flat_map (fun o => match o with Some r => [r] | None => [] end) (s_q s).
Definition in_hand (s : fst_) : list frec :=
  match s_th s with FGot r | FChecked r | FSend _ r _ => [r] | _ => [] end.
Definition sent (s : fst_) : list wrec := map snd (s_sent s).
