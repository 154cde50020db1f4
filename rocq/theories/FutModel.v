(** Futures as concurrent.futures documents them: client.py 305-312 (made by send), 539-561 (completed by
    process_msg), 575-586, 647-677, and exception() and add_done_callback() of
    concurrent.futures.Future (library).

    Simplified: the callbacks of futures that one message completes run in the order in which they were
    added; a callback does not itself use the client.  Waiting is for what is in the socket already; C25
    is about time. *)
From Verif Require Import Py ObjTableModel SerModel FrameModel ServerModel ClientModel.

(** what happens, for the statements (add_done_callback, the call of a callback, the last reference to a
    future goes away; client.py 647-677) *)
Inductive fev := FAdded (rid : Z) (cb : nat) | FCalled (rid : Z) (cb : nat) (o : outcome) | FDropped (rid : Z).
(** a client (client.py 132-171), its socket, the futures that the program holds, the callbacks that wait
    in futures (library) *)
Record futst := mkF { f_cl : cl; f_in : list payload; f_held : list Z; f_wait : list (Z * nat); f_log : list fev }.
(** client.py 99-171 *)
Definition f0 (ser : string) (local : option string) (st : sst) : futst := mkF (new_client ser local st) [] [] [] [].

(** a callback of a completed future is called (library) by client.py 555, 557, 584 *)
Definition ready (k : cl) (w : Z * nat) : bool := match dget (c_done k) (fst w) with Some _ => true | None => false end.
(** the calls (library) by client.py 555, 557, 584 *)
Definition calls (k : cl) (l : list (Z * nat)) : list fev :=
  flat_map (fun '(r, cb) => match dget (c_done k) r with Some o => [FCalled r cb o] | None => [] end) l.

(** steps of a program: client.py 283-319 (sync='async'), a message arrives, client.py 502-529 while the
    program waits for whatever future, add_done_callback, and a future is given up *)
Inductive fop :=
| FSend (action : string) (opts : option pyval) (rt : string)
| FArrive (p : payload)
| FRead
| FAdd (rid : Z) (cb : nat)
| FDrop (rid : Z).
(** does not keep the future (client.py 151: the dictionary of futures is weak) *)
Definition forget (l : list (Z * nat)) (rid : Z) : list (Z * nat) := filter (fun w => negb (Z.eqb (fst w) rid)) l.

Section Fut.
  Variable V : venv.
  (** client.py 283-319, 502-529, 647-677 *)
  Definition fstep (s : futst) (o : fop) : futst :=
    match o with
    | FSend a v rt =>
        let '(k, _, r) := send V (f_cl s) a v rt Async in
        mkF k (f_in s) (match r with Ok (Some rid) => f_held s ++ [rid] | _ => f_held s end)%list (f_wait s) (f_log s)
    | FArrive p => mkF (f_cl s) (f_in s ++ [p])%list (f_held s) (f_wait s) (f_log s)
    | FRead =>
        match f_in s with
        | [] => s
        | p :: rest =>
            let k := fst (client_recv V (f_cl s) p) in
            mkF k rest (f_held s) (filter (fun w => negb (ready k w)) (f_wait s)) (f_log s ++ calls k (f_wait s))%list
        end
    | FAdd rid cb =>
        if smem rid (f_held s) then
          match dget (c_done (f_cl s)) rid with
          | Some o => mkF (f_cl s) (f_in s) (f_held s) (f_wait s) (f_log s ++ [FAdded rid cb; FCalled rid cb o])%list
          | None => mkF (f_cl s) (f_in s) (f_held s) (f_wait s ++ [(rid, cb)])%list (f_log s ++ [FAdded rid cb])%list
          end
        else s
    | FDrop rid =>
        if smem rid (f_held s) then
          mkF (drop_future (f_cl s) rid) (f_in s) (filter (fun x => negb (Z.eqb x rid)) (f_held s)) (forget (f_wait s) rid)
              (f_log s ++ [FDropped rid])%list
        else s
    end.
  (** a history of steps (client.py 283-319, 502-529, 647-677) *)
  Definition frun (s : futst) (os : list fop) : futst := fold_left fstep os s.

  (** how exception(timeout) ends: with what it returns, with TimeoutError, or never (library; not
      overridden by client.py 647-677) *)
  Inductive asked := Gives (e : option exn) | TimesOut | Never.
  (** concurrent.futures.Future.exception(timeout) (library), in the thread of the client: nobody reads the
      socket meanwhile (client.py 647-677) *)
  Definition exception_of (k : cl) (inbox : list payload) (rid : Z) (timeout : option Z) : cl * list payload * asked :=
    (k, inbox, match dget (c_done k) rid with
               | Some (Ok _) => Gives None
               | Some (Err e) => Gives (Some e)
               | None => match timeout with Some _ => TimesOut | None => Never end
               end).
  (** how result() ends with the messages that are in the socket (client.py 670-677) *)
  Inductive got := Has (o : outcome) | Raised (e : exn) | NotYet.
  (** client.py 448-500, 670-677 *)
  Fixpoint result_of (k : cl) (inbox : list payload) (rid : Z) : cl * list payload * got :=
    match dget (c_done k) rid with
    | Some o => (k, inbox, Has o)
    | None =>
        match inbox with
        | [] => (k, [], NotYet)
        | p :: rest =>
            match client_recv V k p with
            | (k1, None) => result_of k1 rest rid
            | (k1, Some e) => (k1, rest, Raised e)
            end
        end
    end.
End Fut.
