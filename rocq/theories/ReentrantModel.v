(** Threads that serve requests while they wait for replies: teleprox/client.py
    448-500 [process_until_future] with a poller over the client's and the local
    server's socket (or, if not [reentrant], over the client's socket only:
    193-211), teleprox/server.py 252-323, 439-457.

    What a request does is a program: it may send requests to other threads (or to
    its own), wait for their results in any order, decide what to do next from what
    it got, and finally return or raise.  Programs are finite (inductive), which is
    what "finite pattern of nested calls" means.  Timeouts are not modelled: every
    wait is unlimited.  Values are outcomes (result or exception). *)
From Verif Require Import Py ObjTableModel SerModel.

(** threads, results and what user code does: server.py 262-323, client.py 227-319 *)
Definition tid := nat.
(** threads, results and what user code does: server.py 262-323, client.py 227-319 *)
Definition value := res pyval.
(** threads, results and what user code does: server.py 262-323, client.py 227-319 *)
Inductive prog :=
| Ret (v : value)
| Async (t : tid) (q : prog) (p : prog)    (* fut = call(q at t, sync='async'); then p *)
| Off (t : tid) (q : prog) (p : prog)      (* call(q at t, sync='off'); then p *)
| Await (i : nat) (k : value -> prog).     (* k(result of the i-th future) *)
(** a synchronous call is an asynchronous one followed by waiting for it *)

(** One [_process_one] call in progress (or the main program of a thread). (server.py 262-323) *)
Record fr := mkFr {
  f_tid : tid;
  f_rid : option nat;        (* the request to answer; None for sync='off' *)
  f_futs : list nat;         (* requests made so far, in order *)
  f_prog : prog              (* what is left to do *)
}.

(** All frames, newest first; the stack of thread t are those with [f_tid] t, the
    first being the one that runs or waits. (server.py 262-323, client.py 448-500) *)
Record rsys := mkR {
  r_frames : list fr;
  r_queue : list (tid * option nat * prog);   (* requests on their way, oldest first *)
  r_replies : list (nat * value);             (* replies on their way or read *)
  r_next : nat
}.

(** the call in progress in a thread, server.py 262-323 *)
Fixpoint top (t : tid) (l : list fr) : option fr :=
  match l with [] => None | f :: r => if Nat.eqb (f_tid f) t then Some f else top t r end.
(** replace (or remove) the topmost frame of [t] (the call in progress in a thread, server.py 262-323) *)
Fixpoint upd_top (t : tid) (o : option fr) (l : list fr) : list fr :=
  match l with
  | [] => []
  | f :: r => if Nat.eqb (f_tid f) t then match o with Some f' => f' :: r | None => r end
              else f :: upd_top t o r
  end.
(** take the [n]-th request for thread [t] out of the queue (server.py 252-260) *)
Fixpoint take (t : tid) (n : nat) (q : list (tid * option nat * prog))
  : option (option nat * prog * list (tid * option nat * prog)) :=
  match q with
  | [] => None
  | (t', r, p) :: rest =>
      if Nat.eqb t' t then
        match n with
        | O => Some (r, p, rest)
        | S m => match take t m rest with Some (a, b, c) => Some (a, b, (t', r, p) :: c) | None => None end
        end
      else match take t n rest with Some (a, b, c) => Some (a, b, (t', r, p) :: c) | None => None end
  end.
(** client.py 539-561 *)
Fixpoint lookup (r : nat) (l : list (nat * value)) : option value :=
  match l with [] => None | (r', v) :: rest => if Nat.eqb r' r then Some v else lookup r rest end.

(** server.py 252-260, client.py 476-500 *)
Inductive rlabel :=
| Serve (t : tid) (n : nat)   (* thread t reads a request *)
| Go (t : tid).               (* the innermost frame of t does its next step *)

Section Re.
  Variable reentrant : tid -> bool.

  (** can thread [t] read its server's socket?  In run_forever, or while waiting
      in a reentrant client (client.py 193-211, 476-500; server.py 444-454) *)
  Definition polls (t : tid) (l : list fr) : bool :=
    match top t l with
    | None => true
    | Some f => match f_prog f with Await _ _ => reentrant t | _ => false end
    end.

  (** server.py 252-323, client.py 448-561 *)
  Definition rstep (s : rsys) (l : rlabel) : option rsys :=
    match l with
    | Serve t n =>
        if polls t (r_frames s) then
          match take t n (r_queue s) with
          | None => None
          | Some (r, p, q) => Some (mkR (mkFr t r [] p :: r_frames s) q (r_replies s) (r_next s))
          end
        else None
    | Go t =>
        match top t (r_frames s) with
        | None => None
        | Some f =>
            match f_prog f with
            | Ret v =>
                Some (mkR (upd_top t None (r_frames s)) (r_queue s)
                          (match f_rid f with Some r => r_replies s ++ [(r, v)] | None => r_replies s end) (r_next s))
            | Async t' q p =>
                Some (mkR (upd_top t (Some (mkFr t (f_rid f) (f_futs f ++ [r_next s]) p)) (r_frames s))
                          (r_queue s ++ [(t', Some (r_next s), q)]) (r_replies s) (S (r_next s)))
            | Off t' q p =>
                Some (mkR (upd_top t (Some (mkFr t (f_rid f) (f_futs f) p)) (r_frames s))
                          (r_queue s ++ [(t', None, q)]) (r_replies s) (r_next s))
            | Await i k =>
                match nth_error (f_futs f) i with
                | None => Some (mkR (upd_top t (Some (mkFr t (f_rid f) (f_futs f) (k (Err AttributeError)))) (r_frames s))
                                    (r_queue s) (r_replies s) (r_next s))     (* no such future *)
                | Some r =>
                    match lookup r (r_replies s) with
                    | None => None
                    | Some v => Some (mkR (upd_top t (Some (mkFr t (f_rid f) (f_futs f) (k v))) (r_frames s))
                                          (r_queue s) (r_replies s) (r_next s))
                    end
                end
            end
        end
    end.
  (** a history of steps (server.py 252-323, client.py 448-561) *)
  Fixpoint rrun (s : rsys) (ls : list rlabel) : option rsys :=
    match ls with
    | [] => Some s
    | l :: r => match rstep s l with Some s' => rrun s' r | None => None end
    end.
End Re.

(** Any number of callers: [mains] are threads that run a program of their own (and
    serve when it is done), [calls] are requests from threads that do not serve. (server.py 444-454) *)
Definition rinit (mains calls : list (tid * prog)) : rsys :=
  let n := List.length mains in
  mkR (map (fun '(i, (t, p)) => mkFr t (Some i) [] p) (combine (seq 0 n) mains))
      (map (fun '(i, (t, p)) => (t, Some i, p)) (combine (seq n (List.length calls)) calls))
      [] (n + List.length calls).
