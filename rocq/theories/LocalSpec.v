(** Specification vocabulary for servers and clients of several threads. *)
From Verif Require Import Py LocalModel.
Local Open Scope nat_scope.

(** at some time of the history thread [t] had server [s] *)
Definition had (os : list lop) (t s : nat) : Prop := exists os1 os2, os = os1 ++ os2 /\ get_server (lrun os1) t = Some s.
Definition server_is (st : lst) (s : nat) (v : server) : Prop := nth_error (l_servers st) s = Some v.
Definition client_is (st : lst) (c : nat) (k : client) : Prop := nth_error (l_clients st) c = Some k.
Definition is_closed (st : lst) (s : nat) : Prop := exists v, server_is st s v /\ v_closed v = true.
Definition is_open (st : lst) (s : nat) : Prop := exists v, server_is st s v /\ v_closed v = false.
(** some thread runs the server's loop *)
Definition looping (st : lst) (s t : nat) : Prop := exists v, server_is st s v /\ v_loop v = true /\ v_thread v = Some t.
(** thread [t] has no client of server [s] *)
Definition no_client (st : lst) (t s : nat) : Prop := forall c k, client_is st c k -> ~ (c_thread k = t /\ c_server k = s).
(** the loop of another thread runs the server, or the calling thread has never had another *)
Definition attainable (os : list lop) (t s : nat) : Prop :=
  (exists t', looping (lrun os) s t' /\ t' <> t) \/ (get_server (lrun os) t = Some s /\ forall s', had os t s' -> s' = s).
(** a server is started in a thread *)
Definition starts (o : lop) (t s : nat) : Prop := o = LLazy t s \/ o = LForever t s.
(** in history [os] server [s] was started in thread [t], without an exception *)
Definition was_started (os : list lop) (t s : nat) : Prop :=
  exists os1 o os2, os = os1 ++ o :: os2 /\ starts o t s /\ snd (lstep (lrun os1) o) = Ok tt.
