(** Property C139: filters of loggers and handlers. *)
From Verif Require Import Py FilterModel FilterSpec FilterProofs.

(** C139.  Without filters on LogSender and QtLogHandler, exactly the handlers that want a record pass it on,
    in the process that logs and behind a LogServer that filters by level ... *)
Theorem C139_obeyed_partial :
  forall l r i, (forall h, In h (fl_hands l) -> ~ own_handle h \/ fh_filters h = []) ->
  (In i (local_log l r) <-> passed_on l r i) /\ (In i (server_log true l r) <-> passed_on l r i).
Proof. exact obeyed. Qed.
Print Assumptions C139_obeyed_partial.

(** ... with any handlers, nobody who wants a record misses it ... *)
Theorem C139_none_missed_partial :
  forall l r i, passed_on l r i -> In i (local_log l r) /\ In i (server_log true l r).
Proof. exact none_missed. Qed.
Print Assumptions C139_none_missed_partial.

(** ... and levels and the filters of the logger are always obeyed ... *)
Theorem C139_levels_partial :
  forall l r i, In i (local_log l r) -> lets l r /\ exists h, nth_error (fl_hands l) i = Some h /\ fh_level h <= fr_level r.
Proof. exact at_least. Qed.
Print Assumptions C139_levels_partial.

(** ... but violated: LogSender and QtLogHandler pass on whatever their filters refuse. *)
Theorem C139_filters_ignored_refuted :
  forall l r i h, lets l r -> nth_error (fl_hands l) i = Some h -> own_handle h -> fh_level h <= fr_level r ->
  (exists f, In f (fh_filters h) /\ f r = false) ->
  ~ passed_on l r i /\ In i (local_log l r) /\ In i (server_log true l r).
Proof. exact ignored. Qed.
Print Assumptions C139_filters_ignored_refuted.

(** a console, a sender and a console, all refusing records about 7, the last with level ERROR *)
Definition no7 : lfilter := fun r => negb (Nat.eqb (fr_rest r) 7).
Definition fl0 : flog := mkFL 10 false [fun r => negb (Nat.eqb (fr_rest r) 9)]
  [mkFH FConsole 0 [no7]; mkFH FSender 0 [no7]; mkFH FConsole 40 [no7]].
Example C139_example :
  local_log fl0 (mkFR 20 7) = [1%nat] /\ local_log fl0 (mkFR 40 8) = [0; 1; 2]%nat /\ local_log fl0 (mkFR 40 9) = [] /\
  server_log true fl0 (mkFR 5 8) = [] /\ lets fl0 (mkFR 20 7) /\ own_handle (mkFH FSender 0 [no7]).
Proof.
  repeat (split; [reflexivity|]). split; [|left; reflexivity]. split; [reflexivity|]. split; [cbn; lia|].
  intros f [<-|[]]. reflexivity.
Qed.
