(** Properties C46, C47, C97 - C101: starting a process. *)
From Verif Require Import Py UtilModel UtilSpec UtilProofs ProcessModel ProcessSpec ProcessProofs.
Local Open Scope Z_scope.

(** C46.  The child reads what was asked for, if the name does not begin with '-', the
    address is a string, the log address (if any) is bytes and the level is not negative;
    the level only if there is a log address. *)
Theorem C46_config_recovered_partial :
  forall p q boot listen name log n, readable p q name log n -> q_address q = TStr listen ->
  exists args c0 c, bootstrap_args p q boot = Ok args /\ parse_args args = Some c0 /\ configure c0 = Ok c /\
  got c (mkAsk name (q_qt q) (q_daemon q) (log_text log) (match log with None => 20 | Some _ => n end) listen boot (p_prefix p)).
Proof.
  intros p q boot listen name log n R A. apply readable_is in R. destruct R as (R & <- & <-).
  destruct (readable_conf p q boot n R) as (args & c0 & c & H1 & H2 & H3 & H4 & _).
  rewrite A in H4. eauto 10.
Qed.
Print Assumptions C46_config_recovered_partial.
Definition par0 : parent := mkPar "main" None 30 "tp_".
Definition req0 : request := mkQ (Some "my proc=1") (TStr "tcp://127.0.0.1:*") true false (Some (TBytes "tcp://h:1")) (LStr "debug").
Example C46_case : readable par0 req0 "tp_my proc=1" (Some (TBytes "tcp://h:1")) 10.
Proof.
  split; [left; eexists; split; reflexivity|]. split; [intros r; discriminate|]. split; [left; eexists; split; reflexivity|].
  split; [right; eexists; reflexivity|]. split; [|lia]. exists "DEBUG"%string. split; [|cbn; tauto].
  apply (sp_small 68), (sp_small 69), (sp_small 66), (sp_small 85), (sp_small 71), sp_nil; lia.
Qed.
(** Without a log address the level is not passed on: the child always has level INFO. *)
Theorem C46_level_dropped_refuted :
  forall p q boot name n, readable p q name None n ->
  exists args c0 c, bootstrap_args p q boot = Ok args /\ parse_args args = Some c0 /\ configure c0 = Ok c /\
  dget c "loglevel" = Some (VInt 20).
Proof.
  intros p q boot name n R. apply readable_is in R. destruct R as (R & _ & A).
  destruct (readable_conf p q boot n R) as (args & c0 & c & H1 & H2 & H3 & (_ & _ & _ & _ & H4 & _) & _).
  rewrite A in H4. eauto 10.
Qed.
Print Assumptions C46_level_dropped_refuted.
Example C46_level_case : readable par0 (mkQ (Some "a") (TStr "x") false false None (LInt 10)) "tp_a" None 10.
Proof.
  split; [left; eexists; split; reflexivity|]. split; [intros r; discriminate|]. split; [right; right; auto|].
  split; [left; reflexivity|]. split; [reflexivity|lia].
Qed.

(** C97.  A child whose name begins with '-' (and is not a number, and has no blank) never
    starts, whatever the machine does: the name is taken for an option. *)
Theorem C97_dash_name_refuted :
  forall p q w c r log n, asks_name p q (String "-" (String c r)) ->
  ~ In c ["-"; "h"; "="; "."]%char -> ~ (48 <= nat_of_ascii c <= 57)%nat -> ~ occurs " " (String "-" (String c r)) ->
  asks_log p q log -> sendable log -> asks_level p q n ->
  start_process false p q w = (Err TimeoutError, false).
Proof. exact dash_name. Qed.
Print Assumptions C97_dash_name_refuted.
Definition wok : world := mkWd "tcp://127.0.0.1:5" true (fun _ => Ok "tcp://127.0.0.1:6") true false true.
Example C97_case : start_process false (mkPar "main" None 30 "") (mkQ (Some "-worker") (TStr "tcp://127.0.0.1:*") false false None LNone) wok = (Err TimeoutError, false).
Proof. reflexivity. Qed.

(** C98.  A log address given as str, as documented, is refused; a listening address given
    as bytes, which is accepted, reaches the child as something else. *)
Theorem C98_str_log_address_refuted :
  forall shell p q w a n, q_log_addr q = Some (TStr a) -> asks_level p q n -> start_process shell p q w = (Err AttributeError, false).
Proof. intros sh p q w a n E L. apply asks_level_of in L. unfold start_process, bootstrap_args, log_addr_of. rewrite L, E. reflexivity. Qed.
Print Assumptions C98_str_log_address_refuted.
Theorem C98_bytes_address_refuted :
  forall p q boot a name log n, readable p q name log n -> q_address q = TBytes a ->
  exists args c0 c, bootstrap_args p q boot = Ok args /\ parse_args args = Some c0 /\ configure c0 = Ok c /\
  dget c "listen_addr" = Some (VStr ("b'" ++ a ++ "'")).
Proof.
  intros p q boot a name log n R A. apply readable_is in R. destruct R as (R & _ & _).
  destruct (readable_conf p q boot n R) as (args & c0 & c & H1 & H2 & H3 & (_ & _ & _ & _ & _ & H4 & _) & _).
  rewrite A in H4. eauto 10.
Qed.
Print Assumptions C98_bytes_address_refuted.
Example C98_case : q_log_addr (mkQ None (TBytes "tcp://127.0.0.1:*") false false (Some (TStr "tcp://h:1")) LNone) = Some (TStr "tcp://h:1").
Proof. reflexivity. Qed.

(** C47.  If the server cannot be made, no child is left, and start_process raises ... *)
Theorem C47_no_child_left_partial :
  forall p q w listen name log n e, readable p q name log n -> q_address q = TStr listen -> w_server w listen = Err e ->
  exists x, start_process false p q w = (Err x, false).
Proof.
  intros p q w listen name log n e R AD E. apply readable_is in R. destruct R as (R & _ & _). destruct (run_child_readable p q (w_boot w) n (w_qt w) (w_server w) R) as (args & A & C).
  exists TimeoutError. unfold start_process. rewrite A. cbn [through_shell]. rewrite C, AD. cbn [format_text]. rewrite E.
  destruct (q_qt q && negb (w_qt w)); reflexivity.
Qed.
Print Assumptions C47_no_child_left_partial.
(** ... but always a TimeoutError, never the RuntimeError with the error of the child. *)
Theorem C47_error_not_reported_refuted :
  forall p q w listen name log n e, readable p q name log n -> q_address q = TStr listen -> w_server w listen = Err e ->
  fst (start_process false p q w) = Err TimeoutError.
Proof.
  intros p q w listen name log n e R AD E. apply readable_is in R. destruct R as (R & _ & _). destruct (run_child_readable p q (w_boot w) n (w_qt w) (w_server w) R) as (args & A & C).
  unfold start_process. rewrite A. cbn [through_shell]. rewrite C, AD. cbn [format_text]. rewrite E. destruct (q_qt q && negb (w_qt w)); reflexivity.
Qed.
Print Assumptions C47_error_not_reported_refuted.
Example C47_case : readable par0 req0 "tp_my proc=1" (Some (TBytes "tcp://h:1")) 10 /\
  start_process false par0 req0 (mkWd "tcp://127.0.0.1:5" true (fun _ => Err ZMQError) true false true) = (Err TimeoutError, false).
Proof. split; [exact C46_case|reflexivity]. Qed.

(** C99.  When start_process raises, the child may be left running: if it was too slow,
    or if the client cannot be made. *)
Theorem C99_child_left_running_refuted :
  forall p q w listen name log n a, readable p q name log n -> q_address q = TStr listen -> (q_qt q = true -> w_qt w = true) -> w_server w listen = Ok a ->
  w_in_time w && w_connect w = false ->
  exists e, start_process false p q w = (Err e, true).
Proof.
  intros p q w listen name log n a R AD Q E B. apply readable_is in R. destruct R as (R & <- & _). destruct (run_child_readable p q (w_boot w) n (w_qt w) (w_server w) R) as (args & A & C).
  unfold start_process. rewrite A. cbn [through_shell]. rewrite C, AD. cbn [format_text]. rewrite E.
  replace (q_qt q && negb (w_qt w)) with false by (destruct (q_qt q); [rewrite Q by reflexivity|]; reflexivity). unfold receive. cbn [fst snd].
  destruct (w_in_time w), (w_connect w); try discriminate; eauto.
Qed.
Print Assumptions C99_child_left_running_refuted.
Example C99_case : start_process false par0 req0 (mkWd "tcp://127.0.0.1:5" true (fun _ => Ok "tcp://127.0.0.1:6") false false true) = (Err TimeoutError, true).
Proof. reflexivity. Qed.

(** C100.  If all goes well start_process returns a handle with the full name and a client
    for the address the server really has, and the child runs. *)
Theorem C100_started :
  forall p q w listen name log n a, readable p q name log n -> q_address q = TStr listen -> (q_qt q = true -> w_qt w = true) -> w_server w listen = Ok a ->
  w_in_time w = true -> w_connect w = true ->
  start_process false p q w = (Ok (mkHd name (q_qt q) a), true).
Proof.
  intros p q w listen name log n a R AD Q E T K. apply readable_is in R. destruct R as (R & <- & _). destruct (run_child_readable p q (w_boot w) n (w_qt w) (w_server w) R) as (args & A & C).
  unfold start_process. rewrite A. cbn [through_shell]. rewrite C, AD. cbn [format_text]. rewrite E.
  replace (q_qt q && negb (w_qt w)) with false by (destruct (q_qt q); [rewrite Q by reflexivity|]; reflexivity). unfold receive. cbn [fst snd]. rewrite T, K. reflexivity.
Qed.
Print Assumptions C100_started.
Example C100_case : start_process false par0 req0 wok = (Ok (mkHd "tp_my proc=1" true "tcp://127.0.0.1:6"), true).
Proof. reflexivity. Qed.

(** C101.  With shell=True the arguments arrive unchanged if none is empty or has a blank ... *)
Theorem C101_shell_partial : forall l, Forall plain_word l -> through_shell true l = l.
Proof. exact split_join. Qed.
Print Assumptions C101_shell_partial.
(** ... and a name with a blank keeps the child from starting. *)
Theorem C101_shell_blank_refuted :
  exists p q, readable p q "my proc" None 30 /\ fst (start_process false p q wok) = Ok (mkHd "my proc" false "tcp://127.0.0.1:6") /\
  start_process true p q wok = (Err TimeoutError, false).
Proof.
  exists (mkPar "main" None 30 ""), (mkQ (Some "my proc") (TStr "tcp://127.0.0.1:*") false false None LNone).
  split; [|split; reflexivity]. split; [left; eexists; split; reflexivity|]. split; [intros r; discriminate|].
  split; [right; right; auto|]. split; [left; reflexivity|]. split; [reflexivity|lia].
Qed.
Print Assumptions C101_shell_blank_refuted.
Example C101_case : Forall plain_word ["worker"; "--qt"].
Proof. repeat constructor; try discriminate; rewrite <- contains_spec; discriminate. Qed.
