(** Property of RPCClient.check_address (C121). *)
From Verif Require Import Py AddrModel AddrSpec AddrProofs.
Local Open Scope Z_scope.

(** ** C121: check_address reports what connecting gives, and None for anything else *)
Theorem C121_reports_partial : forall n a h p, address a h p -> p <= 65535 -> n_find n h = Found ->
  check_address n a = Ok (Some (status_of (n_connect n h p))).
Proof. exact check_reports. Qed.
Print Assumptions C121_reports_partial.
Theorem C121_no_address_partial : forall n a, (forall h p, ~ address a h p) -> check_address n a = Ok None.
Proof. exact check_none. Qed.
Print Assumptions C121_no_address_partial.
(** RPCClient() raises ConnectionRefusedError exactly if the attempt neither succeeded nor timed out *)
Theorem C121_client_refused_partial : forall n a h p, address a h p -> p <= 65535 -> n_find n h = Found ->
  (n_connect n h p = Accepted \/ n_connect n h p = TimedOut) /\ client_check n a = Ok tt \/
  ~ (n_connect n h p = Accepted \/ n_connect n h p = TimedOut) /\ client_check n a = Err ConnectionRefusedError.
Proof. exact client_refused. Qed.
Print Assumptions C121_client_refused_partial.
Example C121_case : address "tcp://a:b:0080" "a:b" 80 /\ forall h p, ~ address "ipc://a:80" h p.
Proof.
  split.
  - exists "0080"%string. split.
    + apply (number_more "008" 8 "0" 0); [|unfold digit_is; tauto]. apply (number_more "00" 0 "8" 8); [|unfold digit_is; tauto].
      apply (number_more "0" 0 "0" 0); [|unfold digit_is; tauto]. apply number_one. unfold digit_is; tauto.
    + split; [|left; reflexivity]. split; [discriminate|]. intros a b E.
      do 3 (destruct a as [|? a]; [discriminate E|injection E as _ E]). destruct a; discriminate E.
  - intros h p (d & _ & _ & [E|E]); discriminate E.
Qed.

(** An impossible port is an OverflowError, where None is documented; RPCClient() fails with it. *)
Theorem C121_big_port_refuted : forall n a h p, address a h p ->
  n_find n h = Found /\ 65535 < p \/ n_find n h = Unknown /\ 2147483647 < p ->
  check_address n a = Err (UserExc "OverflowError") /\ client_check n a = Err (UserExc "OverflowError").
Proof. exact check_overflow. Qed.
Print Assumptions C121_big_port_refuted.
(** A host that does not exist is "closed", where None is documented; RPCClient() says that the
    connection was refused. *)
Theorem C121_unknown_host_refuted : forall n a h p, address a h p -> p <= 2147483647 -> n_find n h = Unknown ->
  check_address n a = Ok (Some SClosed) /\ client_check n a = Err ConnectionRefusedError.
Proof. exact check_unknown. Qed.
Print Assumptions C121_unknown_host_refuted.
Example C121_big_port_case : address "tcp://a:70000" "a" 70000.
Proof.
  exists "70000"%string. split.
  - apply (number_more "7000" 7000 "0" 0); [|unfold digit_is; tauto]. apply (number_more "700" 700 "0" 0); [|unfold digit_is; tauto].
    apply (number_more "70" 70 "0" 0); [|unfold digit_is; tauto]. apply (number_more "7" 7 "0" 0); [|unfold digit_is; tauto]. apply number_one. unfold digit_is; tauto.
  - split; [|left; reflexivity]. split; [discriminate|]. intros a b E. do 1 (destruct a as [|? a]; [discriminate E|injection E as _ E]). destruct a; discriminate E.
Qed.
