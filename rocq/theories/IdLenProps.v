(** Property C140: clients and long names. *)
From Verif Require Import Py NameModel ProcessModel IdLenModel IdLenSpec IdLenProofs.
Local Open Scope Z_scope.

(** C140.  A client gets the identity made of the names and the address if these have at most 252 bytes
    together ... *)
Theorem C140_short_names_partial :
  forall p tid addr, total p tid addr <= 252 -> new_client p tid addr = Ok (full p tid addr).
Proof. exact short_ok. Qed.
Print Assumptions C140_short_names_partial.

(** ... but violated: with longer names no client can be made ... *)
Theorem C140_long_names_refuted :
  forall p tid addr, 252 < total p tid addr -> new_client p tid addr = Err ZMQError.
Proof. exact long_fails. Qed.
Print Assumptions C140_long_names_refuted.

(** ... and the names that start_process itself chooses get longer with each generation: from the 43rd on no
    process can connect to anything, whatever the first one was called. *)
Theorem C140_generations_refuted :
  forall prefix host p ids tid addr, 42 < Z.of_nat (List.length ids) ->
  new_client (generation prefix host p ids) tid addr = Err ZMQError.
Proof. exact too_deep. Qed.
Print Assumptions C140_generations_refuted.

(** a grandchild *)
Example C140_example :
  new_client (generation "t-" "lab" (new_process "lab" 17) [(18, 1); (19, 1)]%N) 1 "tcp://x" =
    Ok "lab.t-t-process-17_child_child.main_thread:tcp://x"%string /\
  new_client (generation "" "lab" (new_process "lab" 17) (repeat (18, 1)%N 43)) 1 "tcp://x" = Err ZMQError /\
  total (generation "t-" "lab" (new_process "lab" 17) [(18, 1); (19, 1)]%N) 1 "tcp://x" = 47.
Proof. repeat split; vm_compute; reflexivity. Qed.
