(** Property C144: the address of the log server. *)
From Verif Require Import Py SetAddrModel SetAddrSpec SetAddrProofs.
Local Open Scope nat_scope.

(** C144.  get_logger_address is the address of the process's own log server once there is one, otherwise the
    last one that could be set, if any ... *)
Theorem C144_own_address :
  forall l n r, no_server l -> get_logger_address (lrun logst0 (l ++ OStart n :: r)%list) = Some n.
Proof. exact own_address. Qed.
Print Assumptions C144_own_address.
Theorem C144_set_address :
  forall os n, no_server os -> last_set os n -> get_logger_address (lrun logst0 os) = Some n.
Proof. exact set_address. Qed.
Print Assumptions C144_set_address.
Theorem C144_no_address :
  forall os, no_server os -> never_set os -> get_logger_address (lrun logst0 os) = None.
Proof. exact no_address. Qed.
Print Assumptions C144_no_address.

(** ... each record is sent once, to the address set last, and not kept, if no attempt has failed; nothing is sent
    before an address is set ... *)
Theorem C144_sent_to_last_partial :
  forall os n r, no_failure os -> last_set os n ->
  l_sent (lrun logst0 (os ++ [OLog r])%list) = (l_sent (lrun logst0 os) ++ [(n, r)])%list /\
  kept (lrun logst0 (os ++ [OLog r])%list) = [].
Proof. exact goes_to_last. Qed.
Print Assumptions C144_sent_to_last_partial.
Theorem C144_nothing_before_partial :
  forall os r, no_failure os -> never_set os -> l_sent (lrun logst0 (os ++ [OLog r])%list) = l_sent (lrun logst0 os).
Proof. exact not_sent. Qed.
Print Assumptions C144_nothing_before_partial.

(** ... but violated: after an attempt that raised, get_logger_address still gives the old address, yet nothing is
    sent there any more ... *)
Theorem C144_failed_attempt_refuted :
  forall os n rs, no_failure os -> no_server os -> last_set os n ->
  let st := lrun logst0 (os ++ OSet Bad :: map OLog rs)%list in
  get_logger_address st = Some n /\ l_sent st = l_sent (lrun logst0 os).
Proof. exact lost. Qed.
Print Assumptions C144_failed_attempt_refuted.

(** ... and each failed attempt before the first success leaves a handler that keeps every record for ever. *)
Theorem C144_kept_for_ever_refuted :
  forall k n rs,
  let st := lrun logst0 (repeat (OSet Bad) k ++ OSet (Good n) :: map OLog rs)%list in
  l_sent st = map (fun r => (n, r)) rs /\ List.length (kept st) = k * List.length rs.
Proof. exact keeps_all. Qed.
Print Assumptions C144_kept_for_ever_refuted.

(** two addresses, then a mistake; a relay *)
Definition two : list lop := [OLog 1; OSet (Good 5); OLog 2; OSet (Good 6); OLog 3].
Example C144_example :
  no_failure two /\ last_set two 6 /\ l_sent (lrun logst0 two) = [(5, 2); (6, 3)] /\
  l_sent (lrun logst0 (two ++ [OSet Bad; OLog 4; OLog 5])%list) = [(5, 2); (6, 3)] /\
  get_logger_address (lrun logst0 [OSet (Good 5); OStart 8; OSet (Good 6); OStart 9]) = Some 8.
Proof.
  split; [intros I; cbn in I; intuition congruence|]. split; [|repeat split].
  exists [OLog 1; OSet (Good 5); OLog 2], [OLog 3]. split; [reflexivity|]. intros m I. cbn in I. intuition congruence.
Qed.
