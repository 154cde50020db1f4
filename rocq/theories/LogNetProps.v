(** Property C126: forwarding log messages through several processes. *)
From Verif Require Import Py LogTreeModel LogTreeSpec LogNetModel LogNetSpec LogNetProofs.

(** C126.  When every process got its logger address from get_logger_address() of the process
    that started it, each process receives each message at most once, and never a message it
    logged itself; whatever else is configured, in any order of steps. *)
Theorem C126_received_once_partial :
  forall own os, different own -> inherited own os -> made_once os ->
  (forall p i, (received (nrun own net0 os) p i <= 1)%nat) /\
  (forall p n l i, In (NOp p (GLog n l i)) os -> received (nrun own net0 os) p i = 0%nat).
Proof. exact inherited_once. Qed.
Print Assumptions C126_received_once_partial.
(** Forwarding comes to an end: from every state only so many messages can be received
    without new ones being logged. *)
Theorem C126_forwarding_ends_partial :
  forall own os, different own -> inherited own os ->
  exists k, forall ds, Forall is_delivery ds -> (List.length (n_got (nrun own (nrun own net0 os) ds)) <= k)%nat.
Proof. exact inherited_ends. Qed.
Print Assumptions C126_forwarding_ends_partial.
(** No message that should be forwarded is lost: it is on its way to that address or was
    received there; first when it is logged, *)
Theorem C126_passed_on :
  forall own os1 p n level id a os2, let g := n_proc (nrun own net0 os1) p in
  forwards g a -> passes g n level -> 0 <= level ->
  let s' := nrun own net0 (os1 ++ NOp p (GLog n level id) :: os2) in
  In (a, mkR n level id) (n_fly s') \/ exists q, own q = a /\ In (q, mkR n level id) (n_got s').
Proof. exact passed_on. Qed.
Print Assumptions C126_passed_on.
(** then whenever a process on its way receives it. *)
Theorem C126_passed_on_again :
  forall own os1 i q r a os2, let s := nrun own net0 os1 in let g := n_proc s q in
  n_got (nstep own s (NDeliver i q)) = n_got s ++ [(q, r)] ->
  forwards g a -> passes g server_logger (lr_level r) -> 0 <= lr_level r ->
  let s' := nrun own net0 (os1 ++ NDeliver i q :: os2) in
  In (a, r) (n_fly s') \/ exists q', own q' = a /\ In (q', r) (n_got s').
Proof. exact passed_on_again. Qed.
Print Assumptions C126_passed_on_again.
(** C126 does not hold in general: a process that sets its logger address to that of its own
    log server handles the same message any number of times, and it is still on its way. *)
Theorem C126_own_server_loops_refuted :
  forall own os p r i, let s := nrun own net0 os in let g := n_proc s p in
  g_server g = true -> n_dead s p = false -> forwards g (own p) -> passes g server_logger (lr_level r) -> 0 <= lr_level r ->
  nth_error (n_fly s) i = Some (own p, r) ->
  forall k, exists ds, Forall is_delivery ds /\ let s' := nrun own s ds in
    In (own p, r) (n_fly s') /\ received s' p (lr_id r) = (received s p (lr_id r) + k)%nat.
Proof. exact loops. Qed.
Print Assumptions C126_own_server_loops_refuted.

(** Three processes: 0 has a log server; 0 has started 1, which has a log server too, and 1
    has started 2. *)
Fixpoint addr (p : nat) : string := match p with O => "tcp://" | S q => String "1" (addr q) end.
Lemma addr_different : different addr.
Proof. intros p. induction p as [|p IH]; intros [|q] E; try discriminate; auto. injection E as E. f_equal. auto. Qed.
Definition three : list nop :=
  [NOp 0 (GBasic 20 false true); NOp 1 GServer; NOp 1 (GSetAddr (addr 0)); NOp 1 GSetAddrEnd; NOp 1 (GLevel [] 20);
   NOp 2 (GSetAddr (addr 1)); NOp 2 GSetAddrEnd; NOp 2 (GLog ["app"] 30 7); NDeliver 0 1; NDeliver 0 0].
Example C126_case : let r := mkR ["app"]%string 30 7 in
  different addr /\ inherited addr three /\ made_once three /\
  n_got (nrun addr net0 three) = [(1%nat, r); (0%nat, r)] /\ n_fly (nrun addr net0 three) = [] /\
  forwards (n_proc (nrun addr net0 (firstn 7 three)) 2) (addr 1) /\ passes (n_proc (nrun addr net0 (firstn 7 three)) 2) ["app"]%string 30.
Proof.
  cbn zeta. split; [exact addr_different|]. split; [|split; [|split; [reflexivity|split; [reflexivity|split]]]].
  - intros os1 p a os2 E. unfold three in E.
    do 10 (destruct os1 as [|x os1];
      [cbn in E; first [discriminate E|injection E as <- <- _; first [exists 0%nat; split; [lia|reflexivity]|exists 1%nat; split; [lia|reflexivity]]]
      |cbn in E; injection E as E0 E; subst x]).
    destruct os1; discriminate E.
  - unfold made_once, three. cbn. repeat constructor. intros [].
  - split; [reflexivity|]. split; [discriminate|reflexivity].
  - split.
    + exists 30. split; [|lia]. exists []. split; [exists ["app"]%string; reflexivity|]. split; [reflexivity|]. split; [lia|].
      intros b _ _ N. destruct b; [contradiction|reflexivity].
    + exists ["app"]%string. split; [reflexivity|]. intros b _ _ N. destruct b; [contradiction|reflexivity].
Qed.
(** one process that forwards to itself *)
Definition alone : list nop :=
  [NOp 0 (GBasic 20 false true); NOp 0 (GSetAddr (addr 0)); NOp 0 GSetAddrEnd; NOp 0 (GLog ["app"] 30 7)].
Example C126_loop_case : let s := nrun addr net0 alone in let g := n_proc s 0 in
  g_server g = true /\ n_dead s 0%nat = false /\ forwards g (addr 0) /\ passes g server_logger 30 /\
  nth_error (n_fly s) 0 = Some (addr 0, mkR ["app"]%string 30 7) /\
  received (nrun addr s [NDeliver 0 0; NDeliver 0 0; NDeliver 0 0]) 0 7 = 3%nat.
Proof.
  cbn zeta. split; [reflexivity|]. split; [reflexivity|]. split; [split; [reflexivity|split; [discriminate|reflexivity]]|].
  split; [|split; reflexivity]. split.
  - exists 20. split; [|lia]. exists []. split; [exists server_logger; reflexivity|]. split; [reflexivity|]. split; [lia|].
    intros b _ _ N. destruct b; [contradiction|reflexivity].
  - exists server_logger. split; [reflexivity|]. intros b _ _ N. destruct b; [contradiction|reflexivity].
Qed.
