(** Properties C114 to C117: which handlers get a message. *)
From Verif Require Import Py LogTreeModel LogTreeSpec LogTreeProofs.

(** C114.  While only the root logger is configured, a message that was forwarded to the log
    server is treated exactly like a message logged here under the same name. *)
Theorem C114_like_local_partial :
  forall g r, only_root (g_tree g) -> g_server g = true ->
  forwarded g r = log g (lr_name r) (lr_level r) (lr_id r).
Proof. exact like_local. Qed.
Print Assumptions C114_like_local_partial.
(** The handlers of the logger with the message's name are passed over. *)
Theorem C114_handlers_passed_over_refuted :
  forall g r h l, g_server g = true -> g_making g = None -> level_is (g_tree g) (lr_name r) l -> l <= lr_level r ->
  In h (g_hand (g_tree g (lr_name r))) -> takes g h (lr_level r) ->
  (forall a, above a server_logger -> ~ In h (g_hand (g_tree g a))) -> ~ In (To h, r) (g_out g) ->
  In (To h, r) (g_out (fst (log g (lr_name r) (lr_level r) (lr_id r)))) /\ ~ In (To h, r) (g_out (fst (forwarded g r))).
Proof. exact like_local_name_refuted. Qed.
Print Assumptions C114_handlers_passed_over_refuted.
(** A level set for Teleprox's own messages suppresses the forwarded ones. *)
Theorem C114_own_level_counts_refuted :
  forall g r lr l, g_making g = None -> level_is (g_tree g) server_logger lr -> lr_level r < lr ->
  level_is (g_tree g) (lr_name r) l -> l <= lr_level r -> propagates (g_tree g) (lr_name r) [] ->
  forall h, In h (g_hand (g_tree g [])) -> takes g h (lr_level r) ->
  In (To h, r) (g_out (fst (log g (lr_name r) (lr_level r) (lr_id r)))) /\ fst (forwarded g r) = g.
Proof. exact like_local_level_refuted. Qed.
Print Assumptions C114_own_level_counts_refuted.
(** handler 1 on "app", then level WARNING on "teleprox" *)
Example C114_case :
  let r := mkR ["app"]%string 20 5 in
  let g1 := grun [GBasic 20 true true] in
  let g2 := gstep g1 (GAdd ["app"]%string 0) in
  let g3 := gstep g2 (GLevel ["teleprox"]%string 30) in
  g_out (fst (forwarded g1 r)) = [(To 0%nat, r)] /\
  g_out (fst (log g2 ["app"]%string 20 5)) = [(To 1%nat, r); (To 0%nat, r)] /\
  g_out (fst (forwarded g2 r)) = [(To 0%nat, r)] /\
  g_out (fst (log g3 ["app"]%string 20 5)) = [(To 1%nat, r); (To 0%nat, r)] /\
  g_out (fst (forwarded g3 r)) = [].
Proof. repeat split; reflexivity. Qed.

(** C115.  After one call of basic_config every message that reaches the root logger is
    written once. *)
Theorem C115_written_once_partial :
  forall os n level id, basics os = 1%nat -> let g := grun os in g_making g = None -> passes g n level -> 0 <= level ->
  times (is_console g) (news g (fst (log g n level id))) = 1%nat.
Proof. exact written_once. Qed.
Print Assumptions C115_written_once_partial.
(** It is written once for each call, also for calls that raise an exception because there
    is a log server already. *)
Theorem C115_written_again_refuted :
  forall os l e, let g := grun os in g_server g = true ->
  snd (basic_config g l e true) = Err (UserExc "Exception") /\
  let g' := grun (os ++ [GBasic l e true]) in
  forall n level id, g_making g' = None -> passes g' n level -> 0 <= level ->
  times (is_console g') (news g' (fst (log g' n level id))) = S (basics os).
Proof. exact written_again. Qed.
Print Assumptions C115_written_again_refuted.
Example C115_case :
  let g := grun [GBasic 20 true true; GBasic 20 true true; GBasic 10 true false] in
  g_out (fst (log g ["a"; "b"]%string 20 7)) = [(To 0, mkR ["a"; "b"]%string 20 7); (To 1, mkR ["a"; "b"]%string 20 7); (To 2, mkR ["a"; "b"]%string 20 7)]%nat /\
  passes g ["a"; "b"]%string 20.
Proof.
  cbn zeta. split; [reflexivity|]. split.
  - exists 10. split; [|lia]. exists []. split; [apply nil_above|]. split; [reflexivity|]. split; [lia|].
    intros b _ _ N. destruct b; [contradiction|reflexivity].
  - exists ["a"; "b"]%string. split; [reflexivity|]. intros b _ _ N. destruct b; [contradiction|reflexivity].
Qed.

(** C116.  While the root logger takes warnings, an exception that ends the program or a
    thread is given exactly once to each handler of the root logger, or to stderr if there are
    none; however often log_exceptions was called. *)
Theorem C116_reported_once_partial :
  forall os os' u, forallb keeps_hooks os' = true -> is_error u -> let g := grun (os ++ GExceptions :: os') in
  g_making g = None -> g_level (g_tree g []) <> 0 -> g_level (g_tree g []) <= 30 ->
  exists g' l, ends_with g u = (g', Logged l) /\ NoDup l /\
    (g_hand (g_tree g []) = [] -> l = [ToStderr]) /\
    (g_hand (g_tree g []) <> [] -> forall d, In d l <-> exists h, d = To h /\ In h (g_hand (g_tree g [])) /\ takes g h 30).
Proof. exact reported. Qed.
Print Assumptions C116_reported_once_partial.
(** With a higher level nobody learns of it; without Teleprox the interpreter prints it. *)
Theorem C116_vanishes_refuted :
  forall os level s u, let g := grun os in python_hooks g -> is_error u -> 30 < level ->
  snd (ends_with g u) = Printed /\ snd (ends_with (fst (basic_config g level true s)) u) = Logged [].
Proof. exact vanishes. Qed.
Print Assumptions C116_vanishes_refuted.
(** sys.exit() in a thread is reported as an unhandled exception. *)
Theorem C116_exit_reported_refuted :
  forall os id, let g := grun os in python_hooks g -> g_making g = None ->
  g_level (g_tree g []) <> 0 -> g_level (g_tree g []) <= 30 ->
  (g_hand (g_tree g []) = [] \/ exists h, In h (g_hand (g_tree g [])) /\ takes g h 30) ->
  snd (ends_with g (ExitInThread id)) = Silent /\
  exists l, snd (ends_with (gstep g GExceptions) (ExitInThread id)) = Logged l /\ l <> [].
Proof. exact exit_reported. Qed.
Print Assumptions C116_exit_reported_refuted.
Example C116_case :
  snd (ends_with gst0 (InMain 1)) = Printed /\
  snd (ends_with (grun [GBasic 20 true true; GExceptions]) (InThread 1)) = Logged [To 0%nat] /\
  snd (ends_with (grun [GBasic 40 true true]) (InThread 1)) = Logged [] /\
  snd (ends_with (grun [GExceptions]) (InMain 1)) = Logged [ToStderr] /\
  snd (ends_with (grun [GExceptions]) (ExitInThread 1)) = Logged [ToStderr] /\
  snd (ends_with (grun [GExceptions; GHooks 4 5]) (ExitInThread 1)) = Given 5 /\
  snd (ends_with (grun [GExceptions; GHooks 4 5; GExceptions]) (InMain 1)) = Logged [ToStderr].
Proof. repeat split; reflexivity. Qed.

(** C117.  After set_logger_address every message that reaches the root logger is forwarded
    once, however often set_logger_address is called, and logging it raises nothing. *)
Theorem C117_sent_once_partial :
  forall os n level id, let g := grun os in g_making g = None -> g_sender g <> None -> passes g n level -> 0 <= level ->
  times (is_sender g) (news g (fst (log g n level id))) = 1%nat /\ snd (log g n level id) = Ok tt.
Proof. exact sent_once. Qed.
Print Assumptions C117_sent_once_partial.
(** While set_logger_address is at work, logging a message raises AttributeError. *)
Theorem C117_raises_refuted :
  forall os n level id, let g := grun os in g_making g <> None -> passes g n level -> 0 <= level ->
  snd (log g n level id) = Err AttributeError.
Proof. exact making_raises. Qed.
Print Assumptions C117_raises_refuted.
Example C117_case :
  let m := mkR ["a"]%string 30 7 in
  let g := grun [GSetAddr "x"; GSetAddrEnd; GSetAddr "y"; GSetAddrEnd] in
  g_out (fst (log g ["a"]%string 30 7)) = [(To 0%nat, m)] /\ logger_address g "z" = Some "y"%string /\
  g_addr (grun [GSetAddr "x"]) = None /\
  snd (log (grun [GSetAddr "x"]) ["a"]%string 30 7) = Err AttributeError /\
  snd (log (grun [GSetAddr "x"]) ["a"]%string 20 7) = Ok tt.
Proof. repeat split; reflexivity. Qed.
