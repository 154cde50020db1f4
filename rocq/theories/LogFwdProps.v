(** Properties C43, C44, C80, C81, C82, C83: forwarding of log records. *)
From Verif Require Import Py LogFwdModel LogFwdSpec LogFwdProofs.

(** [%] as it would be with one placeholder at the end; for the examples *)
Definition fmt0 (m : string) (a : list string) : res string :=
  match a with [x] => Ok (String.append m x) | _ => Err TypeError end.
Definition names0 : names := mkN "lab1" (Some "daq") [(7, "reader")].
Definition rec0 (i : nat) (json : bool) : frec := mkF i 20 "temp " (Some ["21"]) 7 "Thread-1" [] json.

(** C43.  Whatever happens, what is sent is in the order it was handled, nothing
    twice, and about those records. *)
Theorem C43_sent_in_order :
  forall fmt n ls, embeds (is_about fmt) (sent (frun fmt n fs0 ls)) (handled ls).
Proof. exact sent_in_order. Qed.
Print Assumptions C43_sent_in_order.
(** Connected, and given only records that can be encoded: exactly the records not
    sent are those in hand and in the queue ... *)
Theorem C43_none_missing_partial :
  forall fmt n ls, Forall ordinary ls -> Forall (sendable fmt) (handled ls) ->
  let s := frun fmt n fs0 ([LConnect; LConnect2] ++ ls) in
  exists d, handled ls = d ++ in_hand s ++ queued s /\ Forall2 (is_about fmt) (sent s) d.
Proof. exact none_missing. Qed.
Print Assumptions C43_none_missing_partial.
(** ... and all of them are sent when the thread gets to run.  Missing: records that
    cannot be encoded, and closing (refuted below). *)
Theorem C43_all_sent_partial :
  forall fmt n ls, Forall ordinary ls -> Forall (sendable fmt) (handled ls) ->
  exists m, forall m', (m <= m')%nat ->
  Forall2 (is_about fmt) (sent (frun fmt n fs0 ([LConnect; LConnect2] ++ ls ++ repeat LRun m'))) (handled ls).
Proof. exact all_arrive. Qed.
Print Assumptions C43_all_sent_partial.

(** after one record that cannot be encoded, no record is ever sent, without any call of
    connect() or close() in between *)
Theorem C43_bad_record_stops_forwarding_refuted :
  forall fmt n r, ~ sendable fmt r -> exists ls0, Forall ordinary ls0 /\ handled ls0 = [r] /\
  forall ls, sent (frun fmt n fs0 ([LConnect; LConnect2] ++ ls0 ++ ls)) = [].
Proof.
  intros fmt n r N. exists [LHandle r; LRun; LRun; LRun]. split; [repeat constructor|]. split; [reflexivity|].
  intros ls. apply unsendable_kills, N.
Qed.
Print Assumptions C43_bad_record_stops_forwarding_refuted.
(** any number of records handled before close() can be lost *)
Theorem C43_close_drops_records_refuted :
  forall fmt n rs ls, ~ In LConnect ls ->
  sent (frun fmt n fs0 ([LConnect; LConnect2] ++ map LHandle rs ++ [LClose; LClose2] ++ ls)) = [].
Proof.
  intros fmt n rs ls N. unfold frun. rewrite !fold_left_app.
  assert (H : forall s, s_th s = FWait -> s_call s = CIdle -> s_sent s = [] ->
     let s' := fold_left (fstep fmt n) (map LHandle rs) s in s_th s' = FWait /\ s_call s' = CIdle /\ s_sent s' = []).
  { induction rs as [|r rs IH]; intros s A B C; cbn [map fold_left]; auto. }
  destruct (H (fold_left (fstep fmt n) [LConnect; LConnect2] fs0) eq_refl eq_refl eq_refl) as (A & B & C).
  set (s := fold_left _ (map _ _) _) in *. unfold sent.
  pose proof (unconnected fmt n (fold_left (fstep fmt n) [LClose; LClose2] s) ls) as U. unfold frun in U.
  rewrite U; cbn [fold_left fstep]; rewrite ?B; cbn; rewrite ?C, ?A; auto; congruence.
Qed.
Print Assumptions C43_close_drops_records_refuted.

Example C43_case :
  let ls := [LHandle (rec0 1 true); LRun; LHandle (rec0 2 true)] in
  Forall ordinary ls /\ Forall (sendable fmt0) (handled ls) /\
  map w_id (sent (frun fmt0 names0 fs0 ([LConnect; LConnect2] ++ ls ++ repeat LRun 9))) = [1; 2]%nat.
Proof.
  split; [repeat constructor|]. split; [|reflexivity].
  repeat constructor; cbn; try discriminate; eexists; reflexivity.
Qed.
Example C43_bad_case : ~ sendable fmt0 (rec0 1 false).
Proof. intros (H & _). discriminate. Qed.

(** C44.  With filtering: exactly the records at or above the level, in order; without:
    all of them.  What the logger gets has the level and the text that were sent. *)
Theorem C44_level_filter :
  forall b ms, Forall (fun m => fst m <> None) ms ->
  snd (server_run b ms) = true /\
  Forall2 (fun r m => exists w, fst m = Some w /\ f_id r = w_id w /\ f_level r = w_level w /\
                      (forall fmt, get_message fmt r = Ok (w_msg w)) /\ f_thread r = w_thread w /\
                      f_threadName r = w_threadName w /\ f_attrs r = w_attrs w)
    (fst (server_run b ms))
    (filter (fun m => match fst m with Some w => if b then (snd m <=? w_level w)%Z else true | None => true end) ms).
Proof. exact server_filters. Qed.
Print Assumptions C44_level_filter.
(** end to end: what the local logger is given *)
Theorem C44_end_to_end :
  forall fmt n b level ls, Forall ordinary ls -> Forall (sendable fmt) (handled ls) ->
  exists m, forall m', (m <= m')%nat ->
  Forall2 (fun r' r => f_id r' = f_id r /\ f_level r' = f_level r /\ get_message fmt r' = get_message fmt r)
    (fst (server_run b (map (fun w => (Some w, level))
       (sent (frun fmt n fs0 ([LConnect; LConnect2] ++ ls ++ repeat LRun m'))))))
    (filter (fun r => negb (b && (f_level r <? level))) (handled ls)).
Proof.
  intros fmt n b level ls O S. destruct (all_arrive fmt n ls O S) as (m & H). exists m. intros m' L.
  specialize (H m' L). clear S. induction H as [|w r ws rs (A & B & C & _) F IH]; cbn; [constructor|].
  destruct (server_run b (map (fun w => (Some w, level)) ws)) as [out al]. cbn in *. rewrite <- B.
  destruct (b && (w_level w <? level)); cbn; auto.
Qed.
Print Assumptions C44_end_to_end.
(** a message that is not JSON ends the server thread *)
Theorem C44_bad_message_stops_server_refuted :
  forall b l ms, server_run b ((None, l) :: ms) = ([], false).
Proof. reflexivity. Qed.
Print Assumptions C44_bad_message_stops_server_refuted.
Example C44_case :
  map f_id (fst (server_run true [(Some (mkW 1 20 "a" 0 "" []), 30); (Some (mkW 2 30 "b" 0 "" []), 30); (Some (mkW 3 20 "c" 0 "" []), 10)])) = [2; 3]%nat.
Proof. reflexivity. Qed.

(** C80.  Connecting again: a record in the hands of the thread is lost together with
    all later ones, though close() was never called. *)
Theorem C80_reconnect_can_kill_refuted :
  forall fmt n r, sendable fmt r -> exists ls0, ~ In LClose ls0 /\ handled ls0 = [r] /\
  forall ls, sent (frun fmt n fs0 (ls0 ++ ls)) = [].
Proof.
  intros fmt n r S. destruct (prepare_ok fmt n r S) as (w & P & J).
  exists [LConnect; LConnect2; LHandle r; LRun; LRun; LRun; LConnect; LRun; LConnect2].
  split; [cbn; intuition discriminate|]. split; [reflexivity|].
  intros ls. unfold frun. rewrite fold_left_app.
  match goal with |- sent (fold_left _ _ ?t) = _ => assert (D : s_th t = FDead ZMQError /\ s_sent t = []) end.
  { cbn. rewrite P. unfold dumps. rewrite J. cbn. auto. }
  destruct D as [D E]. destruct (dead_stays fmt n _ _ ls D) as [A _]. unfold frun in A. unfold sent. rewrite A, E. reflexivity.
Qed.
Print Assumptions C80_reconnect_can_kill_refuted.
(** if connect() is only called while the thread waits for a record, nothing is lost
    however often that happens *)
Theorem C80_reconnect_between_records_partial :
  forall fmt n ls, between_records fmt n (frun fmt n fs0 [LConnect; LConnect2]) ls -> Forall (sendable fmt) (handled ls) ->
  exists m, forall m', (m <= m')%nat ->
  Forall2 (is_about fmt) (sent (frun fmt n fs0 ([LConnect; LConnect2] ++ ls ++ repeat LRun m'))) (handled ls).
Proof. exact all_arrive_between. Qed.
Print Assumptions C80_reconnect_between_records_partial.
Example C80_between_case :
  let ls := [LHandle (rec0 1 true); LRun; LRun; LRun; LRun; LConnect; LConnect2; LHandle (rec0 2 true); LRun] in
  between_records fmt0 names0 (frun fmt0 names0 fs0 [LConnect; LConnect2]) ls /\ Forall (sendable fmt0) (handled ls) /\
  map fst (s_sent (frun fmt0 names0 fs0 ([LConnect; LConnect2] ++ ls ++ repeat LRun 9))) = [0; 1]%nat.
Proof.
  split; [|split; [|reflexivity]].
  - do 5 (apply br_step; [exact I|]). apply br_connect; [reflexivity|]. do 2 (apply br_step; [exact I|]). constructor.
  - repeat constructor; cbn; try discriminate; eexists; reflexivity.
Qed.
Example C80_case : sendable fmt0 (rec0 1 true).
Proof. split; [reflexivity|]. split; [discriminate|]. eexists; reflexivity. Qed.

(** C81.  The text of a forwarded record is the text of the original, and forwarding
    it once more does not change it. *)
Theorem C81_text_survives :
  forall fmt n ls w, In w (sent (frun fmt n fs0 ls)) ->
  exists r, In r (handled ls) /\ get_message fmt (make_record w) = get_message fmt r /\ f_level (make_record w) = f_level r /\
  forall n', exists w', forwards fmt n' (make_record w) w' /\
    get_message fmt (make_record w') = get_message fmt r /\ f_level (make_record w') = f_level r.
Proof. exact text_survives. Qed.
Print Assumptions C81_text_survives.
Example C81_case :
  map w_msg (sent (frun fmt0 names0 fs0 ([LConnect; LConnect2; LHandle (rec0 1 true)] ++ repeat LRun 4))) = ["temp 21"].
Proof. reflexivity. Qed.

(** C82.  Process and thread shown for a forwarded record are those of its origin,
    whatever run it was sent in and whatever names the showing process knows ... *)
Theorem C82_process_and_thread_partial :
  forall fmt hex n n' ls w p, n_process n = Some p -> In w (sent (frun fmt n fs0 ls)) ->
  exists r, In r (handled ls) /\ is_about fmt w r /\
  snd (fst (header hex n' (make_record w))) = Some p /\ snd (header hex n' (make_record w)) = thread_name n r.
Proof. exact process_and_thread. Qed.
Print Assumptions C82_process_and_thread_partial.
(** ... but the host shown is always the local one *)
Theorem C82_host_shown_is_local_refuted :
  forall fmt hex n n' r, sendable fmt r -> dget (f_attrs r) "hostname" = None ->
  exists w, forwards fmt n r w /\ fst (fst (header hex n' (make_record w))) = n_host n'.
Proof. exact host_shown. Qed.
Print Assumptions C82_host_shown_is_local_refuted.
Example C82_case : exists w, forwards fmt0 names0 (rec0 1 true) w /\
  header (fun _ => "") (mkN "desk" (Some "main") []) (make_record w) = ("desk", Some "daq", "reader").
Proof. eexists. split; [exists [LConnect; LConnect2; LHandle (rec0 1 true); LRun; LRun; LRun; LRun]; split; reflexivity|]. reflexivity. Qed.

(** C83.  A record forwarded twice appears to come from the process in between. *)
Theorem C83_second_hop_renames_refuted :
  forall fmt hex n n1 n2 r p, sendable fmt r -> n_process n1 = Some p ->
  exists w w', forwards fmt n r w /\ forwards fmt n1 (make_record w) w' /\
  snd (fst (header hex n2 (make_record w'))) = Some p.
Proof. exact second_hop. Qed.
Print Assumptions C83_second_hop_renames_refuted.
Example C83_case : sendable fmt0 (rec0 1 true) /\ n_process names0 = Some "daq".
Proof. split; [exact C80_case|reflexivity]. Qed.
