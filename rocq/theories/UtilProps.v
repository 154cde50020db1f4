(** Properties C50, C56, C90, C91, C92, C122, C123: process helpers. *)
From Verif Require Import Py UtilModel UtilSpec UtilProofs.
Local Open Scope Z_scope.

(** C50.  kill_procs kills only processes in whose command line the global prefix for
    process names occurs ... *)
Theorem C50_kills_only_prefixed_partial :
  forall k1 k2 PREFIX search l1 l2 ps q,
  Forall (fun p => 0 <= p_pid p) l1 -> Forall (fun p => 0 <= p_pid p) l2 -> NoDup (dkeys ps) ->
  dget (fst (kill_procs PREFIX search (ps_output k1 l1) (ps_output k2 l2) ps)) q <> dget ps q ->
  exists p, In p l2 /\ p_pid p = q /\ occurs PREFIX (p_cmd p).
Proof. exact kill_procs_only. Qed.
Print Assumptions C50_kills_only_prefixed_partial.
(** ... whatever [search] is: a process in which [search] does not occur is killed. *)
Theorem C50_search_ignored_refuted :
  forall PREFIX search, ~ occurs PREFIX "COMMAND" -> ~ occurs search PREFIX ->
  exists l ps, Forall (fun p => 0 <= p_pid p /\ ~ occurs search (p_cmd p)) l /\ Forall (fun p => ours ps (p_pid p)) l /\ l <> [] /\
    Forall (fun p => ~ alive (fst (kill_procs PREFIX search (ps_output 3 l) (ps_output 3 l) ps)) (p_pid p)) l.
Proof.
  intros P s N M. exists [mkP 1 42 P], [(42, true)].
  split; [repeat constructor; [cbn; lia|exact M]|]. split; [repeat constructor|]. split; [discriminate|].
  repeat constructor. unfold alive. intros H. apply H. clear H. unfold kill_procs.
  rewrite !find_output by (repeat constructor; cbn; lia).
  destruct (contains P "COMMAND") eqn:E. { exfalso. apply N. apply contains_spec, E. }
  cbn [filter p_cmd p_pid]. assert (C : contains P P = true).
  { apply contains_spec. exists EmptyString, EmptyString. cbn. clear. induction P as [|c P IH]; cbn; congruence. }
  rewrite C. cbn [map]. reflexivity.
Qed.
Print Assumptions C50_search_ignored_refuted.
Example C50_case : ~ occurs "tp_" "COMMAND" /\ ~ occurs "myproc" "tp_".
Proof. split; rewrite <- contains_spec; discriminate. Qed.

(** C90.  With the default (empty) prefix kill_procs always fails *)
Theorem C90_default_prefix_fails_refuted :
  forall search k1 l1 ps2 ps, Forall (fun p => 0 <= p_pid p) l1 ->
  kill_procs "" search (ps_output k1 l1) ps2 ps = (ps, Err ValueError).
Proof. intros s k l ps2 ps F. unfold kill_procs. rewrite find_output by auto. reflexivity. Qed.
Print Assumptions C90_default_prefix_fails_refuted.
Example C90_case : kill_procs "" "x" (ps_output 4 [mkP 6 1 "/sbin/init"]) [] [] = ([], Err ValueError).
Proof. reflexivity. Qed.

(** C91.  find_procs returns exactly the processes whose command contains the text, with
    their pid, in the order of ps; for texts that do not occur in "COMMAND" ... *)
Theorem C91_find_exact_partial :
  forall k search l, Forall (fun p => 0 <= p_pid p) l -> ~ occurs search "COMMAND" ->
  exists found, find_procs search (ps_output k l) = Ok (map (fun p => (p_pid p, ps_line p)) found) /\
    (forall p, In p found <-> In p l /\ occurs search (p_cmd p)) /\
    exists keep, found = filter keep l.
Proof.
  intros k s l F N. rewrite find_output by auto. destruct (contains s "COMMAND") eqn:E.
  { exfalso. apply N, contains_spec, E. }
  eexists. split; [reflexivity|]. split; [|eexists; reflexivity]. intros p. rewrite filter_In, contains_spec. reflexivity.
Qed.
Print Assumptions C91_find_exact_partial.
(** ... and fails for the others, because of the header of the table *)
Theorem C91_header_breaks_refuted :
  forall k search l, Forall (fun p => 0 <= p_pid p) l -> occurs search "COMMAND" ->
  find_procs search (ps_output k l) = Err ValueError.
Proof. intros k s l F O. rewrite find_output by auto. apply contains_spec in O. rewrite O. reflexivity. Qed.
Print Assumptions C91_header_breaks_refuted.
Example C91_case : find_procs "py" (ps_output 4 [mkP 6 1 "/sbin/init"; mkP 3 1234 "python x"; mkP 3 1235 "sh"]) = Ok [(1234, "   1234 python x")]
  /\ occurs "MAN" "COMMAND".
Proof. split; [reflexivity|]. exists "COM"%string, "D"%string. reflexivity. Qed.

(** C56.  On normal exit a report names exactly the registered processes that were alive
    (and could be killed), and none of these is left; other processes are left alone; an
    exception of the block is passed on. *)
Theorem C56_reports_alive :
  forall ps l, NoDup (dkeys ps) -> NoDup (map snd l) ->
  snd (cleaner_exit ps l None) =
    match filter (fun x => match dget ps (snd x) with Some true => true | _ => false end) l with
    | [] => Quietly
    | f => Reporting (map fst f)
    end.
Proof.
  intros ps l N D. unfold cleaner_exit. pose proof (clean_names l ps N D) as E. unfold is_ours in E.
  destruct (clean ps l) as [ps' f]. cbn in E. cbn [snd]. subst f. destruct (filter _ l); reflexivity.
Qed.
Print Assumptions C56_reports_alive.
Theorem C56_reports_iff_alive :
  forall ps l, NoDup (dkeys ps) ->
  ((exists names, snd (cleaner_exit ps l None) = Reporting names) <-> exists name pid, In (name, pid) l /\ ours ps pid) /\
  ((forall names, snd (cleaner_exit ps l None) <> Reporting names) -> snd (cleaner_exit ps l None) = Quietly).
Proof.
  intros ps l N. pose proof (clean_nonempty l ps N) as E. unfold cleaner_exit. destruct (clean ps l) as [ps' f]. cbn [snd] in *.
  split.
  - split.
    + intros (names & H). destruct f as [|x f]; [discriminate|]. destruct E as [E _].
      destruct (E ltac:(discriminate)) as ([nm pid] & I & G). exists nm, pid. auto.
    + intros (nm & pid & I & G). destruct f as [|x f]; [|eauto]. exfalso. apply E; auto. exists (nm, pid). auto.
  - intros H. destruct f; auto. exfalso. eapply H. reflexivity.
Qed.
Print Assumptions C56_reports_iff_alive.
Theorem C56_none_left :
  forall ps l exc pid, NoDup (dkeys ps) ->
  (In pid (map snd l) -> ~ ours (fst (cleaner_exit ps l exc)) pid) /\
  (~ In pid (map snd l) -> dget (fst (cleaner_exit ps l exc)) pid = dget ps pid).
Proof.
  intros ps l exc pid N. unfold cleaner_exit. pose proof (clean_none_left l ps pid N). pose proof (clean_unchanged l ps pid N).
  destruct (clean ps l) as [ps' f]. cbn in *. unfold ours. auto.
Qed.
Print Assumptions C56_none_left.
Theorem C56_exception_passed_on : forall ps l e, snd (cleaner_exit ps l (Some e)) = WithException e.
Proof. intros ps l e. unfold cleaner_exit. destruct (clean ps l) as [ps' [|]]; reflexivity. Qed.
Print Assumptions C56_exception_passed_on.
Example C56_case :
  cleaner_exit [(10, true); (11, false); (13, true)] [("a", 10); ("b", 11); ("c", 12)]%string None = ([(11, false); (13, true)], Reporting ["a"%string]).
Proof. reflexivity. Qed.

(** C92.  netstat on linux fails as soon as there is one TCP or UDP port *)
Theorem C92_netstat_linux_fails_refuted :
  forall l, (exists parts, In parts l /\ (7 <= List.length parts)%nat /\ (nth 0 parts "" = "tcp" \/ nth 0 parts "" = "udp")%string) ->
  netstat l = Err AttributeError.
Proof.
  induction l as [|parts l IH]; intros (q & I & L & T); [destruct I|]. cbn [netstat].
  destruct I as [->|I].
  - replace (List.length q <? 7)%nat with false by (symmetry; apply Nat.ltb_ge; exact L).
    destruct T as [-> | ->]; reflexivity.
  - destruct (_ || _); auto. apply IH. eauto.
Qed.
Print Assumptions C92_netstat_linux_fails_refuted.
Example C92_case : netstat [["Proto"]; ["tcp"; "0"; "0"; "127.0.0.1:631"; "0.0.0.0:*"; "LISTEN"; "812/cupsd"]]%string = Err AttributeError.
Proof. reflexivity. Qed.

(** C122.  If all processes in whose command line the prefix occurs may be killed and are
    still there, kill_procs leaves none of them and returns them ... *)
Theorem C122_kills_all_partial :
  forall k1 k2 PREFIX search l1 l2 ps p1,
  Forall (fun p => 0 <= p_pid p) l1 -> Forall (fun p => 0 <= p_pid p) l2 -> ~ occurs PREFIX "COMMAND" ->
  In p1 l1 -> occurs PREFIX (p_cmd p1) -> NoDup (dkeys ps) -> NoDup (map p_pid l2) ->
  (forall p, In p l2 -> occurs PREFIX (p_cmd p) -> ours ps (p_pid p)) ->
  exists ps' found, kill_procs PREFIX search (ps_output k1 l1) (ps_output k2 l2) ps = (ps', Ok (map (fun p => (p_pid p, ps_line p)) found)) /\
    (forall p, In p found <-> In p l2 /\ occurs PREFIX (p_cmd p)) /\
    forall p, In p l2 -> occurs PREFIX (p_cmd p) -> ~ alive ps' (p_pid p).
Proof. exact kill_procs_all. Qed.
Print Assumptions C122_kills_all_partial.
(** ... but the first that has exited meanwhile, or belongs to another user, makes it raise
    and leave all that come later in the list of ps. *)
Theorem C122_rest_left_alive_refuted :
  forall k1 k2 PREFIX search l1 a p b ps p1,
  Forall (fun p => 0 <= p_pid p) l1 -> Forall (fun p => 0 <= p_pid p) (a ++ p :: b) -> ~ occurs PREFIX "COMMAND" ->
  In p1 l1 -> occurs PREFIX (p_cmd p1) -> NoDup (dkeys ps) -> NoDup (map p_pid (a ++ p :: b)) ->
  (forall q, In q a -> occurs PREFIX (p_cmd q) -> ours ps (p_pid q)) -> occurs PREFIX (p_cmd p) -> ~ ours ps (p_pid p) ->
  exists ps', kill_procs PREFIX search (ps_output k1 l1) (ps_output k2 (a ++ p :: b)) ps = (ps', Err OSError) /\
    forall q, In q b -> dget ps' (p_pid q) = dget ps (p_pid q).
Proof. exact kill_procs_stops. Qed.
Print Assumptions C122_rest_left_alive_refuted.
(** three workers; the second exits by itself just before it would be killed *)
Example C122_case :
  let l := [mkP 3 41 "tp_worker1"; mkP 3 42 "tp_worker2"; mkP 3 43 "tp_worker3"] in
  kill_procs "tp_" "" (ps_output 4 l) (ps_output 4 l) [(41, true); (42, true); (43, true); (7, true)]
    = ([(7, true)], Ok [(41, "   41 tp_worker1"); (42, "   42 tp_worker2"); (43, "   43 tp_worker3")]%string) /\
  kill_procs "tp_" "" (ps_output 4 l) (ps_output 4 l) [(41, true); (43, true); (7, true)]
    = ([(43, true); (7, true)], Err OSError).
Proof. split; reflexivity. Qed.

(** C123.  assert_pids_dead raises AssertionError exactly if one of the processes is alive
    (and may be killed); it kills all of those and no other. *)
Theorem C123_dead_or_reported :
  forall ps l, NoDup (dkeys ps) ->
  (forall q, In q l -> ~ ours (fst (assert_pids_dead ps l)) q) /\
  (forall q, ~ In q l -> dget (fst (assert_pids_dead ps l)) q = dget ps q) /\
  ((exists q, In q l /\ ours ps q) -> snd (assert_pids_dead ps l) = Err AssertionError) /\
  ((forall q, In q l -> ~ ours ps q) -> snd (assert_pids_dead ps l) = Ok tt).
Proof. exact assert_pids_dead_spec. Qed.
Print Assumptions C123_dead_or_reported.
Example C123_case :
  assert_pids_dead [(1, false); (5, true); (6, true); (7, true)] [5; 4; 6; 5; 1] = ([(1, false); (7, true)], Err AssertionError) /\
  assert_pids_dead [(1, false); (7, true)] [5; 1] = ([(1, false); (7, true)], Ok tt).
Proof. split; reflexivity. Qed.
