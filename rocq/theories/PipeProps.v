(** Properties C45, C84, C85: capture of a child's output. *)
From Verif Require Import Py PipeModel PipeSpec PipeProofs.

(** C45.  Lines of text, each ended by a newline: one message per line, with the same
    characters, whatever follows. *)
Theorem C45_lines_become_messages_partial :
  forall prefix ts, Forall line_ok ts -> poller prefix (written ts) = (map (fun t => prefix ++ t) ts, AtEof).
Proof.
  intros p ts F. rewrite <- (app_nil_r (written ts)), poller_lines by auto. cbn. rewrite app_nil_r. reflexivity.
Qed.
Print Assumptions C45_lines_become_messages_partial.
Theorem C45_lines_first :
  forall prefix ts rest, Forall line_ok ts -> exists more,
  fst (poller prefix (written ts ++ rest)) = map (fun t => prefix ++ t) ts ++ more.
Proof. intros p ts rest F. rewrite poller_lines by auto. eexists. reflexivity. Qed.
Print Assumptions C45_lines_first.
(** A last line that does not end with a newline loses its last character. *)
Theorem C45_last_character_lost_refuted :
  forall prefix ts c t, Forall line_ok ts -> line_ok (t ++ [c]) ->
  poller prefix (written ts ++ encode (t ++ [c])) = (map (fun t => prefix ++ t) (ts ++ [t]), AtEof).
Proof. exact poller_last. Qed.
Print Assumptions C45_last_character_lost_refuted.
(** "hé" and "€" ; and the same output without the final newline *)
Example C45_case : Forall line_ok [[104; 233]; [8364]] /\
  written [[104; 233]; [8364]] = [104; 195; 169; 10; 226; 130; 172; 10] /\
  poller [62] (written [[104; 233]; [8364]]) = ([[62; 104; 233]; [62; 8364]], AtEof) /\
  poller [62] [104; 195; 169; 10; 111; 107] = ([[62; 104; 233]; [62; 111]], AtEof).
Proof.
  split; [|repeat split; reflexivity].
  repeat constructor; unfold scalar; try lia; cbn; intros H; repeat (destruct H as [H|H]; [discriminate|]); exact H.
Qed.

(** C84.  A line that is not UTF-8 ends the capture: it and everything after it is lost. *)
Theorem C84_bad_bytes_end_capture_refuted :
  forall prefix ts x rest, Forall line_ok ts -> ~ In 10 x -> ~ (exists t, Forall scalar t /\ x = encode t) ->
  poller prefix (written ts ++ x ++ 10 :: rest) = (map (fun t => prefix ++ t) ts, Died UnicodeDecodeError).
Proof. intros p ts x rest F N D. apply poller_bad; auto. apply decode_nl, decode_none, D. Qed.
Print Assumptions C84_bad_bytes_end_capture_refuted.
Example C84_case : ~ In 10 [233] /\ ~ (exists t, Forall scalar t /\ [233] = encode t) /\
  poller [62] ([111; 10] ++ [233; 10] ++ [111; 10; 111; 10]) = ([[62; 111]], Died UnicodeDecodeError).
Proof. split; [intros [H|[]]; discriminate|]. split; [apply decode_none|]; reflexivity. Qed.

(** C85.  With a log level of at most INFO every line of both streams becomes a record,
    at INFO for stdout and WARNING for stderr. *)
Theorem C85_levels :
  forall level root p q outs errs, Forall line_ok outs -> Forall line_ok errs -> level <> 0 -> level <= 20 ->
  capture (Some level) root p q (written outs) (written errs) =
    (map (fun t => (20, p ++ t)) outs, map (fun t => (30, q ++ t)) errs).
Proof.
  intros lv root p q outs errs F G N L. unfold capture.
  rewrite !C45_lines_become_messages_partial by auto. cbn [fst]. unfold stdio_log, stdio_level.
  destruct (Z.eqb_spec lv 0); [congruence|]. destruct (Z.leb_spec lv 20); [|lia]. destruct (Z.leb_spec lv 30); [|lia].
  rewrite !map_map. reflexivity.
Qed.
Print Assumptions C85_levels.
(** With a level above INFO, what the child prints to stdout is not logged at all: in
    particular with the level WARNING that start_process uses when none was configured. *)
Theorem C85_stdout_dropped :
  forall level root p q out err, level <> 0 -> 20 < level -> fst (capture (Some level) root p q out err) = [].
Proof.
  intros lv root p q out err N L. unfold capture, stdio_log, stdio_level. cbn [fst].
  destruct (Z.eqb_spec lv 0); [congruence|]. destruct (Z.leb_spec lv 20); [lia|]. reflexivity.
Qed.
Print Assumptions C85_stdout_dropped.
Example C85_case : capture (Some 20) 30 [62] [33] (written [[97]; []]) (written [[98]]) = ([(20, [62; 97]); (20, [62])], [(30, [33; 98])])
  /\ capture (Some 30) 30 [62] [33] (written [[97]]) (written [[98]]) = ([], [(30, [33; 98])]).
Proof. split; reflexivity. Qed.
