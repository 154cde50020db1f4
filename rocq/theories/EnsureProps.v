(** Property C107: connecting. *)
From Verif Require Import Py ObjTableModel SerModel SerProps FrameModel ServerModel ClientModel ClientProofs WireSpec RpcSpec RpcProofs2 RpcDemo
  WaitModel EnsureModel EnsureSpec EnsureDemo EnsureProofs EnsureProofs2.

(** C107 (times in ns).  However messages arrive and however long (within the bounds)
    computing takes: connecting is over at most 0.1 s and a little computing after the
    timeout; TimeoutError is not raised before the timeout is over; and a client is
    only regarded as connected if one of its pings was answered. *)
Theorem C107_timeout_respected :
  forall V C, 0 <= e_setup C /\ 0 <= e_msg C /\ 0 <= e_serve C -> forall now k inbox req ls s,
  erun V C (estart now k inbox req) ls = Some s ->
  time_of s <= now + Z.max 0 (e_timeout C) + 100000000 +
    (e_setup C + match e_mode C with Qt => 50000000 | _ => 0 end +
     Z.max (e_msg C) match e_mode C with Poll => e_serve C | _ => 0 end) + e_setup C /\
  (ended s NotConnected -> now + e_timeout C <= time_of s) /\
  (ended s Connected -> exists rid t v, In (rid, t) (e_pings s) /\ finished (client_of s) rid (Ok v)).
Proof. exact bounded. Qed.
Print Assumptions C107_timeout_respected.

(** A server that answers the first ping within 99 ms is connected to (no local
    server; computing takes less than the timeouts), and is not asked again.  Missing
    for C107: the servers that take longer than that, which is not always true
    (below). *)
Theorem C107_quick_server_connects_partial :
  forall V C, 0 <= e_setup C /\ 0 <= e_msg C /\ 0 <= e_serve C -> e_mode C = Plain ->
  e_setup C < e_timeout C /\ e_setup C <= 100000000 ->
  forall ser local st start req ls s, let k := new_client ser local st in
  erun V C (estart start k [] req) ls = Some s ->
  answered_by V C (success V k 0) (start + 99000000) (estart start k [] req) ls ->
  (forall r, ended s r -> r = Connected) /\ (List.length (e_pings s) <= 1)%nat.
Proof.
  intros V C B P S ser local st start req ls s k.
  exact (quick V C B P S k (new_ok ser local st) eq_refl eq_refl start req ls s).
Qed.
Print Assumptions C107_quick_server_connects_partial.

Lemma pong_ok rid : success demo_V fresh_client rid (pong rid).
Proof. eexists. reflexivity. Qed.
(** answered after 30 ms *)
Definition quick_run : list wlabel :=
  [WTick 500000; WGo; WTick 200000; WGo; WGo; WGo; WTick 29300000; WArrive (pong 0); WGo; WTick 100000; WGo; WGo; WGo].
Example C107_case_quick : exists s,
  erun demo_V limits (estart 0 fresh_client [] 0) quick_run = Some s /\ ended s Connected /\ e_pings s = [(0, 500000)] /\
  answered_by demo_V limits (success demo_V fresh_client 0) 99000000 (estart 0 fresh_client [] 0) quick_run.
Proof.
  eexists. split; [vm_compute; reflexivity|]. split; [reflexivity|]. split; [reflexivity|].
  cbn -[success Z.le]. repeat split; try (cbn; lia). apply pong_ok.
Qed.

(** C107 does not hold for slower servers: here each ping is answered 150 ms after it
    was sent, well within the timeout of one second, and yet connecting fails. *)
Lemma arrivals_cons V C (P : est -> payload -> Prop) s l s' r : match l with WArrive p => P s p | _ => True end ->
  estep V C s l = Some s' -> arrivals V C P s' r -> arrivals V C P s (l :: r).
Proof. intros A B D. split; [exact A|]. rewrite B. exact D. Qed.
Lemma answered_in i : In i [0; 1; 2; 3; 4; 5; 6; 7; 8] -> In (WArrive (pong i)) slow_run.
Proof.
  intros H. unfold slow_run. apply in_or_app. left. apply in_flat_map. exists (i + 1). split.
  - cbn [In] in *. lia.
  - unfold attempt. replace (i + 1 =? 0) with false by (symmetry; apply Z.eqb_neq; cbn [In] in H; lia).
    replace (i + 1 - 1) with i by lia. apply in_or_app. right. left. reflexivity.
Qed.
Ltac member := first [left; reflexivity | right; member].
Theorem C107_slow_server_refuted :
  exists s, erun demo_V limits (estart 0 fresh_client [] 0) slow_run = Some s /\ ended s NotConnected /\
    arrivals demo_V limits
      (fun s p => exists rid t, In (rid, t) (e_pings s) /\ success demo_V fresh_client rid p /\ time_of s = t + 150000000)
      (estart 0 fresh_client [] 0) slow_run /\
    (forall rid t, In (rid, t) (e_pings s) -> t + 150000000 <= time_of s ->
       exists p, In (WArrive p) slow_run /\ success demo_V fresh_client rid p) /\
    (1 <= List.length (e_pings s))%nat.
Proof.
  eexists. split; [vm_compute; reflexivity|]. split; [reflexivity|]. split; [|split].
  - let r := eval vm_compute in slow_run in change slow_run with r.
    repeat (eapply arrivals_cons; [|vm_compute; reflexivity|]; [first [exact I |
      match goal with |- exists rid t, In _ (e_pings ?s) /\ _ => let l := eval vm_compute in (e_pings s) in change (e_pings s) with l end;
      match goal with |- context [PJson (JObj [_; (_, JInt ?i); _; _])] => exists i end; eexists;
      split; [cbn [In]; member|split; [eexists; reflexivity|vm_compute; reflexivity]]]|]).
    exact I.
  - cbn [e_pings In]. intros rid t Hin Ht. exists (pong rid). split; [|apply pong_ok].
    repeat (destruct Hin as [E|Hin]; [injection E as <- <-|]); [..|contradiction];
      try (exfalso; revert Ht; vm_compute; congruence);
      apply answered_in; cbn [In]; lia.
  - cbn. lia.
Qed.
Print Assumptions C107_slow_server_refuted.

(** More generally, an answer that comes more than 0.1 s (and a little computing) after its
    ping never counts: a server that takes longer for every answer is never connected to,
    however long the timeout is. *)
Theorem C107_late_answers_never_count :
  forall V C, 0 <= e_setup C /\ 0 <= e_msg C /\ 0 <= e_serve C -> e_mode C <> Qt ->
  forall ser local st now req ls s, let k := new_client ser local st in
  erun V C (estart now k [] req) ls = Some s ->
  arrivals V C (late V (100000000 + e_setup C)) (estart now k [] req) ls -> ~ ended s Connected.
Proof.
  intros V C B N ser local st now req ls s k. exact (late_never V C B N k now req ls s (new_ok ser local st)).
Qed.
Print Assumptions C107_late_answers_never_count.
