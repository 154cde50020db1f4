(** Property C51: clock offset. *)
From Verif Require Import Py ClockModel ClockSpec ClockProofs.
From Coq Require Import QArith Qabs.
Local Open Scope Q_scope.

(** C51.  The estimate is within half the mean round trip of the true offset, for any
    number of rounds (the code makes ten). *)
Theorem C51_clock_offset :
  forall off rounds, (2 <= List.length rounds)%nat -> honest off rounds ->
  Qabs (estimate rounds - off) <= (span rounds / trips rounds) * (1 # 2).
Proof. exact estimate_bound. Qed.
Print Assumptions C51_clock_offset.
(** the bound cannot be improved: whenever every remote reading is taken right after the
    local one, the estimate is too small by exactly that *)
Theorem C51_bound_is_reached :
  forall off rounds, (2 <= List.length rounds)%nat -> (forall lt rt, In (lt, rt) rounds -> rt == lt + off) ->
  off - estimate rounds == (span rounds / trips rounds) * (1 # 2).
Proof. exact estimate_at_once. Qed.
Print Assumptions C51_bound_is_reached.
Example C51_bound_case : let rounds := map (fun k => (inject_Z (Z.of_nat k), inject_Z (Z.of_nat k) + 5)) (seq 0 10) in
  List.length rounds = 10%nat /\ honest 5 rounds /\ (forall lt rt, In (lt, rt) rounds -> rt == lt + 5) /\
  0 < (span rounds / trips rounds) * (1 # 2).
Proof.
  split; [reflexivity|]. split.
  - cbn. repeat (split; [eexists; split; [reflexivity|split; [apply Qle_refl|try exact I; unfold Qle; cbn; lia]]|]). exact I.
  - split; [|reflexivity]. intros lt rt J. apply in_map_iff in J. destruct J as (k & J & _). injection J as <- <-. reflexivity.
Qed.
Example C51_case : honest (-3) [(1, -1); (3, 1); (6, 4)] /\ estimate [(1, -1); (3, 1); (6, 4)] == (-13 # 4).
Proof.
  split; [|reflexivity]. cbn.
  split; [exists 2; split; [reflexivity|split; unfold Qle; cbn; lia]|].
  split; [exists 4; split; [reflexivity|split; unfold Qle; cbn; lia]|].
  split; [exists 7; split; [reflexivity|split; [unfold Qle; cbn; lia|exact I]]|exact I].
Qed.
