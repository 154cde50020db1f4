(** Lemmas about the streams of new processes. *)
From Verif Require Import Py RedirModel RedirSpec.
Local Open Scope Z_scope.

Definition yesb (f : flag) : bool := truthy f.
Definition givenb (x : io) : bool := negb (io_none x).
Lemma yes_iff f : yes f <-> yesb f = true.
Proof. unfold yes. destruct f; cbn; intuition discriminate. Qed.
Lemma given_iff x : given x <-> givenb x = true.
Proof. unfold given. destruct x; cbn; intuition discriminate. Qed.
Definition conflictb (r : sreq) : bool :=
  is_none (sr_daemon r) || (yesb (sr_log r) && (givenb (sr_out r) || givenb (sr_err r)))
  || (yesb (sr_daemon r) && (yesb (sr_log r) || givenb (sr_in r) || givenb (sr_out r) || givenb (sr_err r))).
Lemma conflict_iff r : conflict r <-> conflictb r = true.
Proof.
  unfold conflict, conflictb. rewrite !yes_iff, !given_iff, !orb_true_iff, !andb_true_iff, !orb_true_iff.
  assert (X : sr_daemon r = FNone <-> is_none (sr_daemon r) = true) by (destruct (sr_daemon r); cbn; intuition discriminate). rewrite X. tauto.
Qed.
Definition to_logb (r : sreq) : bool :=
  negb (yesb (sr_daemon r)) && (yesb (sr_log r) || (is_none (sr_log r) && negb (givenb (sr_out r)) && negb (givenb (sr_err r)) && (sr_addr r || sr_known r))).
Lemma to_log_iff r : to_log r <-> to_logb r = true.
Proof.
  unfold to_log, to_logb. rewrite !yes_iff, !given_iff, !andb_true_iff, !orb_true_iff, !andb_true_iff, !negb_true_iff, !orb_true_iff, <- !not_true_iff_false.
  assert (X : sr_log r = FNone <-> is_none (sr_log r) = true) by (destruct (sr_log r); cbn; intuition discriminate). rewrite X. tauto.
Qed.
Lemma refused r : proper (sr_daemon r) -> proper (sr_log r) -> conflict r -> redirect r = Err AssertionError.
Proof.
  rewrite conflict_iff. destruct r as [d l i o e a k]. intros [D1 D2] [L1 L2] C. unfold conflictb in C; cbn in *. unfold redirect; cbn.
  destruct d; try congruence; destruct l; try congruence; cbn in *; try reflexivity;
  destruct o; cbn in *; try reflexivity; try discriminate C; destruct e; cbn in *; try reflexivity; try discriminate C; destruct i; cbn in *; try reflexivity; discriminate C.
Qed.
Lemma as_asked_b r p : 
  (yesb (sr_daemon r) = true -> pl_daemon p = true /\ pl_handle p = true /\ pl_in p = IoFd (-3) /\ pl_out p = IoFd (-3) /\ pl_err p = IoFd (-3)) ->
  (yesb (sr_daemon r) = false -> pl_daemon p = false /\ pl_handle p = false /\ pl_in p = if givenb (sr_in r) then sr_in r else IoFd (-3)) ->
  (to_logb r = true -> pl_logged p = true /\ pl_out p = IoFd (-1) /\ pl_err p = IoFd (-1)) ->
  (to_logb r = false -> pl_logged p = false /\ (yesb (sr_daemon r) = false -> pl_out p = sr_out r /\ pl_err p = sr_err r)) -> as_asked r p.
Proof.
  intros A B C D. unfold as_asked. rewrite to_log_iff, yes_iff, given_iff, !not_true_iff_false.
  split; [exact A|]. split; [|split; [exact C|exact D]]. intro Y. destruct (B Y) as (B1 & B2 & B3). split; [exact B1|]. split; [exact B2|].
  split; intro G; rewrite G in B3; exact B3.
Qed.
Lemma asked r : proper (sr_daemon r) -> proper (sr_log r) -> sr_in r <> IoFd 0 -> ~ conflict r -> exists p, redirect r = Ok p /\ as_asked r p.
Proof.
  rewrite conflict_iff, not_true_iff_false. destruct r as [d l i o e a k]. intros [D1 D2] [L1 L2] Z C. unfold conflictb in C; cbn in *. unfold redirect; cbn.
  assert (OR : or_devnull i = if givenb i then i else devnull) by (destruct i as [|[]|]; cbn; try reflexivity; congruence).
  destruct d; try congruence; try discriminate C; destruct l; try congruence; try discriminate C; cbn in *;
  destruct o; try discriminate C; cbn in *; destruct e; try discriminate C; cbn in *;
  try (destruct i; try discriminate C); cbn in *; destruct a, k; cbn;
  (eexists; split; [reflexivity|]); apply as_asked_b; cbn; intros; try discriminate; repeat split; intros; try discriminate; try reflexivity; auto.
Qed.
Lemma one_is_not_true r : sr_daemon r = FOne -> ~ yes (sr_log r) ->
  exists p, redirect r = Ok p /\ pl_daemon p = false /\ pl_handle p = false /\ pl_out p = sr_out r /\ ~ as_asked r p.
Proof.
  destruct r as [d l i o e a k]. cbn. intros -> L. unfold redirect, yes in *; cbn.
  destruct l; try (exfalso; intuition congruence); cbn; rewrite ?andb_false_r; cbn; (eexists; split; [reflexivity|]); cbn;
    (repeat (split; [reflexivity|])); intros (A & _); destruct A as (A & _); try (right; reflexivity); discriminate A.
Qed.
Lemma log_one r : sr_log r = FOne -> sr_daemon r = FFalse ->
  exists p, redirect r = Ok p /\ pl_logged p = false /\ ~ as_asked r p.
Proof.
  destruct r as [d l i o e a k]. cbn. intros -> ->. unfold redirect; cbn. eexists; split; [reflexivity|]. split; [reflexivity|].
  intros (_ & _ & A & _). destruct A as (A & _); [|discriminate A]. unfold to_log, yes; cbn. intuition discriminate.
Qed.
Lemma stdin0 r : sr_in r = IoFd 0 -> sr_daemon r = FFalse -> ~ conflict r -> sr_log r <> FOne ->
  exists p, redirect r = Ok p /\ pl_in p = devnull /\ ~ as_asked r p.
Proof.
  destruct r as [d l i o e a k]. cbn. intros -> -> C L. unfold redirect, conflict, yes, given in *; cbn in *.
  assert (X : negb (is_true l) || (io_none o && io_none e) = true).
  { destruct l; try reflexivity. destruct o, e; try reflexivity; exfalso; apply C; right; left; (split; [left; reflexivity|]); first [left; discriminate|right; discriminate]. }
  rewrite X. cbn. destruct (is_true _) in |- *; (eexists; split; [reflexivity|]); (split; [reflexivity|]); intros (_ & A & _);
    destruct A as (_ & _ & A & _); try (unfold yes; cbn; intuition discriminate); specialize (A ltac:(discriminate)); discriminate A.
Qed.
