(** Shared vocabulary: Python exceptions as values, Python dictionaries
    (insertion ordered, at most one entry per key) and their basic laws.

    Library behaviour, no counterpart in /repo: this models CPython's [dict]
    ([d[k]], [d.get], [d[k]=v], [del d[k]], [d.pop(k, None)], [d.setdefault],
    iteration in insertion order) and [set] of integers as duplicate-free lists. *)
From Coq Require Export List ZArith String Ascii Bool Lia.
Export ListNotations.
Open Scope string_scope.
Open Scope Z_scope.
Open Scope list_scope.

(** Names of exception classes raised in the modelled code. *)
Inductive exn : Type :=
| KeyError | TypeError | ValueError | AttributeError | RuntimeError
| TimeoutError | AssertionError | ConnectionRefusedError | ImportError
| UnicodeDecodeError | ZMQError | FileNotFoundError | InvalidStateError
| OSError | StopIterationError
| RemoteCallException (type_str : string)
| UserExc (name : string).      (* raised by user code called remotely *)

(** [exc[0].__name__] *)
Definition exn_name (e : exn) : string :=
  match e with
  | KeyError => "KeyError" | TypeError => "TypeError" | ValueError => "ValueError"
  | AttributeError => "AttributeError" | RuntimeError => "RuntimeError"
  | TimeoutError => "TimeoutError" | AssertionError => "AssertionError"
  | ConnectionRefusedError => "ConnectionRefusedError" | ImportError => "ImportError"
  | UnicodeDecodeError => "UnicodeDecodeError" | ZMQError => "ZMQError"
  | FileNotFoundError => "FileNotFoundError" | InvalidStateError => "InvalidStateError"
  | OSError => "OSError" | StopIterationError => "StopIteration"
  | RemoteCallException _ => "RemoteCallException"
  | UserExc n => n
  end.

Inductive res (A : Type) : Type := Ok (a : A) | Err (e : exn).
Arguments Ok {A}. Arguments Err {A}.

Definition bind {A B} (r : res A) (f : A -> res B) : res B :=
  match r with Ok a => f a | Err e => Err e end.

(** Decidable equality as a class, so that dictionaries compute. *)
Class Eqb (K : Type) := { eqb : K -> K -> bool; eqb_true : forall a b, eqb a b = true <-> a = b }.

#[global, program] Instance Eqb_Z : Eqb Z := {| eqb := Z.eqb |}.
Next Obligation. apply Z.eqb_eq. Qed.
#[global, program] Instance Eqb_nat : Eqb nat := {| eqb := Nat.eqb |}.
Next Obligation. apply Nat.eqb_eq. Qed.
#[global, program] Instance Eqb_string : Eqb string := {| eqb := String.eqb |}.
Next Obligation. apply String.eqb_eq. Qed.
#[global, program] Instance Eqb_bool : Eqb bool := {| eqb := Bool.eqb |}.
Next Obligation. apply Bool.eqb_true_iff. Qed.
#[global, program] Instance Eqb_pair {A B} `{Eqb A} `{Eqb B} : Eqb (A * B) :=
  {| eqb := fun p q => eqb (fst p) (fst q) && eqb (snd p) (snd q) |}.
Next Obligation.
  simpl. rewrite andb_true_iff, !eqb_true. split; [intros [-> ->] | intros [= -> ->]]; auto.
Qed.

Lemma eqb_refl {K} `{Eqb K} (k : K) : eqb k k = true.
Proof. apply eqb_true; reflexivity. Qed.
Lemma eqb_false {K} `{Eqb K} (a b : K) : eqb a b = false <-> a <> b.
Proof.
  split; intro Hab.
  - intro Heq. apply (proj2 (eqb_true a b)) in Heq. congruence.
  - destruct (eqb a b) eqn:E; [|reflexivity]. apply (proj1 (eqb_true a b)) in E. contradiction.
Qed.
Lemma eqb_reflect {K} `{Eqb K} (a b : K) : reflect (a = b) (eqb a b).
Proof. destruct (eqb a b) eqn:E; constructor; [apply (proj1 (eqb_true a b)) | apply (proj1 (eqb_false a b))]; exact E. Qed.

(** * Dictionaries *)
Definition dict (K V : Type) := list (K * V).

Section Dict.
  Context {K V : Type} `{Eqb K}.

  Fixpoint dget (d : dict K V) (k : K) : option V :=
    match d with
    | [] => None
    | (k', v) :: r => if eqb k k' then Some v else dget r k
    end.

  Definition dmem (d : dict K V) (k : K) : bool :=
    match dget d k with Some _ => true | None => false end.

  (** [d[k] = v]: in place if the key exists, appended otherwise. *)
  Fixpoint dset (d : dict K V) (k : K) (v : V) : dict K V :=
    match d with
    | [] => [(k, v)]
    | (k', v') :: r => if eqb k k' then (k', v) :: r else (k', v') :: dset r k v
    end.

  (** [d.pop(k, None)] / [del d[k]] (the caller checks for presence). *)
  Fixpoint ddel (d : dict K V) (k : K) : dict K V :=
    match d with
    | [] => []
    | (k', v') :: r => if eqb k k' then r else (k', v') :: ddel r k
    end.

  Definition dkeys (d : dict K V) : list K := map fst d.

  Lemma dget_dset_same d k v : dget (dset d k v) k = Some v.
  Proof.
    induction d as [|[k' v'] r IH]; simpl.
    - rewrite eqb_refl. reflexivity.
    - destruct (eqb k k') eqn:E; simpl; rewrite E; auto.
  Qed.

  Lemma dget_dset_other d k k' v : k <> k' -> dget (dset d k v) k' = dget d k'.
  Proof.
    intro Hne. induction d as [|[k0 v0] r IH]; simpl.
    - destruct (eqb_reflect k' k); [congruence | reflexivity].
    - destruct (eqb_reflect k k0) as [->|N]; simpl.
      + destruct (eqb_reflect k' k0); [congruence | reflexivity].
      + destruct (eqb k' k0); auto.
  Qed.

  Lemma dget_dset d k k' v : dget (dset d k v) k' = if eqb k' k then Some v else dget d k'.
  Proof.
    destruct (eqb_reflect k' k) as [->|N].
    - apply dget_dset_same.
    - apply dget_dset_other. congruence.
  Qed.

  Lemma dget_In d k v : dget d k = Some v -> In (k, v) d.
  Proof.
    induction d as [|[k0 v0] r IH]; simpl; [discriminate|].
    destruct (eqb_reflect k k0) as [->|N]; intro E; [left; congruence | right; auto].
  Qed.

  Lemma dget_None d k : dget d k = None <-> ~ In k (dkeys d).
  Proof.
    induction d as [|[k0 v0] r IH]; simpl; [tauto|].
    destruct (eqb_reflect k k0) as [->|N].
    - split; [discriminate | intro C; exfalso; apply C; auto].
    - rewrite IH. intuition congruence.
  Qed.

  Lemma dget_Some_key d k v : dget d k = Some v -> In k (dkeys d).
  Proof. intro E. apply dget_In in E. apply (in_map fst) in E. exact E. Qed.

  Lemma dkey_dget d k : In k (dkeys d) -> exists v, dget d k = Some v.
  Proof.
    intro E. destruct (dget d k) eqn:G; [eauto|]. apply dget_None in G. contradiction.
  Qed.

  Lemma In_dget d k v : NoDup (dkeys d) -> In (k, v) d -> dget d k = Some v.
  Proof.
    induction d as [|[k0 v0] r IH]; simpl; [tauto|].
    intros ND [E|E]; inversion ND as [|? ? Hn ND']; subst.
    - injection E as -> ->. rewrite eqb_refl. reflexivity.
    - destruct (eqb_reflect k k0) as [->|N]; [|auto].
      exfalso. apply Hn. apply (in_map fst) in E. exact E.
  Qed.

  Lemma dkeys_dset d k v x : In x (dkeys (dset d k v)) <-> x = k \/ In x (dkeys d).
  Proof.
    induction d as [|[k0 v0] r IH]; simpl; [intuition|].
    destruct (eqb_reflect k k0) as [->|N]; simpl; [intuition|].
    fold (dkeys (dset r k v)). rewrite IH. intuition.
  Qed.

  Lemma NoDup_dset d k v : NoDup (dkeys d) -> NoDup (dkeys (dset d k v)).
  Proof.
    induction d as [|[k0 v0] r IH]; simpl; intro ND.
    - constructor; [simpl; tauto | constructor].
    - destruct (eqb_reflect k k0) as [->|N]; simpl; [exact ND|].
      inversion ND as [|? ? Hn ND']; subst. constructor; [|auto].
      fold (dkeys (dset r k v)). rewrite dkeys_dset. intuition congruence.
  Qed.

  Lemma ddel_notin d k : dget d k = None -> ddel d k = d.
  Proof.
    induction d as [|[k0 v0] r IH]; simpl; [reflexivity|].
    destruct (eqb k k0); [discriminate|]. intro E. rewrite IH; auto.
  Qed.

  Lemma dkeys_ddel_incl d k x : In x (dkeys (ddel d k)) -> In x (dkeys d).
  Proof.
    induction d as [|[k0 v0] r IH]; simpl; [tauto|].
    destruct (eqb k k0); simpl; intuition.
  Qed.

  Lemma NoDup_ddel d k : NoDup (dkeys d) -> NoDup (dkeys (ddel d k)).
  Proof.
    induction d as [|[k0 v0] r IH]; simpl; intro ND; [constructor|].
    inversion ND as [|? ? Hn ND']; subst.
    destruct (eqb k k0); simpl; [exact ND'|]. constructor; [|auto].
    fold (dkeys (ddel r k)). intro C. apply Hn. eapply dkeys_ddel_incl; eauto.
  Qed.

  Lemma dget_ddel_same d k : NoDup (dkeys d) -> dget (ddel d k) k = None.
  Proof.
    induction d as [|[k0 v0] r IH]; simpl; intro ND; [reflexivity|].
    inversion ND as [|? ? Hn ND']; subst.
    destruct (eqb_reflect k k0) as [->|N]; simpl.
    - apply dget_None. exact Hn.
    - destruct (eqb_reflect k k0); [congruence | auto].
  Qed.

  Lemma dget_ddel_other d k k' : k <> k' -> dget (ddel d k) k' = dget d k'.
  Proof.
    intro Hne. induction d as [|[k0 v0] r IH]; simpl; [reflexivity|].
    destruct (eqb_reflect k k0) as [->|N]; simpl.
    - destruct (eqb_reflect k' k0); [congruence | reflexivity].
    - destruct (eqb k' k0); auto.
  Qed.

  Lemma dget_ddel d k k' : NoDup (dkeys d) ->
    dget (ddel d k) k' = if eqb k' k then None else dget d k'.
  Proof.
    intro ND. destruct (eqb_reflect k' k) as [->|N].
    - apply dget_ddel_same; exact ND.
    - apply dget_ddel_other; congruence.
  Qed.

  Lemma dmem_true d k : dmem d k = true <-> In k (dkeys d).
  Proof.
    unfold dmem. destruct (dget d k) eqn:E.
    - split; [intros _; eapply dget_Some_key; eauto | reflexivity].
    - apply dget_None in E. split; [discriminate | contradiction].
  Qed.
End Dict.

(** * Sets of integers as duplicate-free lists *)
Section PySet.
  Context {K : Type} `{Eqb K}.
  Fixpoint smem (k : K) (s : list K) : bool :=
    match s with [] => false | x :: r => eqb k x || smem k r end.
  Definition sadd (k : K) (s : list K) : list K := if smem k s then s else s ++ [k].
  Fixpoint srem (k : K) (s : list K) : list K :=
    match s with [] => [] | x :: r => if eqb k x then r else x :: srem k r end.

  Lemma smem_In k s : smem k s = true <-> In k s.
  Proof.
    induction s as [|x r IH]; simpl; [intuition discriminate|].
    rewrite orb_true_iff, eqb_true, IH. intuition.
  Qed.
  Lemma smem_false k s : smem k s = false <-> ~ In k s.
  Proof. rewrite <- smem_In. destruct (smem k s); intuition congruence. Qed.
  Lemma sadd_In k s x : In x (sadd k s) <-> x = k \/ In x s.
  Proof.
    unfold sadd. destruct (smem k s) eqn:E.
    - apply smem_In in E. intuition. subst; assumption.
    - rewrite in_app_iff. simpl. intuition.
  Qed.
  Lemma NoDup_sadd k s : NoDup s -> NoDup (sadd k s).
  Proof.
    unfold sadd. destruct (smem k s) eqn:E; [auto|]. intro ND. apply smem_false in E.
    assert (Hr : NoDup (rev (s ++ [k]))).
    { rewrite rev_app_distr. simpl. constructor.
      - rewrite <- in_rev. exact E.
      - apply NoDup_rev. exact ND. }
    apply NoDup_rev in Hr. rewrite rev_involutive in Hr. exact Hr.
  Qed.
  Lemma srem_In k s x : NoDup s -> (In x (srem k s) <-> x <> k /\ In x s).
  Proof.
    induction s as [|y r IH]; simpl; intro ND; [tauto|].
    inversion ND as [|? ? Hn ND']; subst.
    destruct (eqb_reflect k y) as [->|N].
    - split; [intro I; split; [congruence | auto] | intros [Hne [E|I]]; [congruence | exact I]].
    - simpl. rewrite IH by exact ND'. intuition congruence.
  Qed.
  Lemma NoDup_srem k s : NoDup s -> NoDup (srem k s).
  Proof.
    induction s as [|y r IH]; simpl; intro ND; [constructor|].
    inversion ND as [|? ? Hn ND']; subst.
    destruct (eqb k y); [exact ND'|]. constructor; [|auto].
    rewrite srem_In by exact ND'. tauto.
  Qed.
End PySet.
