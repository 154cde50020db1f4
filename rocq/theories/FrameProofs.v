(** Lemmas about framing. *)
From Verif Require Import Py SerModel FrameModel.
From Coq Require Import DecimalString DecimalZ.

Definition plain (c : ascii) : bool := is_digit c || Ascii.eqb c "-".

Lemma plain_facts c : plain c = true -> is_space c = false /\ Ascii.eqb c "_" = false /\ Ascii.eqb c "+" = false.
Proof.
  unfold plain, is_digit, is_space. intro H.
  destruct c as [[] [] [] [] [] [] [] []]; vm_compute in H; try discriminate H; vm_compute; auto.
Qed.

Lemma uint_plain u : Forall (fun c => is_digit c = true) (list_ascii_of_string (NilEmpty.string_of_uint u)).
Proof. induction u; cbn; constructor; auto. Qed.
Lemma digit_plain c : is_digit c = true -> plain c = true.
Proof. unfold plain. intros ->. reflexivity. Qed.

Lemma str_of_Z_plain z : Forall (fun c => plain c = true) (list_ascii_of_string (str_of_Z z)).
Proof.
  unfold str_of_Z, NilZero.string_of_int.
  assert (G : forall u, Forall (fun c => plain c = true) (list_ascii_of_string (NilZero.string_of_uint u))).
  { intro u. unfold NilZero.string_of_uint. destruct u.
    - repeat constructor.
    - eapply Forall_impl; [exact digit_plain|apply uint_plain].
    - eapply Forall_impl; [exact digit_plain|apply uint_plain].
    - eapply Forall_impl; [exact digit_plain|apply uint_plain].
    - eapply Forall_impl; [exact digit_plain|apply uint_plain].
    - eapply Forall_impl; [exact digit_plain|apply uint_plain].
    - eapply Forall_impl; [exact digit_plain|apply uint_plain].
    - eapply Forall_impl; [exact digit_plain|apply uint_plain].
    - eapply Forall_impl; [exact digit_plain|apply uint_plain].
    - eapply Forall_impl; [exact digit_plain|apply uint_plain].
    - eapply Forall_impl; [exact digit_plain|apply uint_plain]. }
  destruct (Z.to_int z); [apply G|]. cbn. constructor; [reflexivity|apply G].
Qed.

Lemma lstrip_plain l : Forall (fun c => plain c = true) l -> lstrip l = l.
Proof. intros [|c r H F]; [reflexivity|]. cbn. destruct (plain_facts c H) as [-> _]. reflexivity. Qed.
Lemma strip_plain l : Forall (fun c => plain c = true) l -> strip l = l.
Proof.
  intro H. unfold strip. rewrite (lstrip_plain l H), lstrip_plain; [apply rev_involutive|].
  apply Forall_rev. exact H.
Qed.
Lemma drop_us_plain l : Forall (fun c => plain c = true) l -> forall b, drop_us b l = l.
Proof.
  induction 1 as [|c r H F IH]; intro b; [reflexivity|]. destruct (plain_facts c H) as (_ & E & _).
  cbn [drop_us]. destruct r as [|d r']; [reflexivity|]. rewrite E, andb_false_r. cbn [andb]. rewrite IH. reflexivity.
Qed.

Lemma int_back z : NilZero.int_of_string (str_of_Z z) = Some (Z.to_int z).
Proof.
  unfold str_of_Z. apply NilZero.isi.
  - destruct z; cbn; [discriminate| |]; pose proof (DecimalPos.Unsigned.to_uint_nonnil p); congruence.
  - destruct z; cbn; try discriminate. pose proof (DecimalPos.Unsigned.to_uint_nonnil p). congruence.
Qed.

Lemma py_int_str z : py_int (str_of_Z z) = Ok z.
Proof.
  unfold py_int. pose proof (str_of_Z_plain z) as H. rewrite (strip_plain _ H), (drop_us_plain _ H).
  assert (G : (match list_ascii_of_string (str_of_Z z) with
               | c :: ((d :: _) as r) => if Ascii.eqb c "+" && is_digit d then r else list_ascii_of_string (str_of_Z z)
               | _ => list_ascii_of_string (str_of_Z z)
               end) = list_ascii_of_string (str_of_Z z)).
  { destruct (list_ascii_of_string (str_of_Z z)) as [|c [|d r]]; auto. inversion H; subst.
    destruct (plain_facts c H2) as (_ & _ & ->). reflexivity. }
  rewrite G, string_of_list_ascii_of_string, int_back, DecimalZ.of_to. reflexivity.
Qed.

(** a client's frames are read back as they were written *)
Definition readable (utf8 : string -> bool) (m : msg) : Prop :=
  utf8 (m_action m) = true /\ utf8 (m_rt m) = true /\ utf8 (m_ser m) = true.
Lemma read_frames utf8 name m : readable utf8 m -> read_one utf8 name (client_frames m) = Ok (name, m).
Proof.
  intros (A & B & C). unfold client_frames, read_one. rewrite py_int_str. cbn [bind text data]. unfold py_decode.
  rewrite A, B, C. cbn [bind]. destruct m. reflexivity.
Qed.

(** the four text parts and the data cannot be confused *)
Lemma frames_inj m m' : client_frames m = client_frames m' -> m = m'.
Proof.
  destruct m, m'. unfold client_frames. cbn. intros [= H -> -> -> ->]. f_equal.
  pose proof (py_int_str m_req) as A. pose proof (py_int_str m_req0) as B. rewrite H in A. congruence.
Qed.
