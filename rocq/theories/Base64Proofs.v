From Verif Require Import Py Base64Model.

Lemma byte_val_bound c : 0 <= byte_val c < 256.
Proof.
  unfold byte_val. pose proof (N_ascii_bounded c). lia.
Qed.
Lemma byte_of_val c : byte_of (byte_val c) = c.
Proof. unfold byte_of, byte_val. rewrite N2Z.id. apply ascii_N_embedding. Qed.

Lemma b64_val_all :
  forallb (fun n => (b64_val (b64_char (Z.of_nat n)) =? Z.of_nat n) &&
                    negb (Ascii.eqb (b64_char (Z.of_nat n)) "="%char)) (seq 0 64) = true.
Proof. vm_compute. reflexivity. Qed.

Lemma b64_val_char n : 0 <= n < 64 ->
  b64_val (b64_char n) = n /\ Ascii.eqb (b64_char n) "="%char = false.
Proof.
  intro H. pose proof b64_val_all as A. rewrite forallb_forall in A.
  specialize (A (Z.to_nat n)). rewrite Z2Nat.id in A by lia.
  rewrite andb_true_iff, Z.eqb_eq, negb_true_iff in A. apply A. apply in_seq. lia.
Qed.

Lemma a2b_char n r quad left pads out : 0 <= n < 64 ->
  a2b (b64_char n :: r) quad left pads out =
  (if quad =? 0 then a2b r 1 n 0 out
   else if quad =? 1 then a2b r 2 (n mod 16) 0 (byte_of (left * 4 + n / 16) :: out)
   else if quad =? 2 then a2b r 3 (n mod 4) 0 (byte_of (left * 16 + n / 4) :: out)
   else a2b r 0 0 0 (byte_of (left * 64 + n) :: out)).
Proof.
  intro H. cbn [a2b]. destruct (b64_val_char n H) as [E1 E2]. rewrite E1, E2.
  destruct (Z.leb_spec 64 n); [lia|]. reflexivity.
Qed.

Lemma byte_of_eq c z : z = byte_val c -> byte_of z = c.
Proof. intros ->. apply byte_of_val. Qed.

Lemma sx1 a b : 0 <= b < 256 -> (a mod 4 * 16 + b / 16) mod 16 = b / 16 /\ (a mod 4 * 16 + b / 16) / 16 = a mod 4
   /\ 0 <= a mod 4 * 16 + b / 16 < 64.
Proof.
  intro H. pose proof (Z.mod_pos_bound a 4 ltac:(lia)).
  assert (0 <= b / 16 < 16) by (split; [apply Z.div_pos; lia | apply Z.div_lt_upper_bound; lia]).
  rewrite Z.add_comm, Z.mod_add, (Z.mod_small (b / 16)) by lia.
  rewrite Z.div_add by lia. rewrite (Z.div_small (b / 16)) by lia. lia.
Qed.
Lemma sx2 b c : 0 <= c < 256 -> (b mod 16 * 4 + c / 64) mod 4 = c / 64 /\ (b mod 16 * 4 + c / 64) / 4 = b mod 16
   /\ 0 <= b mod 16 * 4 + c / 64 < 64.
Proof.
  intro H. pose proof (Z.mod_pos_bound b 16 ltac:(lia)).
  assert (0 <= c / 64 < 4) by (split; [apply Z.div_pos; lia | apply Z.div_lt_upper_bound; lia]).
  rewrite Z.add_comm, Z.mod_add, (Z.mod_small (c / 64)) by lia.
  rewrite Z.div_add by lia. rewrite (Z.div_small (c / 64)) by lia. lia.
Qed.
Lemma sx0 a : 0 <= a < 256 -> 0 <= a / 4 < 64.
Proof. intro H. split; [apply Z.div_pos; lia | apply Z.div_lt_upper_bound; lia]. Qed.
Lemma sx3 c : 0 <= c mod 64 < 64.
Proof. apply Z.mod_pos_bound. lia. Qed.

Lemma grp_x x : byte_of (byte_val x / 4 * 4 + byte_val x mod 4) = x.
Proof. apply byte_of_eq. pose proof (Z.div_mod (byte_val x) 4). lia. Qed.
Lemma grp_y y : byte_of (byte_val y / 16 * 16 + byte_val y mod 16) = y.
Proof. apply byte_of_eq. pose proof (Z.div_mod (byte_val y) 16). lia. Qed.
Lemma grp_z z : byte_of (byte_val z / 64 * 64 + byte_val z mod 64) = z.
Proof. apply byte_of_eq. pose proof (Z.div_mod (byte_val z) 64). lia. Qed.

Lemma a2b_encode b : forall out, a2b (b64encode b) 0 0 0 out = Ok (rev out ++ b).
Proof.
  assert (G : forall n b, (List.length b <= n)%nat ->
              forall out, a2b (b64encode b) 0 0 0 out = Ok (rev out ++ b)).
  { induction n as [|n IH]; intros [|x [|y [|z r]]] Hn out; simpl in Hn; try lia;
      try (simpl; rewrite app_nil_r; reflexivity).
    - pose proof (byte_val_bound x). cbn [b64encode].
      destruct (sx1 (byte_val x) 0 ltac:(lia)) as (E1 & E2 & E3).
      change (0 / 16) with 0 in *. rewrite Z.add_0_r in *.
      rewrite a2b_char by (apply sx0; lia). cbn [Z.eqb].
      rewrite a2b_char by exact E3. cbn [Z.eqb Pos.eqb]. rewrite E2.
      cbn -[Z.div Z.modulo Z.mul Z.add]. rewrite grp_x. reflexivity.
    - pose proof (byte_val_bound x). pose proof (byte_val_bound y). cbn [b64encode].
      destruct (sx1 (byte_val x) (byte_val y) ltac:(lia)) as (E1 & E2 & E3).
      destruct (sx2 (byte_val y) 0 ltac:(lia)) as (F1 & F2 & F3).
      change (0 / 64) with 0 in *. rewrite Z.add_0_r in *.
      rewrite a2b_char by (apply sx0; lia). cbn [Z.eqb].
      rewrite a2b_char by exact E3. cbn [Z.eqb Pos.eqb]. rewrite E1, E2.
      rewrite a2b_char by exact F3. cbn [Z.eqb Pos.eqb]. rewrite F2.
      cbn -[Z.div Z.modulo Z.mul Z.add]. rewrite grp_x, grp_y. rewrite <- !app_assoc. reflexivity.
    - pose proof (byte_val_bound x). pose proof (byte_val_bound y). pose proof (byte_val_bound z).
      cbn [b64encode].
      destruct (sx1 (byte_val x) (byte_val y) ltac:(lia)) as (E1 & E2 & E3).
      destruct (sx2 (byte_val y) (byte_val z) ltac:(lia)) as (F1 & F2 & F3).
      rewrite a2b_char by (apply sx0; lia). cbn [Z.eqb].
      rewrite a2b_char by exact E3. cbn [Z.eqb Pos.eqb]. rewrite E1, E2.
      rewrite a2b_char by exact F3. cbn [Z.eqb Pos.eqb]. rewrite F1, F2.
      rewrite a2b_char by apply sx3. cbn [Z.eqb Pos.eqb].
      rewrite grp_x, grp_y, grp_z.
      rewrite IH by (simpl in *; lia). cbn [rev]. rewrite <- !app_assoc. reflexivity. }
  intro out. apply (G (List.length b)). lia.
Qed.

Lemma b64_roundtrip b : b64decode (b64encode b) = Ok b.
Proof. unfold b64decode. rewrite a2b_encode. reflexivity. Qed.
