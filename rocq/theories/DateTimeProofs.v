From Verif Require Import Py DateTimeModel DateTimeSpec.

Lemma nat_dig d : 0 <= d <= 9 -> Z.of_nat (nat_of_ascii (dig d)) - 48 = d.
Proof.
  intro H. unfold dig. rewrite nat_ascii_embedding by lia. lia.
Qed.

Lemma pdig_dig lo hi d r : 0 <= d <= 9 ->
  pdig lo hi (String (dig d) r) = if (lo <=? d) && (d <=? hi) then [(d, r)] else [].
Proof. intro H. unfold pdig. rewrite nat_dig by exact H. reflexivity. Qed.
Lemma pdig_in lo hi d r : 0 <= d <= 9 -> lo <= d <= hi -> pdig lo hi (String (dig d) r) = [(d, r)].
Proof.
  intros H1 H2. rewrite pdig_dig by exact H1.
  destruct (Z.leb_spec lo d); [|lia]. destruct (Z.leb_spec d hi); [reflexivity|lia].
Qed.
Lemma pdig_out lo hi d r : 0 <= d <= 9 -> ~ (lo <= d <= hi) -> pdig lo hi (String (dig d) r) = [].
Proof.
  intros H1 H2. rewrite pdig_dig by exact H1.
  destruct (Z.leb_spec lo d); [|reflexivity]. destruct (Z.leb_spec d hi); [lia|reflexivity].
Qed.

(** [first p s a r]: the first match of [p] on [s] is [a], leaving [r]. *)
Definition first {A} (p : parser A) (s : string) (a : A) (r : string) : Prop :=
  exists tl, p s = (a, r) :: tl.

Lemma first_ret {A} (a : A) s : first (pret a) s a s.
Proof. exists []. reflexivity. Qed.
Lemma first_bind {A B} (p : parser A) (k : A -> parser B) s a r b r' :
  first p s a r -> first (k a) r b r' -> first (pbind p k) s b r'.
Proof.
  intros [t1 E1] [t2 E2]. unfold first, pbind. rewrite E1. simpl. rewrite E2. simpl. eauto.
Qed.
Lemma first_alt_l {A} (p q : parser A) s a r : first p s a r -> first (palt p q) s a r.
Proof. intros [t E]. unfold first, palt. rewrite E. simpl. eauto. Qed.
Lemma first_alt_r {A} (p q : parser A) s a r : p s = [] -> first q s a r -> first (palt p q) s a r.
Proof. intros E0 [t E]. unfold first, palt. rewrite E0. simpl. eauto. Qed.
Lemma first_chr c r : first (pchr c) (chr c r) tt r.
Proof. unfold first, pchr, chr. rewrite Ascii.eqb_refl. eauto. Qed.
Lemma first_dig lo hi n r : lo <= n mod 10 <= hi -> first (pdig lo hi) (d1 n r) (n mod 10) r.
Proof.
  intro H. exists []. unfold d1. pose proof (Z.mod_pos_bound n 10 ltac:(lia)).
  apply pdig_in; [lia|exact H].
Qed.

Lemma two_first lo hi lo' hi' n r : 0 <= n <= 99 ->
  lo <= n / 10 <= hi -> lo' <= n mod 10 <= hi' ->
  first (two (pdig lo hi) (pdig lo' hi')) (pad2 n r) n r.
Proof.
  intros Hn H1 H2. unfold two, pad2.
  assert (E : (n / 10) mod 10 = n / 10).
  { apply Z.mod_small. split; [apply Z.div_pos; lia | apply Z.div_lt_upper_bound; lia]. }
  eapply first_bind; [apply first_dig; rewrite E; exact H1|].
  eapply first_bind; [apply first_dig; exact H2|].
  rewrite E. replace (10 * (n / 10) + n mod 10) with n by (pose proof (Z.div_mod n 10); lia).
  apply first_ret.
Qed.

Lemma two_none1 lo hi q n r : 0 <= n <= 99 -> ~ (lo <= n / 10 <= hi) ->
  two (pdig lo hi) q (pad2 n r) = [].
Proof.
  intros Hn H. unfold two, pbind, pad2, d1 at 1.
  assert (E : (n / 10) mod 10 = n / 10).
  { apply Z.mod_small. split; [apply Z.div_pos; lia | apply Z.div_lt_upper_bound; lia]. }
  rewrite E. rewrite pdig_out; [reflexivity | |exact H].
  split; [apply Z.div_pos; lia | assert (n / 10 < 10) by (apply Z.div_lt_upper_bound; lia); lia].
Qed.

Ltac divs n :=
  pose proof (Z.div_mod n 10 ltac:(lia)); pose proof (Z.mod_pos_bound n 10 ltac:(lia)).

Lemma re_m_first n r : 1 <= n <= 12 -> first re_m (pad2 n r) n r.
Proof.
  intro H. divs n. unfold re_m. destruct (Z.le_gt_cases 10 n).
  - apply first_alt_l. apply two_first; lia.
  - apply first_alt_r; [apply two_none1; lia|]. apply first_alt_l. apply two_first; lia.
Qed.
Lemma re_d_first n r : 1 <= n <= 31 -> first re_d (pad2 n r) n r.
Proof.
  intro H. divs n. unfold re_d. destruct (Z.le_gt_cases 30 n).
  - apply first_alt_l. apply two_first; lia.
  - apply first_alt_r; [apply two_none1; lia|]. destruct (Z.le_gt_cases 10 n).
    + apply first_alt_l. apply two_first; lia.
    + apply first_alt_r; [apply two_none1; lia|]. apply first_alt_l. apply two_first; lia.
Qed.
Lemma re_H_first n r : 0 <= n <= 23 -> first re_H (pad2 n r) n r.
Proof.
  intro H. divs n. unfold re_H. destruct (Z.le_gt_cases 20 n).
  - apply first_alt_l. apply two_first; lia.
  - apply first_alt_r; [apply two_none1; lia|]. apply first_alt_l. apply two_first; lia.
Qed.
Lemma re_M_first n r : 0 <= n <= 59 -> first re_M (pad2 n r) n r.
Proof. intro H. divs n. unfold re_M. apply first_alt_l. apply two_first; lia. Qed.
Lemma re_S_first n r : 0 <= n <= 59 -> first re_S (pad2 n r) n r.
Proof.
  intro H. divs n. unfold re_S. apply first_alt_r; [apply two_none1; lia|].
  apply first_alt_l. apply two_first; lia.
Qed.

Lemma dig_first n r : first (pdig 0 9) (d1 n r) (n mod 10) r.
Proof. apply first_dig. pose proof (Z.mod_pos_bound n 10 ltac:(lia)). lia. Qed.

Lemma re_Y_first n r : 1000 <= n <= 9999 -> first re_Y (year_str n r) n r.
Proof.
  intro H. unfold year_str.
  destruct (Z.ltb_spec n 10); [lia|]. destruct (Z.ltb_spec n 100); [lia|].
  destruct (Z.ltb_spec n 1000); [lia|]. unfold re_Y.
  eapply first_bind; [apply dig_first|]. eapply first_bind; [apply dig_first|].
  eapply first_bind; [apply dig_first|]. eapply first_bind; [apply dig_first|].
  match goal with |- first (pret ?x) _ _ _ => replace x with n; [apply first_ret|] end.
  replace (n / 1000) with (n / 100 / 10) by (rewrite Z.div_div by lia; reflexivity).
  replace (n / 100) with (n / 10 / 10) by (rewrite Z.div_div by lia; reflexivity).
  pose proof (Z.div_mod n 10 ltac:(lia)). pose proof (Z.div_mod (n/10) 10 ltac:(lia)).
  pose proof (Z.div_mod (n/10/10) 10 ltac:(lia)). pose proof (Z.div_mod (n/10/10/10) 10 ltac:(lia)).
  assert (n / 10 / 10 / 10 / 10 = 0).
  { rewrite !Z.div_div by lia. apply Z.div_small. lia. }
  lia.
Qed.

Lemma re_f_first n r : 0 <= n <= 999999 -> first re_f (pad6 n r) n r.
Proof.
  intro H. unfold re_f, pad6.
  eapply first_bind; [apply dig_first|].
  do 5 (cbn [re_f_more]; apply first_alt_l; eapply first_bind; [apply dig_first|]).
  cbn [re_f_more].
  match goal with |- first (pret ?x) _ _ _ => replace x with n; [apply first_ret|] end.
  replace (n / 100000) with (n / 10000 / 10) by (rewrite Z.div_div by lia; reflexivity).
  replace (n / 10000) with (n / 1000 / 10) by (rewrite Z.div_div by lia; reflexivity).
  replace (n / 1000) with (n / 100 / 10) by (rewrite Z.div_div by lia; reflexivity).
  replace (n / 100) with (n / 10 / 10) by (rewrite Z.div_div by lia; reflexivity).
  change (10000 / 10) with 1000. change (1000 / 10) with 100. change (100 / 10) with 10.
  change (10 / 10) with 1.
  pose proof (Z.div_mod n 10 ltac:(lia)). pose proof (Z.div_mod (n/10) 10 ltac:(lia)).
  pose proof (Z.div_mod (n/10/10) 10 ltac:(lia)). pose proof (Z.div_mod (n/10/10/10) 10 ltac:(lia)).
  pose proof (Z.div_mod (n/10/10/10/10) 10 ltac:(lia)).
  pose proof (Z.div_mod (n/10/10/10/10/10) 10 ltac:(lia)).
  assert (n / 10 / 10 / 10 / 10 / 10 / 10 = 0).
  { rewrite !Z.div_div by lia. apply Z.div_small. lia. }
  lia.
Qed.

Lemma days_le y m : days_in_month y m <= 31.
Proof. unfold days_in_month. destruct (m =? 2); [destruct (is_leap y); lia|]. destruct (_ || _); lia. Qed.

Lemma date_ok_spec d : date_ok d = true ->
  1 <= yr d <= 9999 /\ 1 <= mo d <= 12 /\ 1 <= dy d <= 31.
Proof.
  unfold date_ok. rewrite !andb_true_iff, !Z.leb_le. pose proof (days_le (yr d) (mo d)). lia.
Qed.

Lemma p_date_first d r : date_ok d = true -> 1000 <= yr d -> first p_date (strf_date d r) d r.
Proof.
  intros Hok Hy. apply date_ok_spec in Hok. destruct Hok as (A & B & C).
  unfold p_date, strf_date.
  eapply first_bind; [apply re_Y_first; lia|]. eapply first_bind; [apply first_chr|].
  eapply first_bind; [apply re_m_first; lia|]. eapply first_bind; [apply first_chr|].
  eapply first_bind; [apply re_d_first; lia|]. destruct d; apply first_ret.
Qed.

Lemma pfull_first {A} (p : parser A) s a : first p s a "" -> pfull p s = Ok a.
Proof. intros [t E]. unfold pfull. rewrite E. reflexivity. Qed.

Lemma date_roundtrip d : date_ok d = true -> 1000 <= yr d ->
  strptime_date (strftime_date d) = Ok d.
Proof.
  intros Hok Hy. unfold strptime_date, strftime_date.
  rewrite (pfull_first _ _ d (p_date_first d "" Hok Hy)). simpl. rewrite Hok. reflexivity.
Qed.

Definition strip_tz (t : datetime) : datetime := mkDT (dpart t) (hh t) (mi t) (ss t) (us t) None.

Lemma datetime_roundtrip t : datetime_ok t = true -> 1000 <= yr (dpart t) ->
  strptime_datetime (strftime_datetime t) = Ok (strip_tz t).
Proof.
  intros Hok Hy. unfold strptime_datetime, strftime_datetime.
  pose proof Hok as H. unfold datetime_ok in H. rewrite !andb_true_iff, !Z.leb_le in H.
  destruct H as ((((((((Hd & ?) & ?) & ?) & ?) & ?) & ?) & ?) & ?).
  match goal with |- bind (pfull _ ?s) _ = _ =>
    assert (F : first p_datetime s (strip_tz t) "") end.
  { unfold p_datetime. eapply first_bind; [apply p_date_first; assumption|].
    eapply first_bind; [apply first_chr|]. eapply first_bind; [apply re_H_first; lia|].
    eapply first_bind; [apply first_chr|]. eapply first_bind; [apply re_M_first; lia|].
    eapply first_bind; [apply first_chr|]. eapply first_bind; [apply re_S_first; lia|].
    eapply first_bind; [apply first_chr|]. eapply first_bind; [apply re_f_first; lia|].
    apply first_ret. }
  rewrite (pfull_first _ _ _ F). simpl.
  change (datetime_ok (strip_tz t)) with (datetime_ok t). rewrite Hok. reflexivity.
Qed.

(** Years before 1000: %Y writes fewer than four digits, so the match fails. *)
Lemma short_year_no_match n r : 1 <= n < 1000 -> re_Y (year_str n (chr "-" r)) = [].
Proof.
  intro H.
  assert (Hdash : pdig 0 9 (chr "-" r) = []) by reflexivity.
  assert (D : forall m s, pdig 0 9 (d1 m s) = [(m mod 10, s)]).
  { intros m s. pose proof (Z.mod_pos_bound m 10 ltac:(lia)). apply pdig_in; lia. }
  unfold year_str, re_Y, pbind.
  destruct (Z.ltb_spec n 10); [rewrite D; cbn [flat_map]; rewrite Hdash; reflexivity|].
  destruct (Z.ltb_spec n 100);
    [rewrite D; cbn [flat_map]; rewrite D; cbn [flat_map]; rewrite Hdash; reflexivity|].
  destruct (Z.ltb_spec n 1000); [|lia].
  rewrite D; cbn [flat_map]; rewrite D; cbn [flat_map]; rewrite D; cbn [flat_map]; rewrite Hdash; reflexivity.
Qed.

Lemma p_date_short d r : date_ok d = true -> yr d < 1000 -> p_date (strf_date d r) = [].
Proof.
  intros Hok Hy. apply date_ok_spec in Hok. unfold p_date, strf_date. unfold pbind at 1.
  rewrite short_year_no_match by lia. reflexivity.
Qed.

Lemma date_short_year d : date_ok d = true -> yr d < 1000 ->
  strptime_date (strftime_date d) = Err ValueError.
Proof.
  intros Hok Hy. unfold strptime_date, strftime_date, pfull. rewrite p_date_short by assumption. reflexivity.
Qed.

Lemma datetime_short_year t : datetime_ok t = true -> yr (dpart t) < 1000 ->
  strptime_datetime (strftime_datetime t) = Err ValueError.
Proof.
  intros Hok Hy. unfold datetime_ok in Hok. rewrite !andb_true_iff in Hok.
  destruct Hok as ((((((((Hd & _) & _) & _) & _) & _) & _) & _) & _).
  unfold strptime_datetime, strftime_datetime, pfull, p_datetime. unfold pbind at 1.
  rewrite p_date_short by assumption. reflexivity.
Qed.

Lemma date_roundtrip_iff d : date_ok d = true ->
  (strptime_date (strftime_date d) = Ok d <-> 1000 <= yr d).
Proof.
  intro H. split; [|apply date_roundtrip; exact H].
  intro E. destruct (Z.le_gt_cases 1000 (yr d)); [assumption|].
  rewrite date_short_year in E by assumption. discriminate.
Qed.

Lemma datetime_roundtrip_iff t : datetime_ok t = true ->
  (strptime_datetime (strftime_datetime t) = Ok t <-> 1000 <= yr (dpart t) /\ tz t = None).
Proof.
  intro H. split.
  - intro E. destruct (Z.le_gt_cases 1000 (yr (dpart t))).
    + split; [assumption|]. rewrite datetime_roundtrip in E by assumption.
      injection E as E. rewrite <- E. reflexivity.
    + rewrite datetime_short_year in E by assumption. discriminate.
  - intros [Hy Ht]. rewrite datetime_roundtrip by assumption. unfold strip_tz. destruct t; simpl in *.
    rewrite Ht. reflexivity.
Qed.

(** ** The calendar *)
Lemma leap_year_is y : is_leap y = true <-> leap_year y.
Proof.
  unfold is_leap, leap_year. rewrite andb_true_iff, orb_true_iff, negb_true_iff, !Z.eqb_eq, Z.eqb_neq.
  rewrite <- !Z.mod_divide by lia. split; intros [A B]; (split; [exact A|]).
  - intro C. destruct B as [B|B]; [contradiction|exact B].
  - destruct (Z.eq_dec (y mod 100) 0) as [C|C]; [right; exact (B C)|left; exact C].
Qed.
Lemma real_date_is d : date_ok d = true <-> real_date d.
Proof.
  unfold date_ok, real_date, days_in_month. rewrite !andb_true_iff, !Z.leb_le.
  rewrite <- (leap_year_is (yr d)). cbn [In].
  destruct (Z.eqb_spec (mo d) 2) as [E2|E2]; [destruct (is_leap (yr d)); split; intros; intuition (try lia; try discriminate)|].
  destruct (Z.eqb_spec (mo d) 4), (Z.eqb_spec (mo d) 6), (Z.eqb_spec (mo d) 9), (Z.eqb_spec (mo d) 11);
    cbn [orb]; split; intros; intuition lia.
Qed.
Lemma real_datetime_is t : datetime_ok t = true <-> real_datetime t.
Proof.
  unfold datetime_ok, real_datetime. rewrite !andb_true_iff, !Z.leb_le, real_date_is. intuition lia.
Qed.
