(** Properties C10, C59: dates and times through strftime / strptime. *)
From Verif Require Import Py DateTimeModel DateTimeSpec DateTimeProofs.

(** C10.  The round trip is exact precisely from the year 1000 on. *)
Theorem C10_naive_datetime_roundtrip_iff :
  forall t, real_datetime t -> tz t = None ->
  (strptime_datetime (strftime_datetime t) = Ok t <-> 1000 <= yr (dpart t)).
Proof.
  intros t H Ht. rewrite (datetime_roundtrip_iff t (proj2 (real_datetime_is t) H)). tauto.
Qed.
Print Assumptions C10_naive_datetime_roundtrip_iff.

Theorem C10_date_roundtrip_iff :
  forall d, real_date d ->
  (strptime_date (strftime_date d) = Ok d <-> 1000 <= yr d).
Proof. intros d H. exact (date_roundtrip_iff d (proj2 (real_date_is d) H)). Qed.
Print Assumptions C10_date_roundtrip_iff.

(** C59.  glibc's %Y is not zero-padded and strptime insists on four digits: every
    earlier value makes the receiver raise ValueError. *)
Theorem C59_early_years_refuted :
  (exists t, real_datetime t /\ tz t = None /\ yr (dpart t) < 1000) /\
  (forall t, real_datetime t -> yr (dpart t) < 1000 ->
     strptime_datetime (strftime_datetime t) = Err ValueError) /\
  (forall d, real_date d -> yr d < 1000 -> strptime_date (strftime_date d) = Err ValueError).
Proof.
  split; [exists (mkDT (mkDate 999 12 31) 23 59 59 999999 None); split; [apply real_datetime_is; reflexivity|repeat split]|].
  split; intros x H; [apply datetime_short_year, real_datetime_is, H|apply date_short_year, real_date_is, H].
Qed.
Print Assumptions C59_early_years_refuted.

(** An aware datetime arrives without its offset, i.e. as a different instant. *)
Theorem C59_aware_datetime_loses_offset_refuted :
  forall t, real_datetime t -> 1000 <= yr (dpart t) -> tz t <> None ->
  exists t', strptime_datetime (strftime_datetime t) = Ok t' /\ tz t' = None /\ t' <> t.
Proof.
  intros t H Hy Hz. exists (strip_tz t). split; [exact (datetime_roundtrip t (proj2 (real_datetime_is t) H) Hy)|].
  split; [reflexivity|]. intro E. apply Hz. rewrite <- E. reflexivity.
Qed.
Print Assumptions C59_aware_datetime_loses_offset_refuted.

Example C10_case :
  let t := mkDT (mkDate 2024 2 29) 7 5 0 42 None in
  real_datetime t /\ strftime_datetime t = "2024-02-29T07:05:00.000042" /\
  strptime_datetime "2024-02-29T07:05:00.000042" = Ok t /\
  strptime_datetime "2023-02-29T07:05:00.000042" = Err ValueError /\
  strptime_date "2024-02-29x" = Err ValueError.
Proof. cbv zeta. split; [apply real_datetime_is; reflexivity|vm_compute; auto]. Qed.
Example C10_case_early :
  strftime_date (mkDate 476 9 4) = "476-09-04" /\ strptime_date "476-09-04" = Err ValueError.
Proof. vm_compute. auto. Qed.
