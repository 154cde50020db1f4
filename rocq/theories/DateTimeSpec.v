(** Specification vocabulary for dates and times: the Gregorian calendar, stated
    without the checks of the model. *)
From Verif Require Import Py DateTimeModel.

Definition leap_year (y : Z) : Prop := (4 | y) /\ ((100 | y) -> (400 | y)).

(** a day that exists, in the years 1 to 9999 *)
Definition real_date (d : date) : Prop :=
  1 <= yr d <= 9999 /\ 1 <= mo d <= 12 /\ 1 <= dy d <= 31 /\
  (In (mo d) [4; 6; 9; 11] -> dy d <= 30) /\
  (mo d = 2 -> dy d <= 29 /\ (dy d = 29 -> leap_year (yr d))).

(** a time of day on a day that exists (no leap seconds) *)
Definition real_datetime (t : datetime) : Prop :=
  real_date (dpart t) /\ 0 <= hh t < 24 /\ 0 <= mi t < 60 /\ 0 <= ss t < 60 /\ 0 <= us t < 1000000.
