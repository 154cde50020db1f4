(** Dates and times as sent by teleprox/serializer.py 120-125 (strftime) and read
    back by 177-180 (strptime).

    Library behaviour: CPython's [datetime.strftime] on Linux (glibc) writes %Y
    without padding and the other fields zero-padded; CPython's [_strptime]
    matches the format as a regular expression whose fields are the ordered
    alternatives transcribed below, takes the first match in backtracking order,
    rejects left-over characters, and the [datetime]/[date] constructor rejects
    impossible dates.  Only ASCII digits are modelled. *)
From Verif Require Import Py.

(** datetime.date / datetime.datetime values.  [tz] is the UTC offset in
    seconds of an aware datetime ([None] = naive). (the values of serializer.py 120-125 (library)) *)
Record date := mkDate { yr : Z; mo : Z; dy : Z }.
(** the values of serializer.py 120-125 (library) *)
Record datetime := mkDT { dpart : date; hh : Z; mi : Z; ss : Z; us : Z; tz : option Z }.

(** The calendar of Python's datetime module (proleptic Gregorian).
    (the values datetime accepts (library; used at serializer.py 120-125, 177-180)) *)
Definition is_leap (y : Z) : bool :=
  (y mod 4 =? 0) && (negb (y mod 100 =? 0) || (y mod 400 =? 0)).
(** the values datetime accepts (library; used at serializer.py 120-125, 177-180) *)
Definition days_in_month (y m : Z) : Z :=
  if m =? 2 then (if is_leap y then 29 else 28)
  else if (m =? 4) || (m =? 6) || (m =? 9) || (m =? 11) then 30 else 31.
(** the values datetime accepts (library; used at serializer.py 120-125, 177-180) *)
Definition date_ok (d : date) : bool :=
  (1 <=? yr d) && (yr d <=? 9999) && (1 <=? mo d) && (mo d <=? 12) &&
  (1 <=? dy d) && (dy d <=? days_in_month (yr d) (mo d)).
(** the values datetime accepts (library; used at serializer.py 120-125, 177-180) *)
Definition datetime_ok (t : datetime) : bool :=
  date_ok (dpart t) && (0 <=? hh t) && (hh t <=? 23) && (0 <=? mi t) && (mi t <=? 59) &&
  (0 <=? ss t) && (ss t <=? 59) && (0 <=? us t) && (us t <=? 999999).

(** ** strftime *)
(** pieces of strftime, serializer.py 121-125 (library) *)
Definition dig (d : Z) : ascii := ascii_of_nat (Z.to_nat (48 + d)).
(** pieces of strftime, serializer.py 121-125 (library) *)
Definition d1 (n : Z) (rest : string) : string := String (dig (n mod 10)) rest.
(** pieces of strftime, serializer.py 121-125 (library) *)
Definition pad2 (n : Z) (rest : string) : string := d1 (n / 10) (d1 n rest).
(** pieces of strftime, serializer.py 121-125 (library) *)
Definition pad6 (n : Z) (rest : string) : string :=
  d1 (n / 100000) (d1 (n / 10000) (d1 (n / 1000) (d1 (n / 100) (d1 (n / 10) (d1 n rest))))).
(* %Y on glibc: no padding *)
Definition year_str (n : Z) (rest : string) : string :=
  if n <? 10 then d1 n rest
  else if n <? 100 then d1 (n / 10) (d1 n rest)
  else if n <? 1000 then d1 (n / 100) (d1 (n / 10) (d1 n rest))
  else d1 (n / 1000) (d1 (n / 100) (d1 (n / 10) (d1 n rest))).
(** pieces of strftime, serializer.py 121-125 (library) *)
Definition chr (c : ascii) (rest : string) : string := String c rest.

(** '%Y-%m-%d' followed by [rest] (serializer.py 122, 125) *)
Definition strf_date (d : date) (rest : string) : string :=
  year_str (yr d) (chr "-" (pad2 (mo d) (chr "-" (pad2 (dy d) rest)))).
(** serializer.py 124-125 *)
Definition strftime_date (d : date) : string := strf_date d "".
(** serializer.py 121-122: '%Y-%m-%dT%H:%M:%S.%f' (tzinfo is not written) *)
Definition strftime_datetime (t : datetime) : string :=
  strf_date (dpart t)
    (chr "T" (pad2 (hh t) (chr ":" (pad2 (mi t) (chr ":" (pad2 (ss t) (chr "." (pad6 (us t) "")))))))).

(** ** strptime: backtracking matching in the list monad *)
(** pieces of the patterns of strptime, serializer.py 178, 180 (library) *)
Definition parser (A : Type) := string -> list (A * string).
(** pieces of the patterns of strptime, serializer.py 178, 180 (library) *)
Definition pbind {A B} (p : parser A) (k : A -> parser B) : parser B :=
  fun s => flat_map (fun '(a, r) => k a r) (p s).
(** pieces of the patterns of strptime, serializer.py 178, 180 (library) *)
Definition pret {A} (a : A) : parser A := fun s => [(a, s)].
(** pieces of the patterns of strptime, serializer.py 178, 180 (library) *)
Definition palt {A} (p q : parser A) : parser A := fun s => p s ++ q s.

(* one character in the range lo..hi of digits; value of the digit *)
(** pieces of the patterns of strptime, serializer.py 178, 180 (library) *)
Definition pdig (lo hi : Z) : parser Z := fun s =>
  match s with
  | String c r =>
      let v := Z.of_nat (nat_of_ascii c) - 48 in
      if (lo <=? v) && (v <=? hi) then [(v, r)] else []
  | EmptyString => []
  end.
(** pieces of the patterns of strptime, serializer.py 178, 180 (library) *)
Definition pchr (c : ascii) : parser unit := fun s =>
  match s with
  | String c' r => if Ascii.eqb c c' then [(tt, r)] else []
  | EmptyString => []
  end.
(** pieces of the patterns of strptime, serializer.py 178, 180 (library) *)
Definition two (p q : parser Z) : parser Z :=
  pbind p (fun a => pbind q (fun b => pret (10 * a + b))).

(** CPython Lib/_strptime.py, TimeRE: the patterns of the directives used. *)
Definition re_Y : parser Z :=           (* \d\d\d\d *)
  pbind (pdig 0 9) (fun a => pbind (pdig 0 9) (fun b => pbind (pdig 0 9) (fun c => pbind (pdig 0 9)
    (fun d => pret (1000 * a + 100 * b + 10 * c + d))))).
(** a directive of the format at serializer.py 178, 180 (library) *)
Definition re_m : parser Z :=           (* 1[0-2]|0[1-9]|[1-9] *)
  palt (two (pdig 1 1) (pdig 0 2)) (palt (two (pdig 0 0) (pdig 1 9)) (pdig 1 9)).
(** a directive of the format at serializer.py 178, 180 (library) *)
Definition re_d : parser Z :=           (* 3[0-1]|[1-2]\d|0[1-9]|[1-9]| [1-9] *)
  palt (two (pdig 3 3) (pdig 0 1)) (palt (two (pdig 1 2) (pdig 0 9))
    (palt (two (pdig 0 0) (pdig 1 9)) (palt (pdig 1 9)
      (pbind (pchr " ") (fun _ => pdig 1 9))))).
(** a directive of the format at serializer.py 178, 180 (library) *)
Definition re_H : parser Z :=           (* 2[0-3]|[0-1]\d|\d *)
  palt (two (pdig 2 2) (pdig 0 3)) (palt (two (pdig 0 1) (pdig 0 9)) (pdig 0 9)).
(** a directive of the format at serializer.py 178, 180 (library) *)
Definition re_M : parser Z :=           (* [0-5]\d|\d *)
  palt (two (pdig 0 5) (pdig 0 9)) (pdig 0 9).
(** a directive of the format at serializer.py 178, 180 (library) *)
Definition re_S : parser Z :=           (* 6[0-1]|[0-5]\d|\d *)
  palt (two (pdig 6 6) (pdig 0 1)) (palt (two (pdig 0 5) (pdig 0 9)) (pdig 0 9)).
(* [0-9]{1,6}, greedy; the value is int(s.ljust(6, '0')) *)
Fixpoint re_f_more (n : nat) (scale acc : Z) : parser Z :=
  match n with
  | O => pret acc
  | S n' => palt (pbind (pdig 0 9) (fun d => re_f_more n' (scale / 10) (acc + d * scale))) (pret acc)
  end.
(** a directive of the format at serializer.py 178, 180 (library) *)
Definition re_f : parser Z := pbind (pdig 0 9) (fun d => re_f_more 5 10000 (d * 100000)).

(** the pattern of the format at serializer.py 180 (library) *)
Definition p_date : parser date :=
  pbind re_Y (fun y => pbind (pchr "-") (fun _ => pbind re_m (fun m =>
    pbind (pchr "-") (fun _ => pbind re_d (fun d => pret (mkDate y m d)))))).
(** the pattern of the format at serializer.py 178 (library) *)
Definition p_datetime : parser datetime :=
  pbind p_date (fun dt => pbind (pchr "T") (fun _ => pbind re_H (fun h => pbind (pchr ":") (fun _ =>
    pbind re_M (fun m => pbind (pchr ":") (fun _ => pbind re_S (fun s => pbind (pchr ".") (fun _ =>
      pbind re_f (fun f => pret (mkDT dt h m s f None)))))))))).

(** [_strptime]: no match, or characters left over: ValueError. (serializer.py 178, 180) *)
Definition pfull {A} (p : parser A) (s : string) : res A :=
  match p s with
  | (a, EmptyString) :: _ => Ok a
  | _ => Err ValueError
  end.

(** serializer.py 178: datetime.datetime.strptime(s, '%Y-%m-%dT%H:%M:%S.%f') *)
Definition strptime_datetime (s : string) : res datetime :=
  bind (pfull p_datetime s) (fun t => if datetime_ok t then Ok t else Err ValueError).
(** serializer.py 180: datetime.datetime.strptime(s, '%Y-%m-%d').date() *)
Definition strptime_date (s : string) : res date :=
  bind (pfull p_date s) (fun d => if date_ok d then Ok d else Err ValueError).
