(** What the theorems about the texts for display are stated with. *)
From Verif Require Export LocaleModel CalSpec.

Definition week_names : list (Z * bytes) :=
  [(0, lit "Sunday"); (1, lit "Monday"); (2, lit "Tuesday"); (3, lit "Wednesday"); (4, lit "Thursday"); (5, lit "Friday"); (6, lit "Saturday")].
Definition month_names : list (Z * bytes) :=
  [(1, lit "January"); (2, lit "February"); (3, lit "March"); (4, lit "April"); (5, lit "May"); (6, lit "June");
   (7, lit "July"); (8, lit "August"); (9, lit "September"); (10, lit "October"); (11, lit "November"); (12, lit "December")].
(** s is the name of n, or its first three letters. *)
Definition called (short : bool) (names : list (Z * bytes)) (n : Z) (s : bytes) : Prop :=
  exists l, In (n, l) names /\ s = if short then firstn 3 l else l.
(** Weekday, month and day: "Friday, January 31" or "Fri, Jan 31". *)
Definition day_text (short : bool) (dd : date) (s : bytes) : Prop :=
  let '(y, m, d) := dd in
  exists w a b, is_weekday dd w /\ called short week_names w a /\ called short month_names m b /\ s = a ++ lit ", " ++ b ++ lit " " ++ pystr d.
(** The forms of a date, by their numbers. *)
Inductive date_text (dd : date) : Z -> bytes -> Prop :=
| dt_full s : day_text false dd s -> date_text dd 0 (s ++ lit ", " ++ pystr (fst (fst dd)))
| dt_abbrev s : day_text true dd s -> date_text dd 1 (s ++ lit ", " ++ pystr (fst (fst dd)))
| dt_numeric y m d : dd = (y, m, d) -> date_text dd 2 (pystr m ++ lit "/" ++ pystr d ++ lit "/" ++ pystr y)
| dt_full_no_year s : day_text false dd s -> date_text dd 3 s
| dt_abbrev_no_year s : day_text true dd s -> date_text dd 4 s
| dt_numeric_no_year y m d : dd = (y, m, d) -> date_text dd 5 (pystr m ++ lit "/" ++ pystr d).

Definition digits2 (n : Z) : bytes := map digit_char [n / 10; n mod 10].
(** A time on a clock of 24 hours: two digits each. *)
Definition seconds_text (with_seconds : bool) (s : Z) : bytes := if with_seconds then lit ":" ++ digits2 s else [].
(** A time on a clock of 12 hours: before noon with AM and after that with PM; the hours are 12, 1, 2, ..., 11 without leading zero. *)
Definition twelve (h h12 : Z) (pm : bool) : Prop := 1 <= h12 <= 12 /\ h = h12 mod 12 + (if pm then 12 else 0).
Definition clock_text (with_seconds am_pm : bool) (h mi s : Z) (x : bytes) : Prop :=
  if am_pm then exists h12 pm, twelve h h12 pm /\ x = pystr h12 ++ lit ":" ++ digits2 mi ++ seconds_text with_seconds s ++ lit (if pm then " PM" else " AM")
  else x = digits2 h ++ lit ":" ++ digits2 mi ++ seconds_text with_seconds s.
(** The text for an offset, without its seconds. *)
Definition offset_text (n : Z) (x : bytes) : Prop :=
  exists h mi s, 0 <= h /\ 0 <= mi < 60 /\ 0 <= s < 60 /\ Z.abs n = 3600 * h + 60 * mi + s /\ x = lit (if n <? 0 then "-" else "+") ++ digits2 h ++ digits2 mi.
Definition time_of (d : dt) : Prop := valid_time (mHours d) (mMinutes d) (mSeconds d).
