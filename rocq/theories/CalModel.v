(** Model of the calendar arithmetic in /repo/src/pycalendar/utils.py.
    Definitions only. *)
From Verif Require Export PyBase.

(** utils.py:358-359, the two month length tables. *)
Definition days_in_month_t : list Z := [0; 31; 28; 31; 30; 31; 30; 31; 31; 30; 31; 30; 31].
Definition days_in_month_leap_t : list Z := [0; 31; 29; 31; 30; 31; 30; 31; 31; 30; 31; 30; 31].

(** utils.py:370-371, days before the month. *)
Definition days_upto_month_t : list Z := [0; 0; 31; 59; 90; 120; 151; 181; 212; 243; 273; 304; 334].
Definition days_upto_month_leap_t : list Z := [0; 0; 31; 60; 91; 121; 152; 182; 213; 244; 274; 305; 335].

(** utils.py:385-395.  The cachedLeapYears dictionary only memoises this pure
    function of the year, so it is left out. *)
Definition isLeapYear (year : Z) : bool :=
  if year <=? 1752 then year mod 4 =? 0
  else ((year mod 4 =? 0) && negb (year mod 100 =? 0)) || (year mod 400 =? 0).

(** utils.py:362-368, with Python's tuple indexing (IndexError outside -13..12). *)
Definition daysInMonth_r (month year : Z) : res Z :=
  tuple_get (if isLeapYear year then days_in_month_leap_t else days_in_month_t) month.

(** utils.py:374-380. *)
Definition daysUptoMonth_r (month year : Z) : res Z :=
  tuple_get (if isLeapYear year then days_upto_month_leap_t else days_upto_month_t) month.

(** utils.py:362-368 for callers whose month is known to be in 1..12 (the loops of
    DateTime.normalise); the value 0 for a failed lookup is never used there. *)
Definition daysInMonth (month year : Z) : Z :=
  match daysInMonth_r month year with Ok d => d | Raise _ => 0 end.

(** utils.py:374-380 for callers whose month is known to be in 1..12. *)
Definition daysUptoMonth (month year : Z) : Z :=
  match daysUptoMonth_r month year with Ok d => d | Raise _ => 0 end.

(** utils.py:400-414.  cachedLeapDaysSince1970 only memoises and is left out. *)
Definition leapDaysSince1970 (year_offset : Z) : Z :=
  if 2 <? year_offset then (year_offset + 1) / 4
  else if year_offset <? -1 then (year_offset + 1) / 4
  else 0.

(** utils.py:418-419. *)
Definition packDate (year month day : Z) : Z :=
  Z.lor (Z.lor (Z.shiftl year 16) (Z.shiftl month 8)) (day + 128).

(** utils.py:428-429. *)
Definition unpackDateYear (data : Z) : Z := Z.shiftr (Z.land data 4294901760) 16.
(** utils.py:432-433. *)
Definition unpackDateMonth (data : Z) : Z := Z.shiftr (Z.land data 65280) 8.
(** utils.py:436-437. *)
Definition unpackDateDay (data : Z) : Z := Z.land data 255 - 128.
(** utils.py:422-425; the output list is returned as a triple. *)
Definition unpackDate (data : Z) : Z * Z * Z :=
  (Z.shiftr (Z.land data 4294901760) 16, Z.shiftr (Z.land data 65280) 8, Z.land data 255 - 128).
