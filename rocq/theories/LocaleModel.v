(** Model of the texts for display: /repo/src/pycalendar/locale.py, the methods of DateTime that use it (/repo/src/pycalendar/datetime.py, cited as line numbers alone),
    Timezone.timeZoneDescriptor (/repo/src/pycalendar/timezone.py) and the default time zone (/repo/src/pycalendar/manager.py).  Definitions only. *)
From Verif Require Export DateTimeModel.

(** locale.py:22-35.  The tables. *)
Definition cLongDays : list bytes := [lit "Sunday"; lit "Monday"; lit "Tuesday"; lit "Wednesday"; lit "Thursday"; lit "Friday"; lit "Saturday"].
Definition cShortDays : list bytes := [lit "Sun"; lit "Mon"; lit "Tue"; lit "Wed"; lit "Thu"; lit "Fri"; lit "Sat"].
Definition cAbbrevDays : list bytes := [lit "S"; lit "M"; lit "T"; lit "W"; lit "T"; lit "F"; lit "S"].
Definition cLongMonths : list bytes :=
  [lit ""; lit "January"; lit "February"; lit "March"; lit "April"; lit "May"; lit "June"; lit "July"; lit "August"; lit "September"; lit "October"; lit "November"; lit "December"].
Definition cShortMonths : list bytes :=
  [lit ""; lit "Jan"; lit "Feb"; lit "Mar"; lit "Apr"; lit "May"; lit "Jun"; lit "Jul"; lit "Aug"; lit "Sep"; lit "Oct"; lit "Nov"; lit "Dec"].
Definition cAbbrevMonths : list bytes :=
  [lit ""; lit "J"; lit "F"; lit "M"; lit "A"; lit "M"; lit "J"; lit "J"; lit "A"; lit "S"; lit "O"; lit "N"; lit "D"].
(** locale.py:18-20. *)
Definition LONG : Z := 0.
Definition SHORT : Z := 1.
Definition ABBREVIATED : Z := 2.
(** l[i] with Python's negative indices. *)
Definition list_get {A} (l : list A) (i : Z) : res A :=
  let n := Z.of_nat (List.length l) in
  let j := if i <? 0 then i + n else i in
  if (j <? 0) || (n <=? j) then Raise IndexError
  else match nth_error l (Z.to_nat j) with Some x => Ok x | None => Raise IndexError end.
(** {LONG: a, SHORT: b, ABBREVIATED: c}[strl] with a, b and c looked up before (locale.py:44, 49). *)
Definition of_length (strl : Z) (a b c : res bytes) : res bytes :=
  do a <- a; do b <- b; do c <- c;
  if strl =? LONG then Ok a else if strl =? SHORT then Ok b else if strl =? ABBREVIATED then Ok c else Raise KeyError.
(** locale.py:43-44. *)
Definition getDay (day strl : Z) : res bytes := of_length strl (list_get cLongDays day) (list_get cShortDays day) (list_get cAbbrevDays day).
(** locale.py:48-49. *)
Definition getMonth (month strl : Z) : res bytes := of_length strl (list_get cLongMonths month) (list_get cShortMonths month) (list_get cAbbrevMonths month).

(** 536-544. *)
Definition getMonthText (d : dt) (short_txt : bool) : res bytes :=
  if (mMonth d <? 1) || (12 <? mMonth d) then Ok [] else getMonth (mMonth d) (if short_txt then SHORT else LONG).
(** 546-547. *)
Definition getDayOfWeekText (day : Z) : res bytes := getDay day SHORT.

(** 40-45. *)
Definition FULLDATE : Z := 0.
Definition ABBREVDATE : Z := 1.
Definition NUMERICDATE : Z := 2.
Definition FULLDATENOYEAR : Z := 3.
Definition ABBREVDATENOYEAR : Z := 4.
Definition NUMERICDATENOYEAR : Z := 5.
(** 749-753, 757-761, 771-775, 777-781: weekday, month and day. *)
Definition named_date (d : dt) (strl : Z) : res bytes :=
  do w <- getDayOfWeek d;
  do a <- getDay w strl;
  do b <- getMonth (mMonth d) strl;
  Ok (a ++ lit ", " ++ b ++ lit " " ++ pystr (mDay d)).
(** 744-787.  What is written before an exception is lost with the buffer. *)
Definition getLocaleDate (d : dt) (dateTimeFormat : Z) : res bytes :=
  if dateTimeFormat =? FULLDATE then do s <- named_date d LONG; Ok (s ++ lit ", " ++ pystr (mYear d))
  else if dateTimeFormat =? ABBREVDATE then do s <- named_date d SHORT; Ok (s ++ lit ", " ++ pystr (mYear d))
  else if dateTimeFormat =? NUMERICDATE then Ok (pystr (mMonth d) ++ lit "/" ++ pystr (mDay d) ++ lit "/" ++ pystr (mYear d))
  else if dateTimeFormat =? FULLDATENOYEAR then named_date d LONG
  else if dateTimeFormat =? ABBREVDATENOYEAR then named_date d SHORT
  else if dateTimeFormat =? NUMERICDATENOYEAR then Ok (pystr (mMonth d) ++ lit "/" ++ pystr (mDay d))
  else Ok [].

(** A Timezone object: mUTC and mTimezone, timezone.py:33-48. *)
Record timezone : Set := mkTimezone { tzUTC : bool; tzID : tzid }.
Section WithZones.
(** TimezoneDatabase.getTimezoneDescriptor (timezonedb.py:93-100): what the VTIMEZONE with that TZID answers (VTimezoneModel.v), and no text if there is none. *)
Variable zone_text : tzid -> dt -> res bytes.
(** Timezone.sDefaultTimezone, timezone.py:119. *)
Variable default : timezone.
(** timezone.py:105-117.  Python 2 division rounds down. *)
Definition tz_descriptor (tz : timezone) (d : dt) : res bytes :=
  if tzUTC tz then Ok (lit "(UTC)")
  else
    match tzID tz with
    | TzNone => zone_text (tzID default) d
    | TzInt n => Ok (lit (if n <? 0 then "-" else "+") ++ fmt0 2 (Z.abs n / 3600) ++ fmt0 2 (Z.abs n / 60 mod 60))
    | TzName _ => zone_text (tzID tz) d
    end.
(** 1111-1113, with timezone.py:35-37: utc is not None there. *)
Definition timeZoneDescriptor (d : dt) : res bytes := tz_descriptor (mkTimezone (mTZUTC d) (mTZID d)) d.

(** 805-807, 818-820 and the like: a number with two digits. *)
Definition two (n : Z) : bytes := (if n <? 10 then lit "0" else []) ++ pystr n.
(** 789-835. *)
Definition getTime (d : dt) (with_seconds am_pm tzid : bool) : res bytes :=
  let seconds := if with_seconds then lit ":" ++ two (mSeconds d) else [] in
  let clock :=
    if am_pm then
      let am := negb (12 <=? mHours d) in
      let h := if am then mHours d else mHours d - 12 in
      let h := if h =? 0 then 12 else h in
      pystr h ++ lit ":" ++ two (mMinutes d) ++ seconds ++ (if am then lit " AM" else lit " PM")
    else two (mHours d) ++ lit ":" ++ two (mMinutes d) ++ seconds in
  if tzid then
    do desc <- timeZoneDescriptor d;
    Ok (if 0 <? Z.of_nat (List.length desc) then clock ++ lit " " ++ desc else clock)
  else Ok clock.
(** 837-838. *)
Definition getLocaleDateTime (d : dt) (locale : Z) (with_seconds am_pm tzid : bool) : res bytes :=
  do a <- getLocaleDate d locale;
  do b <- getTime d with_seconds am_pm tzid;
  Ok (a ++ lit " " ++ b).
End WithZones.

(** manager.py:34-41: the new Timezone.sDefaultTimezone; timezone.py:35-37: utc is given. *)
Definition setDefaultTimezoneID (name : tzid) : timezone :=
  if match name with TzName s => beq s (lit "UTC") | _ => false end then mkTimezone true TzNone else mkTimezone false name.
(** manager.py:46-50. *)
Definition getDefaultTimezoneID (default : timezone) : tzid := if tzUTC default then TzName (lit "UTC") else tzID default.
