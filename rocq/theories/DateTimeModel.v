(** Model of /repo/src/pycalendar/datetime.py (class DateTime) without its text
    codecs.  Definitions only.  Line numbers without a file name refer to
    /repo/src/pycalendar/datetime.py. *)
From Verif Require Export CalModel.

(** mTZID is None, a TZID string, or an int UTC offset in seconds:
    /repo/src/pycalendar/timezone.py:21-28. *)
Inductive tzid : Set :=
| TzNone
| TzName (s : bytes)
| TzInt (n : Z).

(** Python truth value of mTZID: None, "" and 0 are false (used at 612, 615,
    timezone.py:74). *)
Definition tz_true (t : tzid) : bool :=
  match t with
  | TzNone => false
  | TzName [] => false
  | TzName _ => true
  | TzInt n => negb (n =? 0)
  end.

(** == on mTZID values (timezone.py:70 through stringutils.py:92-98, datetime.py:628). *)
Definition tz_eqb (a b : tzid) : bool :=
  match a, b with
  | TzNone, TzNone => true
  | TzName x, TzName y => beq x y
  | TzInt x, TzInt y => x =? y
  | _, _ => false
  end.

(** The instance variables of a DateTime: 51-94. *)
Record dt : Set := mkDT {
  mYear : Z; mMonth : Z; mDay : Z;
  mHours : Z; mMinutes : Z; mSeconds : Z;
  mDateOnly : bool;
  mTZUTC : bool; mTZID : tzid;
  mTZOffset : option Z;
  mPosixTimeCached : bool; mPosixTime : Z
}.

(** Field updates (Python attribute assignment, e.g. 255-257, 550-553). *)
Definition with_ymd (d : dt) (y m dd : Z) : dt :=
  mkDT y m dd (mHours d) (mMinutes d) (mSeconds d) (mDateOnly d) (mTZUTC d) (mTZID d)
       (mTZOffset d) (mPosixTimeCached d) (mPosixTime d).
Definition with_hms (d : dt) (h mi s : Z) : dt :=
  mkDT (mYear d) (mMonth d) (mDay d) h mi s (mDateOnly d) (mTZUTC d) (mTZID d)
       (mTZOffset d) (mPosixTimeCached d) (mPosixTime d).
Definition with_dateonly (d : dt) (b : bool) : dt :=
  mkDT (mYear d) (mMonth d) (mDay d) (mHours d) (mMinutes d) (mSeconds d) b (mTZUTC d) (mTZID d)
       (mTZOffset d) (mPosixTimeCached d) (mPosixTime d).
Definition with_tz (d : dt) (u : bool) (t : tzid) : dt :=
  mkDT (mYear d) (mMonth d) (mDay d) (mHours d) (mMinutes d) (mSeconds d) (mDateOnly d) u t
       (mTZOffset d) (mPosixTimeCached d) (mPosixTime d).
Definition with_tzoff (d : dt) (o : option Z) : dt :=
  mkDT (mYear d) (mMonth d) (mDay d) (mHours d) (mMinutes d) (mSeconds d) (mDateOnly d)
       (mTZUTC d) (mTZID d) o (mPosixTimeCached d) (mPosixTime d).
Definition with_posix (d : dt) (c : bool) (p : Z) : dt :=
  mkDT (mYear d) (mMonth d) (mDay d) (mHours d) (mMinutes d) (mSeconds d) (mDateOnly d)
       (mTZUTC d) (mTZID d) (mTZOffset d) c p.

(** 51-76 with all six numbers: a date-time in the given zone. *)
Definition newDateTime (y m d h mi s : Z) (utc : bool) (t : tzid) : dt :=
  mkDT y m d h mi s false utc t None false 0.
(** 51-76 with only year, month, day: a date-only value. *)
Definition newDate (y m d : Z) (utc : bool) (t : tzid) : dt :=
  mkDT y m d 0 0 0 true utc t None false 0.
(** 78-94, DateTime() with no arguments. *)
Definition newDefault : dt := mkDT 1970 1 1 0 0 0 false false TzNone None false 0.

(** 1115-1117. *)
Definition changed (d : dt) : dt := with_tzoff (with_posix d false (mPosixTime d)) None.

(** 611-612, as a Python truth value. *)
Definition local (d : dt) : bool := negb (mTZUTC d) && tz_true (mTZID d).
(** 614-615. *)
Definition floating (d : dt) : bool := negb (mTZUTC d) && negb (tz_true (mTZID d)).

(** 1119-1133. *)
Definition daysSince1970 (d : dt) : res Z :=
  do u <- daysUptoMonth_r (mMonth d) (mYear d);
  Ok ((mYear d - 1970) * 365 + leapDaysSince1970 (mYear d - 1970) + u + (mDay d - 1)).

(** 527-534.  THURSDAY is 4 (35).  The "result < 0" branch is dead because Python's %
    is non-negative; it is kept. *)
Definition getDayOfWeek (d : dt) : res Z :=
  do n <- daysSince1970 d;
  let result := (4 + n) mod 7 in
  Ok (if result <? 0 then result + 7 else result).

(** 1086-1091, the forward loop of normalise.  Fuel counts loop iterations; None means
    that the loop is still running. *)
Fixpoint norm_fwd (fuel : nat) (y m d : Z) : option (Z * Z * Z) :=
  if daysInMonth m y <? d then
    match fuel with
    | O => None
    | S f =>
      let d' := d - daysInMonth m y in
      let m' := m + 1 in
      if 12 <? m' then norm_fwd f (y + 1) 1 d' else norm_fwd f y m' d'
    end
  else Some (y, m, d).

(** 1093-1098, the backward loop of normalise. *)
Fixpoint norm_bwd (fuel : nat) (y m d : Z) : option (Z * Z * Z) :=
  if d <=? 0 then
    match fuel with
    | O => None
    | S f =>
      let m' := m - 1 in
      if m' <? 1 then norm_bwd f (y - 1) 12 (d + daysInMonth 12 (y - 1))
      else norm_bwd f y m' (d + daysInMonth m' y)
    end
  else Some (y, m, d).

(** Number of iterations that is always enough for the two loops
    (norm_days_terminates in DateTimeProofs.v), 1084-1098. *)
Definition norm_fuel (d : Z) : nat := Z.to_nat (Z.abs d / 28 + 2).

(** 1084-1098: day adjustment.  The default in the last case is never reached
    (norm_days_terminates). *)
Definition norm_days (y m d : Z) : Z * Z * Z :=
  match (if 0 <? d then norm_fwd (norm_fuel d) y m d else norm_bwd (norm_fuel d) y m d) with
  | Some r => r
  | None => (y, m, d)
  end.

(** 1041-1101.  The branches "if normalised_x < 0" are dead (Python's % with a positive
    divisor is never negative) and are left out. *)
Definition normalise (d : dt) : dt :=
  let s := mSeconds d mod 60 in
  let mi0 := mMinutes d + mSeconds d / 60 in
  let mi := mi0 mod 60 in
  let h0 := mHours d + mi0 / 60 in
  let h := h0 mod 24 in
  let day0 := mDay d + h0 / 24 in
  let '(h, mi, s) := if mDateOnly d then (0, 0, 0) else (h, mi, s) in
  let mo := (mMonth d - 1) mod 12 + 1 in
  let y := mYear d + (mMonth d - 1) / 12 in
  let '(y, mo, day) := norm_days y mo day0 in
  changed (with_hms (with_ymd d y mo day) h mi s).

(** 1028-1039. *)
Definition invalid (d : dt) : res bool :=
  if mDay d <=? 0 then Ok true
  else do n <- daysInMonth_r (mMonth d) (mYear d); Ok (n <? mDay d).

(** 249-251. *)
Definition setDateOnly (d : dt) (b : bool) : dt := changed (with_dateonly d b).
(** 253-258. *)
Definition setYYMMDD (d : dt) (y m dd : Z) : dt :=
  if negb (mYear d =? y) || negb (mMonth d =? m) || negb (mDay d =? dd)
  then changed (with_ymd d y m dd) else d.
(** 263-266. *)
Definition setYear (d : dt) (y : Z) : dt :=
  if negb (mYear d =? y) then changed (with_ymd d y (mMonth d) (mDay d)) else d.
(** 268-270. *)
Definition offsetYear (d : dt) (k : Z) : dt := normalise (with_ymd d (mYear d + k) (mMonth d) (mDay d)).
(** 275-278. *)
Definition setMonth (d : dt) (m : Z) : dt :=
  if negb (mMonth d =? m) then changed (with_ymd d (mYear d) m (mDay d)) else d.
(** 280-282. *)
Definition offsetMonth (d : dt) (k : Z) : dt := normalise (with_ymd d (mYear d) (mMonth d + k) (mDay d)).
(** 287-290. *)
Definition setDay (d : dt) (dd : Z) : dt :=
  if negb (mDay d =? dd) then changed (with_ymd d (mYear d) (mMonth d) dd) else d.
(** 292-294. *)
Definition offsetDay (d : dt) (k : Z) : dt := normalise (with_ymd d (mYear d) (mMonth d) (mDay d + k)).

(** 296-328. *)
Definition setYearDay (d : dt) (day : Z) (allow_invalid : bool) : dt :=
  let '(m, dd) :=
    if day =? 366 then (12, if isLeapYear (mYear d) then 31 else 32)
    else if day =? -366 then (1, if isLeapYear (mYear d) then 1 else 0)
    else if 0 <? day then (1, 1 + (day - 1))
    else if day <? 0 then (12, 31 + (day + 1))
    else (mMonth d, mDay d) in
  let d1 := with_ymd d (mYear d) m dd in
  if negb allow_invalid then normalise d1 else changed d1.

(** 330-331. *)
Definition getYearDay (d : dt) : res Z :=
  do u <- daysUptoMonth_r (mMonth d) (mYear d); Ok (mDay d + u).

(** 333-355. *)
Definition setMonthDay (d : dt) (day : Z) (allow_invalid : bool) : res dt :=
  do dd <- (if 0 <? day then Ok (1 + (day - 1))
            else if day <? 0 then do n <- daysInMonth_r (mMonth d) (mYear d); Ok (n + (day + 1))
            else Ok (mDay d));
  let d1 := with_ymd d (mYear d) (mMonth d) dd in
  Ok (if negb allow_invalid then normalise d1 else changed d1).

(** 357-363. *)
Definition isMonthDay (d : dt) (day : Z) : res bool :=
  if 0 <? day then Ok (mDay d =? day)
  else if day <? 0 then
    do n <- daysInMonth_r (mMonth d) (mYear d); Ok (mDay d - 1 - n =? day)
  else Ok false.

(** `first_day in (MONDAY, TUESDAY, WEDNESDAY, THURSDAY)`, 387 and 426. *)
Definition mo_to_th (w : Z) : bool := (1 <=? w) && (w <=? 4).

(** 400-429.  The recursive call at 421 is bounded by fuel; getWeekNo uses one level
    and getWeekNo_no_runtime_error shows the RuntimeError is never produced. *)
Fixpoint getWeekNo_f (fuel : nat) (d : dt) : res Z :=
  do cd0 <- getDayOfWeek d;
  let current_day := if cd0 =? 0 then 7 else cd0 in
  do yd <- getYearDay d;
  let week_no := (yd - current_day + 10) / 7 in
  if week_no =? 0 then
    match fuel with
    | O => Raise RuntimeError
    | S f => getWeekNo_f f (newDate (mYear d - 1) 12 31 false TzNone)
    end
  else if week_no =? 53 then
    do fd <- getDayOfWeek (newDate (mYear d + 1) 1 1 false TzNone);
    Ok (if mo_to_th fd then 1 else week_no)
  else Ok week_no.
Definition getWeekNo (d : dt) : res Z := getWeekNo_f 1 d.

(** 431-439. *)
Definition isWeekNo (d : dt) (weekno : Z) : res bool :=
  if 0 <? weekno then do w <- getWeekNo d; Ok (w =? weekno) else Ok false.

(** 365-398. *)
Definition setWeekNo (d : dt) (weekno : Z) : res dt :=
  do w <- getWeekNo d;
  if w =? weekno then Ok d
  else
    do first_day <- getDayOfWeek (newDate (mYear d) 1 1 false TzNone);
    do current_day <- getDayOfWeek d;
    let year_day := if mo_to_th first_day
                    then (weekno - 1) * 7 + current_day - first_day
                    else weekno * 7 + current_day - first_day in
    Ok (if year_day <? 0 then setYearDay (offsetYear d (-1)) year_day false
        else setYearDay d (year_day + 1) false).

(** 441-465. *)
Definition setDayOfWeekInYear (d : dt) (offset day : Z) : res dt :=
  let d0 := with_ymd d (mYear d) 1 1 in
  do first_day <- getDayOfWeek d0;
  let ylen := 365 + (if isLeapYear (mYear d) then 1 else 0) in
  let dd :=
    if 0 <? offset then
      let cycle := (offset - 1) * 7 + day - first_day in
      let cycle := if day <? first_day then cycle + 7 else cycle in
      cycle + 1
    else if offset <? 0 then
      let first_day := (first_day + ylen - 1) mod 7 in
      let cycle := (- offset - 1) * 7 - day + first_day in
      let cycle := if first_day <? day then cycle + 7 else cycle in
      ylen - cycle
    else 1 in
  Ok (normalise (with_ymd d0 (mYear d) 1 dd)).

(** 467-494. *)
Definition setDayOfWeekInMonth (d : dt) (offset day : Z) (allow_invalid : bool) : res dt :=
  let d0 := with_ymd d (mYear d) (mMonth d) 1 in
  do first_day <- getDayOfWeek d0;
  do dd <-
    (if 0 <? offset then
      let cycle := (offset - 1) * 7 + day - first_day in
      let cycle := if day <? first_day then cycle + 7 else cycle in
      Ok (cycle + 1)
    else if offset <? 0 then
      do dim <- daysInMonth_r (mMonth d) (mYear d);
      let first_day := (first_day + dim - 1) mod 7 in
      let cycle := (- offset - 1) * 7 - day + first_day in
      let cycle := if first_day <? day then cycle + 7 else cycle in
      Ok (dim - cycle)
    else Ok 1);
  let d1 := with_ymd d0 (mYear d) (mMonth d) dd in
  Ok (if negb allow_invalid then normalise d1 else changed d1).

(** 496-508. *)
Definition setNextDayOfWeek (d : dt) (start day : Z) : res dt :=
  let d0 := with_ymd d (mYear d) (mMonth d) start in
  do first_day <- getDayOfWeek d0;
  let dd := if day <? first_day then start + 7 else start in
  Ok (normalise (with_ymd d0 (mYear d) (mMonth d) (dd + (day - first_day)))).

(** 222-223. *)
Definition compareDate (a b : dt) : bool :=
  (mYear a =? mYear b) && (mMonth a =? mMonth b) && (mDay a =? mDay b).

(** 510-525. *)
Definition isDayOfWeekInMonth (d : dt) (offset day : Z) : res bool :=
  do w <- getDayOfWeek d;
  if negb (w =? day) then Ok false
  else if offset =? 0 then Ok true
  else do t <- setDayOfWeekInMonth d offset day false; Ok (compareDate d t).

(** 549-554. *)
Definition setHHMMSS (d : dt) (h mi s : Z) : dt :=
  if negb (mHours d =? h) || negb (mMinutes d =? mi) || negb (mSeconds d =? s)
  then changed (with_hms d h mi s) else d.
(** 559-562. *)
Definition setHours (d : dt) (h : Z) : dt :=
  if negb (mHours d =? h) then changed (with_hms d h (mMinutes d) (mSeconds d)) else d.
(** 564-566. *)
Definition offsetHours (d : dt) (k : Z) : dt :=
  normalise (with_hms d (mHours d + k) (mMinutes d) (mSeconds d)).
(** 571-574. *)
Definition setMinutes (d : dt) (m : Z) : dt :=
  if negb (mMinutes d =? m) then changed (with_hms d (mHours d) m (mSeconds d)) else d.
(** 576-578. *)
Definition offsetMinutes (d : dt) (k : Z) : dt :=
  normalise (with_hms d (mHours d) (mMinutes d + k) (mSeconds d)).
(** 583-586. *)
Definition setSeconds (d : dt) (s : Z) : dt :=
  if negb (mSeconds d =? s) then changed (with_hms d (mHours d) (mMinutes d) s) else d.
(** 588-590. *)
Definition offsetSeconds (d : dt) (k : Z) : dt :=
  normalise (with_hms d (mHours d) (mMinutes d) (mSeconds d + k)).

(** 595-598. *)
Definition setTimezoneUTC (d : dt) (u : bool) : dt :=
  if negb (Bool.eqb (mTZUTC d) u) then changed (with_tz d u (mTZID d)) else d.
(** 603-606. *)
Definition setTimezoneID (d : dt) (t : tzid) : dt := changed (with_tz d false t).
(** 620-623; a Timezone object is a pair (mUTC, mTimezone), timezone.py:33-37. *)
Definition setTimezone (d : dt) (u : bool) (t : tzid) : dt := changed (with_tz d u t).

(** 122-127; the duration is given by its total seconds. *)
Definition addSeconds (d : dt) (n : Z) : dt :=
  normalise (with_hms d (mHours d) (mMinutes d) (mSeconds d + n)).
(** 162-168. *)
Definition subSeconds (d : dt) (n : Z) : dt :=
  normalise (with_hms d (mHours d) (mMinutes d) (mSeconds d - n)).

(** timezone.py:72-74. *)
Definition is_float (u : bool) (t : tzid) : bool := negb u && negb (tz_true t).
(** timezone.py:62-70. *)
Definition tz_same (u1 : bool) (t1 : tzid) (u2 : bool) (t2 : tzid) : bool :=
  if is_float u1 t1 || is_float u2 t2 then true
  else if negb (Bool.eqb u1 u2) then false
  else u1 || tz_eqb t1 t2.

(** icalendar/definitions.py: the recurrence frequencies used by recur. *)
Inductive freq : Set := SECONDLY | MINUTELY | HOURLY | DAILY | WEEKLY | MONTHLY | YEARLY.

(** 729-731: the loop after normalise.  Fuel counts iterations. *)
Fixpoint recur_month_loop (fuel : nat) (d : dt) (interval : Z) : option dt :=
  if daysInMonth (mMonth d) (mYear d) <? mDay d then
    match fuel with
    | O => None
    | S f => recur_month_loop f
               (normalise (with_ymd d (mYear d) (mMonth d + interval) (mDay d))) interval
    end
  else Some d.

(** 697-742.  The loop at 729 never runs its body because normalise has just made the
    day valid (recur_month_loop_dead in DateTimeProofs.v); the default is unreachable. *)
Definition recur (d : dt) (f : freq) (interval : Z) (allow_invalid : bool) : dt :=
  match f with
  | SECONDLY => normalise (with_hms d (mHours d) (mMinutes d) (mSeconds d + interval))
  | MINUTELY => normalise (with_hms d (mHours d) (mMinutes d + interval) (mSeconds d))
  | HOURLY => normalise (with_hms d (mHours d + interval) (mMinutes d) (mSeconds d))
  | DAILY => normalise (with_ymd d (mYear d) (mMonth d) (mDay d + interval))
  | WEEKLY => normalise (with_ymd d (mYear d) (mMonth d) (mDay d + 7 * interval))
  | MONTHLY =>
    let m0 := mMonth d + interval in
    let d1 := with_ymd d (mYear d + (m0 - 1) / 12) ((m0 - 1) mod 12 + 1) (mDay d) in
    if negb allow_invalid then
      let d2 := normalise d1 in
      changed (match recur_month_loop 1 d2 interval with Some d3 => d3 | None => d2 end)
    else changed d1
  | YEARLY =>
    let d1 := with_ymd d (mYear d + interval) (mMonth d) (mDay d) in
    if allow_invalid then changed d1 else normalise d1
  end.

(** The part that depends on timezone data.  The oracle [tzo] stands for
    TimezoneDatabase.getTimezoneOffsetSeconds (timezonedb.py:83-90): given the TZID
    (TzNone: the default zone), the local fields and the relative_to_utc flag it
    returns the offset.  Assumed: it is a function of these arguments (the real
    lookup also has caches of its own, modelled in VTimezoneModel.v and TzDbModel.v). *)
Section WithTz.

Variable tzo : tzid -> Z -> Z -> Z -> Z -> Z -> Z -> bool -> bool -> Z.

(** timezone.py:94-103 applied to the fields of d. *)
Definition tz_lookup (d : dt) (rel : bool) : Z :=
  if mTZUTC d then 0
  else match mTZID d with
       | TzInt n => n
       | t => tzo t (mYear d) (mMonth d) (mDay d) (mHours d) (mMinutes d) (mSeconds d)
                  (mDateOnly d) rel
       end.

(** 1103-1109; returns the object with its cache filled and the offset. *)
Definition timeZoneSecondsOffset (d : dt) (rel : bool) : dt * Z :=
  if mTZUTC d then (d, 0)
  else match mTZOffset d with
       | Some o => (d, o)
       | None => let o := tz_lookup d rel in (with_tzoff d (Some o), o)
       end.

(** 225-244. *)
Definition getPosixTime (d : dt) : dt * res Z :=
  if negb (mPosixTimeCached d) || floating d then
    match daysSince1970 d with
    | Raise e => (d, Raise e)
    | Ok n =>
      let r := (mHours d * 60 + mMinutes d) * 60 + mSeconds d + n * 24 * 60 * 60 in
      let (d1, o) := timeZoneSecondsOffset d false in
      let r := r - o in
      (with_posix d1 true r, Ok r)
    end
  else (d, Ok (mPosixTime d)).

(** 636-654. *)
Definition adjustToUTC (d : dt) : dt :=
  if local d && negb (mDateOnly d) then
    let (d1, off) := timeZoneSecondsOffset d false in
    let d2 := setTimezone d1 true TzNone in
    let d3 := offsetSeconds d2 (- off) in
    let d4 := if mPosixTimeCached d then with_posix d3 true (mPosixTime d) else d3 in
    with_tzoff d4 (Some 0)
  else d.

(** 625-634. *)
Definition adjustTimezone (d : dt) (u : bool) (t : tzid) : dt :=
  if negb (Bool.eqb u (mTZUTC d)) || negb (tz_eqb t (mTZID d)) then
    let d1 := if negb (mTZUTC d) then adjustToUTC d else d in
    let d2 := setTimezone d1 u t in
    let (d3, off) := timeZoneSecondsOffset d2 true in
    offsetSeconds d3 off
  else d.

(** 191-220; comp is not None. *)
Definition cmp_date (a b : dt) : Z :=
  let c := pycmp (mYear a) (mYear b) in
  if c =? 0 then
    let c := pycmp (mMonth a) (mMonth b) in
    if c =? 0 then pycmp (mDay a) (mDay b) else c
  else c.
Definition cmp_fields (a b : dt) : Z :=
  let c := cmp_date a b in
  if c =? 0 then
    let c := pycmp (mHours a) (mHours b) in
    if c =? 0 then
      let c := pycmp (mMinutes a) (mMinutes b) in
      if c =? 0 then pycmp (mSeconds a) (mSeconds b) else c
    else c
  else c.
Definition compareDateTime (a b : dt) : res Z :=
  if mDateOnly a || mDateOnly b then Ok (cmp_date a b)
  else if tz_same (mTZUTC a) (mTZID a) (mTZUTC b) (mTZID b) then Ok (cmp_fields a b)
  else do pa <- snd (getPosixTime a);
       do pb <- snd (getPosixTime b);
       Ok (pycmp pa pb).

(** 172-189, the comparison operators. *)
Definition dt_eq (a b : dt) : res bool := do c <- compareDateTime a b; Ok (c =? 0).
Definition dt_ne (a b : dt) : res bool := do c <- compareDateTime a b; Ok (negb (c =? 0)).
Definition dt_ge (a b : dt) : res bool := do c <- compareDateTime a b; Ok (0 <=? c).
Definition dt_le (a b : dt) : res bool := do c <- compareDateTime a b; Ok (c <=? 0).
Definition dt_gt (a b : dt) : res bool := do c <- compareDateTime a b; Ok (0 <? c).
Definition dt_lt (a b : dt) : res bool := do c <- compareDateTime a b; Ok (c <? 0).

(** 118-119: hash() of the posix time; equal integers have equal hashes, so the
    integer itself stands for the hash. *)
Definition dt_hash (d : dt) : res Z := snd (getPosixTime d).

(** 157-160: difference of two non-floating date-times, as total seconds. *)
Definition posix_diff (a b : dt) : res Z :=
  do pa <- snd (getPosixTime a);
  do pb <- snd (getPosixTime b);
  Ok (pa - pb).

(** 129-160: self - date.  The recursive calls at 145, 150 and 155 are on copies that are no longer
    floating, except when the other side's zone is itself made floating, which
    cannot happen; so they are calls to [posix_diff]. *)
Definition subDateTime (a b : dt) : res Z :=
  if floating a || floating b then
    if floating a && floating b then
      posix_diff (setTimezoneUTC a true) (setTimezoneUTC b true)
    else if floating a then
      posix_diff (setTimezoneUTC (setTimezoneID a (mTZID b)) (mTZUTC b)) b
    else
      posix_diff a (setTimezoneUTC (setTimezoneID b (mTZID a)) (mTZUTC a))
  else posix_diff a b.

End WithTz.
