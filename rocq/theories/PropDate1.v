(** Properties C01-C04 and C08-C11: civil dates, weekdays, normalisation, weeks.
    [tzo] is the timezone database, an arbitrary function. *)
From Coq Require Import Lia ZifyBool.
From Verif Require Import PyBase CalModel CalSpec WeekSpec DateTimeModel DateTimeSpec.
From Verif Require CalProofs DateTimeProofs DateTimeProofs2 DateTimeProofs3 PropDateProofs WeekProofs.

(** C01. Days since 1970-01-01, counted one Gregorian civil day at a time. *)
Theorem C01_posix_is_day_count : forall tzo y m d h mi s n,
  1901 <= y <= 2100 -> valid_date greg_leap (y, m, d) ->
  days_between greg_leap (1970, 1, 1) (y, m, d) n ->
  snd (getPosixTime tzo (newDateTime y m d h mi s true TzNone)) =
    Ok (86400 * n + (3600 * h + 60 * mi + s)).
Proof. exact PropDateProofs.posix_exact. Qed.
Print Assumptions C01_posix_is_day_count.
Example C01_posix_is_day_count_ex :
  days_between greg_leap (1970, 1, 1) (2000, 2, 29) 11016 /\
  days_between greg_leap (1970, 1, 1) (1901, 3, 1) (-25143) /\
  forall tzo, snd (getPosixTime tzo (newDateTime 2000 2 29 12 0 0 true TzNone)) = Ok 951825600.
Proof.
  split; [left; split; [lia|vm_compute; reflexivity]|].
  split; [right; split; [lia|vm_compute; reflexivity]|reflexivity].
Qed.

(** The next civil day is exactly 86400 seconds later. *)
Theorem C01_posix_next_day : forall tzo y m d y' m' d' h mi s,
  1901 <= y -> y' <= 2100 -> valid_date greg_leap (y, m, d) ->
  next_day greg_leap (y, m, d) = (y', m', d') ->
  exists p, snd (getPosixTime tzo (newDateTime y m d h mi s true TzNone)) = Ok p /\
            snd (getPosixTime tzo (newDateTime y' m' d' h mi s true TzNone)) = Ok (p + 86400).
Proof. exact PropDateProofs.posix_next. Qed.
Print Assumptions C01_posix_next_day.
Example C01_posix_next_day_ex : next_day greg_leap (2023, 2, 28) = (2023, 3, 1) /\
  valid_date greg_leap (2023, 2, 28).
Proof. split; [reflexivity|cbn; lia]. Qed.

(** The exact error for every year after 1752, and the exact range where it is zero. *)
Theorem C01_posix_error : forall tzo y m d h mi s n,
  1752 < y -> valid_date greg_leap (y, m, d) ->
  days_between greg_leap (1970, 1, 1) (y, m, d) n ->
  snd (getPosixTime tzo (newDateTime y m d h mi s true TzNone)) =
    Ok (86400 * (n + ((y - 1) / 100 - (y - 1) / 400 - 15)) + (3600 * h + 60 * mi + s)).
Proof. exact PropDateProofs.posix_error. Qed.
Print Assumptions C01_posix_error.
Example C01_posix_error_ex : valid_date greg_leap (2101, 1, 1) /\
  snd (getPosixTime (fun _ _ _ _ _ _ _ _ _ => 0) (newDateTime 2101 1 1 0 0 1 true TzNone)) = Ok (86400 * (131 * 365 + 32 + 1) + 1).
Proof. split; [cbn; lia|vm_compute; reflexivity]. Qed.

Theorem C01_sharp : forall tzo y m d h mi s n,
  1752 < y -> valid_date greg_leap (y, m, d) ->
  days_between greg_leap (1970, 1, 1) (y, m, d) n ->
  (snd (getPosixTime tzo (newDateTime y m d h mi s true TzNone)) = Ok (86400 * n + (3600 * h + 60 * mi + s))
   <-> 1901 <= y <= 2100).
Proof. exact PropDateProofs.posix_sharp. Qed.
Print Assumptions C01_sharp.
Example C01_sharp_ex : forall tzo,
  snd (getPosixTime tzo (newDateTime 2101 1 1 0 0 0 true TzNone)) = Ok (86400 * (47847 + 1)) /\
  days_between greg_leap (1970, 1, 1) (2101, 1, 1) 47847 /\
  snd (getPosixTime tzo (newDateTime 1900 12 31 0 0 0 true TzNone)) = Ok (86400 * (-25203 - 1)) /\
  days_between greg_leap (1970, 1, 1) (1900, 12, 31) (-25203).
Proof.
  intro tzo. split; [reflexivity|]. split; [left; split; [lia|vm_compute; reflexivity]|].
  split; [reflexivity|]. right; split; [lia|vm_compute; reflexivity].
Qed.

(** C02. Weekday. *)
Theorem C02_weekday : forall d w,
  1901 <= mYear d <= 2100 -> valid_date greg_leap (ymd d) ->
  (getDayOfWeek d = Ok w <-> is_weekday (ymd d) w).
Proof. exact DateTimeProofs2.getDayOfWeek_spec. Qed.
Print Assumptions C02_weekday.
Example C02_weekday_ex : getDayOfWeek (newDate 1965 7 4 false TzNone) = Ok 0 /\ is_weekday (1965, 7, 4) 0.
Proof.
  split; [reflexivity|]. exists (-1642). split; [|reflexivity].
  right; split; [lia|vm_compute; reflexivity].
Qed.

Theorem C02_weekday_total : forall d, valid_date hist_leap (ymd d) ->
  exists w, getDayOfWeek d = Ok w /\ 0 <= w <= 6.
Proof. exact PropDateProofs.weekday_total. Qed.
Print Assumptions C02_weekday_total.
Example C02_weekday_total_ex : valid_date hist_leap (ymd (newDate (-45) 2 28 false TzNone)) /\
  getDayOfWeek (newDate (-45) 2 28 false TzNone) = Ok 0.
Proof. split; [cbn; lia|reflexivity]. Qed.

(** C03. Normalisation of arbitrary integers: the result is valid, the date is the
    first of the (carried) month plus day-1 plus the whole days in the time part,
    and the time is the remainder.  hist_leap is the leap rule the library documents:
    Julian up to 1752, Gregorian after. *)
Theorem C03_normalise : forall d,
  let r := normalise d in
  let y := mYear d + (mMonth d - 1) / 12 in
  let m := (mMonth d - 1) mod 12 + 1 in
  valid_dt r /\
  days_between hist_leap (y, m, 1) (ymd r) (mDay d - 1 + secs_of_day d / 86400) /\
  secs_of_day r = (if mDateOnly d then 0 else secs_of_day d mod 86400) /\
  mDateOnly r = mDateOnly d /\ mTZUTC r = mTZUTC d /\ mTZID r = mTZID d.
Proof. exact PropDateProofs.normalise_full. Qed.
Print Assumptions C03_normalise.
Example C03_normalise_ex :
  visible (normalise (newDateTime 2023 14 (-400) 49 (-61) 7200 true TzNone)) =
  visible (newDateTime 2022 12 29 1 59 0 true TzNone).
Proof. reflexivity. Qed.

(** The loops of normalise end within the bound that the model gives them, so the model's
    default result for a loop that is still running is never used. *)
Theorem C03_normalise_terminates : forall y m d, 1 <= m <= 12 ->
  (if 0 <? d then norm_fwd (norm_fuel d) y m d else norm_bwd (norm_fuel d) y m d) <> None.
Proof. exact CalProofs.norm_days_terminates. Qed.
Print Assumptions C03_normalise_terminates.
Example C03_normalise_terminates_ex : norm_fwd (norm_fuel 1000) 1999 2 1000 = Some (2001, 10, 27).
Proof. reflexivity. Qed.

Theorem C03_normalise_valid : forall d, valid_dt d -> visible (normalise d) = visible d.
Proof. exact DateTimeProofs.normalise_valid. Qed.
Print Assumptions C03_normalise_valid.
Example C03_normalise_valid_ex : valid_dt (newDateTime 2024 2 29 23 59 59 false (TzInt 3600)).
Proof. unfold valid_dt, valid_time; cbn; lia. Qed.

Theorem C03_offset_day : forall d k, valid_dt d ->
  days_between hist_leap (ymd d) (ymd (offsetDay d k)) k /\ valid_dt (offsetDay d k) /\
  (mHours (offsetDay d k), mMinutes (offsetDay d k), mSeconds (offsetDay d k)) =
    (mHours d, mMinutes d, mSeconds d) /\
  mDateOnly (offsetDay d k) = mDateOnly d /\ mTZUTC (offsetDay d k) = mTZUTC d /\
  mTZID (offsetDay d k) = mTZID d.
Proof. exact DateTimeProofs.offsetDay_spec. Qed.
Print Assumptions C03_offset_day.
Example C03_offset_day_ex : valid_dt (newDate 1700 2 29 false TzNone) /\
  ymd (offsetDay (newDate 1700 2 29 false TzNone) (-366)) = (1699, 2, 28).
Proof. split; [unfold valid_dt, valid_time; cbn; lia|reflexivity]. Qed.

(** C04. Adding durations (given by their total seconds). *)
Theorem C04_add_add : forall d m n, valid_dt d -> mDateOnly d = false ->
  visible (addSeconds (addSeconds d m) n) = visible (addSeconds d (m + n)).
Proof. exact DateTimeProofs.addSeconds_add. Qed.
Print Assumptions C04_add_add.
Example C04_add_add_ex : valid_dt (newDateTime 2020 12 31 23 0 0 false (TzName (lit "X"))) /\
  visible (addSeconds (newDateTime 2020 12 31 23 0 0 false (TzName (lit "X"))) 100000) =
  visible (newDateTime 2021 1 2 2 46 40 false (TzName (lit "X"))).
Proof. split; [unfold valid_dt, valid_time; cbn; lia|reflexivity]. Qed.

Theorem C04_add_sub : forall d n, valid_dt d -> mDateOnly d = false ->
  visible (subSeconds (addSeconds d n) n) = visible d.
Proof. exact DateTimeProofs.addSeconds_sub. Qed.
Print Assumptions C04_add_sub.
Example C04_add_sub_ex : valid_dt (newDateTime 1752 2 29 0 0 0 true TzNone).
Proof. unfold valid_dt, valid_time; cbn; lia. Qed.

Theorem C04_add_0 : forall d, valid_dt d -> visible (addSeconds d 0) = visible d.
Proof. exact DateTimeProofs.addSeconds_0. Qed.
Print Assumptions C04_add_0.
Example C04_add_0_ex : valid_dt (newDate 2000 2 29 false TzNone).
Proof. unfold valid_dt, valid_time; cbn; lia. Qed.

(** A date-only value moves by the whole days of the duration, rounded down, so the group law
    fails for it in general. *)
Theorem C04_add_date_only : forall d n, valid_dt d -> mDateOnly d = true ->
  valid_dt (addSeconds d n) /\ mDateOnly (addSeconds d n) = true /\
  days_between hist_leap (ymd d) (ymd (addSeconds d n)) (n / 86400).
Proof. exact DateTimeProofs.addSeconds_dateonly. Qed.
Print Assumptions C04_add_date_only.
Example C04_add_date_only_ex : valid_dt (newDate 2024 2 29 false TzNone) /\
  ymd (addSeconds (newDate 2024 2 29 false TzNone) 100000) = (2024, 3, 1) /\ ymd (addSeconds (newDate 2024 3 1 false TzNone) (-1)) = (2024, 2, 29).
Proof. split; [unfold valid_dt, valid_time; cbn; lia|split; reflexivity]. Qed.
Theorem C04_date_only_refuted : exists d m n, valid_dt d /\ mDateOnly d = true /\
  visible (addSeconds (addSeconds d m) n) <> visible (addSeconds d (m + n)).
Proof. exact PropDateProofs.add_date_only_not_action. Qed.
Print Assumptions C04_date_only_refuted.

(** (d + n) - d = n, for values that are UTC or floating. *)
Theorem C04_sub_dates : forall tzo d n, valid_dt d -> mDateOnly d = false ->
  (mTZUTC d = true \/ floating d = true) ->
  mTZOffset d = None -> mPosixTimeCached d = false ->
  1901 <= mYear d <= 2100 -> 1901 <= mYear (addSeconds d n) <= 2100 ->
  subDateTime tzo (addSeconds d n) d = Ok n.
Proof. exact PropDateProofs.sub_add. Qed.
Print Assumptions C04_sub_dates.
Example C04_sub_dates_ex : valid_dt (newDateTime 2024 2 28 1 2 3 false TzNone) /\
  floating (newDateTime 2024 2 28 1 2 3 false TzNone) = true /\
  1901 <= mYear (addSeconds (newDateTime 2024 2 28 1 2 3 false TzNone) 99999999) <= 2100.
Proof. split; [unfold valid_dt, valid_time; cbn; lia|]. split; [reflexivity|vm_compute; split; discriminate]. Qed.

(** C08. Day of year and day of month. *)
Theorem C08_set_year_day : forall d n, valid_dt d -> n <> 0 ->
  let r := setYearDay d n false in
  valid_dt r /\ DateTimeProofs2.same_time r d /\
  (0 < n -> days_between hist_leap (mYear d, 1, 1) (ymd r) (n - 1)) /\
  (n < 0 -> days_between hist_leap (mYear d, 12, 31) (ymd r) (n + 1)).
Proof. exact DateTimeProofs2.setYearDay_spec. Qed.
Print Assumptions C08_set_year_day.
Example C08_set_year_day_ex : ymd (setYearDay (newDate 2023 5 5 false TzNone) 366 false) = (2024, 1, 1) /\
  ymd (setYearDay (newDate 2024 5 5 false TzNone) (-366) false) = (2024, 1, 1).
Proof. split; reflexivity. Qed.

Theorem C08_get_year_day : forall d n, valid_dt d ->
  (getYearDay d = Ok n <-> days_between hist_leap (mYear d, 1, 1) (ymd d) (n - 1)).
Proof. exact DateTimeProofs2.getYearDay_spec. Qed.
Print Assumptions C08_get_year_day.
Example C08_get_year_day_ex : valid_dt (newDate 2024 12 31 false TzNone) /\
  getYearDay (newDate 2024 12 31 false TzNone) = Ok 366.
Proof. split; [unfold valid_dt, valid_time; cbn; lia|reflexivity]. Qed.

Theorem C08_year_day_round_trip : forall d n, valid_dt d ->
  1 <= n <= 365 + (if hist_leap (mYear d) then 1 else 0) ->
  getYearDay (setYearDay d n false) = Ok n /\ mYear (setYearDay d n false) = mYear d.
Proof. exact PropDateProofs.year_day_round_trip. Qed.
Print Assumptions C08_year_day_round_trip.
Example C08_year_day_round_trip_ex : valid_dt (newDate 2023 8 8 false TzNone) /\
  ymd (setYearDay (newDate 2023 8 8 false TzNone) 60 false) = (2023, 3, 1).
Proof. split; [unfold valid_dt, valid_time; cbn; lia|reflexivity]. Qed.

Theorem C08_set_month_day : forall d n, valid_dt d -> n <> 0 ->
  exists r, setMonthDay d n false = Ok r /\ valid_dt r /\ DateTimeProofs2.same_time r d /\
  (0 < n -> days_between hist_leap (mYear d, mMonth d, 1) (ymd r) (n - 1)) /\
  (n < 0 -> days_between hist_leap (mYear d, mMonth d, month_len hist_leap (mYear d) (mMonth d)) (ymd r) (n + 1)).
Proof. exact DateTimeProofs2.setMonthDay_spec. Qed.
Print Assumptions C08_set_month_day.
Example C08_set_month_day_ex : exists r, setMonthDay (newDate 2024 2 3 false TzNone) (-1) false = Ok r /\
  ymd r = (2024, 2, 29).
Proof. eexists; split; reflexivity. Qed.

Theorem C08_is_month_day : forall d n, valid_dt d ->
  exists b, isMonthDay d n = Ok b /\
  (b = true <-> (0 < n /\ mDay d = n) \/
                (n < 0 /\ mDay d = month_len hist_leap (mYear d) (mMonth d) + 1 + n)).
Proof. exact DateTimeProofs2.isMonthDay_spec. Qed.
Print Assumptions C08_is_month_day.
Example C08_is_month_day_ex : isMonthDay (newDate 2023 2 28 false TzNone) (-1) = Ok true /\
  isMonthDay (newDate 2024 2 28 false TzNone) (-1) = Ok false.
Proof. split; reflexivity. Qed.

(** C09. n-th weekday of a month or year.  [nth_wd_from base w n dd]: dd is the n-th day with
    weekday w on or after base; [nth_wd_back]: on or before. *)
Theorem C09_set_day_of_week_in_month : forall d n w dd,
  valid_dt d -> 1901 <= mYear d <= 2100 -> 0 <= w <= 6 ->
  valid_date greg_leap (mYear d, mMonth d, dd) ->
  (0 < n -> nth_wd_from (mYear d, mMonth d, 1) w n (mYear d, mMonth d, dd)) ->
  (n < 0 -> nth_wd_back (mYear d, mMonth d, month_len greg_leap (mYear d) (mMonth d)) w (- n) (mYear d, mMonth d, dd)) ->
  n <> 0 ->
  exists r, setDayOfWeekInMonth d n w false = Ok r /\ ymd r = (mYear d, mMonth d, dd) /\
            DateTimeProofs2.same_time r d /\ valid_dt r.
Proof. exact DateTimeProofs2.setDayOfWeekInMonth_spec. Qed.
Print Assumptions C09_set_day_of_week_in_month.
Example C09_set_day_of_week_in_month_ex :
  nth_wd_from (2024, 11, 1) 4 4 (2024, 11, 28) /\
  exists r, setDayOfWeekInMonth (newDate 2024 11 5 false TzNone) 4 4 false = Ok r /\ ymd r = (2024, 11, 28).
Proof.
  split; [|eexists; split; reflexivity].
  apply DateTimeProofs2.gdn_nth_from; [cbn; lia|cbn; lia|lia|vm_compute; split; [discriminate|reflexivity]|reflexivity].
Qed.

Theorem C09_set_day_of_week_in_year : forall d n w dd,
  valid_dt d -> 1901 <= mYear d <= 2100 -> 0 <= w <= 6 ->
  valid_date greg_leap dd -> fst (fst dd) = mYear d ->
  (0 < n -> nth_wd_from (mYear d, 1, 1) w n dd) ->
  (n < 0 -> nth_wd_back (mYear d, 12, 31) w (- n) dd) ->
  n <> 0 ->
  exists r, setDayOfWeekInYear d n w = Ok r /\ ymd r = dd /\ DateTimeProofs2.same_time r d /\ valid_dt r.
Proof. exact DateTimeProofs2.setDayOfWeekInYear_spec. Qed.
Print Assumptions C09_set_day_of_week_in_year.
Example C09_set_day_of_week_in_year_ex :
  nth_wd_back (2024, 12, 31) 1 2 (2024, 12, 23) /\
  exists r, setDayOfWeekInYear (newDate 2024 11 5 false TzNone) (-2) 1 = Ok r /\ ymd r = (2024, 12, 23).
Proof.
  split; [|eexists; split; reflexivity].
  apply DateTimeProofs2.gdn_nth_back; [cbn; lia|cbn; lia|lia|vm_compute; split; [discriminate|reflexivity]|reflexivity].
Qed.

Theorem C09_is_day_of_week_in_month : forall d n w,
  valid_dt d -> 1901 <= mYear d <= 2100 -> 0 <= w <= 6 ->
  exists b, isDayOfWeekInMonth d n w = Ok b /\
  (b = true <->
     is_weekday (ymd d) w /\
     (0 < n -> nth_wd_from (mYear d, mMonth d, 1) w n (ymd d)) /\
     (n < 0 -> nth_wd_back (mYear d, mMonth d, month_len greg_leap (mYear d) (mMonth d)) w (- n) (ymd d))).
Proof. exact DateTimeProofs2.isDayOfWeekInMonth_spec. Qed.
Print Assumptions C09_is_day_of_week_in_month.
Example C09_is_day_of_week_in_month_ex :
  isDayOfWeekInMonth (newDate 2024 11 28 false TzNone) 4 4 = Ok true /\
  isDayOfWeekInMonth (newDate 2024 11 28 false TzNone) (-1) 4 = Ok true /\
  isDayOfWeekInMonth (newDate 2024 11 21 false TzNone) (-1) 4 = Ok false.
Proof. repeat split; reflexivity. Qed.

Theorem C09_set_next_day_of_week : forall d start w,
  valid_dt d -> 1901 <= mYear d <= 2100 -> 0 <= w <= 6 ->
  valid_date greg_leap (mYear d, mMonth d, start) ->
  exists r, setNextDayOfWeek d start w = Ok r /\ valid_dt r /\ DateTimeProofs2.same_time r d /\
    nth_wd_from (mYear d, mMonth d, start) w 1 (ymd r).
Proof. exact DateTimeProofs2.setNextDayOfWeek_spec. Qed.
Print Assumptions C09_set_next_day_of_week.
Example C09_set_next_day_of_week_ex :
  exists r, setNextDayOfWeek (newDate 2024 12 1 false TzNone) 30 0 = Ok r /\ ymd r = (2025, 1, 5).
Proof. eexists; split; reflexivity. Qed.

(** C10. ISO week numbers. *)
Theorem C10_week_number : forall d n, valid_dt d -> 1901 <= mYear d <= 2100 ->
  (getWeekNo d = Ok n <-> iso_week (ymd d) n).
Proof. exact DateTimeProofs3.getWeekNo_iff. Qed.
Print Assumptions C10_week_number.
Theorem C10_week_number_total : forall d, valid_dt d -> 1901 <= mYear d <= 2100 ->
  exists n, getWeekNo d = Ok n /\ iso_week (ymd d) n.
Proof. exact DateTimeProofs3.getWeekNo_iso. Qed.
Print Assumptions C10_week_number_total.
Example C10_week_number_ex : valid_dt (newDate 2021 1 3 false TzNone) /\
  getWeekNo (newDate 2021 1 3 false TzNone) = Ok 53 /\ getWeekNo (newDate 2024 12 30 false TzNone) = Ok 1.
Proof. split; [unfold valid_dt, valid_time; cbn; lia|split; reflexivity]. Qed.

Theorem C10_is_week_number : forall d n, valid_dt d -> 1901 <= mYear d <= 2100 ->
  exists b, isWeekNo d n = Ok b /\ (b = true <-> 0 < n /\ iso_week (ymd d) n).
Proof. exact DateTimeProofs3.isWeekNo_iff. Qed.
Print Assumptions C10_is_week_number.
Example C10_is_week_number_ex : isWeekNo (newDate 2021 1 3 false TzNone) 53 = Ok true.
Proof. reflexivity. Qed.

(** C11. setWeekNo.  A date that is in week n already is left alone.  Any other is moved, with its weekday and its time, to the week that is
    n - 1 weeks after the first ISO week of its year (the week of the first Thursday), give or take a week: one week early if the date is a
    Sunday and 1 January is not, one week late if 1 January is a Sunday and the date is not. *)
Theorem C11_week_chosen : forall d n w1 w th,
  valid_dt d -> 1901 <= mYear d <= 2100 -> 1 <= n ->
  is_weekday (mYear d, 1, 1) w1 -> is_weekday (ymd d) w -> nth_wd_from (mYear d, 1, 1) 4 1 th -> ~ iso_week (ymd d) n ->
  exists r, setWeekNo d n = Ok r /\ valid_dt r /\ DateTimeProofs2.same_time r d /\ 1752 < mYear r /\ is_weekday (ymd r) w /\
    days_between greg_leap th (ymd r) (7 * (n - 1 + week_shift w1 w) + (iso_wd w - 4)).
Proof. exact WeekProofs.week_chosen. Qed.
Print Assumptions C11_week_chosen.
(** A Sunday moved to week 1, in a year from a Monday: a week early, in the year before. *)
Example C11_week_chosen_ex :
  is_weekday (2024, 1, 1) 1 /\ is_weekday (2024, 5, 19) 0 /\ nth_wd_from (2024, 1, 1) 4 1 (2024, 1, 4) /\
  week_shift 1 0 = -1 /\ days_between greg_leap (2024, 1, 4) (2023, 12, 31) (7 * (1 - 1 + -1) + (iso_wd 0 - 4)) /\
  exists r, setWeekNo (newDate 2024 5 19 false TzNone) 1 = Ok r /\ ymd r = (2023, 12, 31).
Proof.
  split; [apply C02_weekday with (d := newDate 2024 1 1 false TzNone); try reflexivity; cbn; lia|].
  split; [apply C02_weekday with (d := newDate 2024 5 19 false TzNone); try reflexivity; cbn; lia|].
  split; [apply nth_first with 3; [lia|left; split; [lia|vm_compute; reflexivity]|apply C02_weekday with (d := newDate 2024 1 4 false TzNone); try reflexivity; cbn; lia]|].
  split; [reflexivity|]. split; [right; split; [cbn; lia|vm_compute; reflexivity]|]. eexists; split; reflexivity.
Qed.
Theorem C11_same_week : forall d n, valid_dt d -> 1901 <= mYear d <= 2100 -> iso_week (ymd d) n -> setWeekNo d n = Ok d.
Proof. exact WeekProofs.week_same. Qed.
Print Assumptions C11_same_week.
Example C11_same_week_ex : setWeekNo (newDate 2024 5 19 false TzNone) 20 = Ok (newDate 2024 5 19 false TzNone) /\ iso_week (2024, 5, 19) 20.
Proof.
  split; [reflexivity|]. apply (C10_week_number (newDate 2024 5 19 false TzNone) 20); [unfold valid_dt, valid_time; cbn; lia|cbn; lia|reflexivity].
Qed.

(** The result is in week n exactly if the date and 1 January are both Sundays or both not. *)
Theorem C11_right_exactly : forall d n w1 w,
  valid_dt d -> 1901 <= mYear d <= 2100 -> 1 <= n <= 52 ->
  is_weekday (mYear d, 1, 1) w1 -> is_weekday (ymd d) w -> ~ iso_week (ymd d) n ->
  exists r, setWeekNo d n = Ok r /\ (iso_week (ymd r) n <-> (w1 = 0 <-> w = 0)).
Proof. exact WeekProofs.week_right. Qed.
Print Assumptions C11_right_exactly.
Theorem C11_set_week_number : forall d n w1 w,
  valid_dt d -> 1902 <= mYear d <= 2099 -> 1 <= n <= 52 ->
  is_weekday (mYear d, 1, 1) w1 -> is_weekday (ymd d) w -> (w1 = 0 <-> w = 0) ->
  exists r, setWeekNo d n = Ok r /\ valid_dt r /\ DateTimeProofs2.same_time r d /\
    is_weekday (ymd r) w /\ getWeekNo r = Ok n.
Proof. exact PropDateProofs.set_week_ok. Qed.
Print Assumptions C11_set_week_number.
Example C11_set_week_number_ex :
  is_weekday (2024, 1, 1) 1 /\ is_weekday (2024, 5, 15) 3 /\
  exists r, setWeekNo (newDate 2024 5 15 false TzNone) 1 = Ok r /\ ymd r = (2024, 1, 3).
Proof.
  split; [|split]; [apply C02_weekday with (d := newDate 2024 1 1 false TzNone)|
    apply C02_weekday with (d := newDate 2024 5 15 false TzNone)|eexists; split; reflexivity];
  try reflexivity; cbn; lia.
Qed.

(** The week that is really chosen, in the two bad cases (d already in week n is left alone). *)
Theorem C11_sunday_one_week_early : forall d n w1,
  valid_dt d -> 1902 <= mYear d <= 2099 -> 2 <= n <= 52 ->
  is_weekday (mYear d, 1, 1) w1 -> w1 <> 0 -> is_weekday (ymd d) 0 -> ~ iso_week (ymd d) n ->
  exists r, setWeekNo d n = Ok r /\ is_weekday (ymd r) 0 /\ getWeekNo r = Ok (n - 1).
Proof. exact PropDateProofs.set_week_sunday. Qed.
Print Assumptions C11_sunday_one_week_early.
Theorem C11_year_from_sunday_one_week_late : forall d n w,
  valid_dt d -> 1902 <= mYear d <= 2099 -> 1 <= n <= 51 ->
  is_weekday (mYear d, 1, 1) 0 -> is_weekday (ymd d) w -> w <> 0 -> ~ iso_week (ymd d) n ->
  exists r, setWeekNo d n = Ok r /\ is_weekday (ymd r) w /\ getWeekNo r = Ok (n + 1).
Proof. exact PropDateProofs.set_week_year_sunday. Qed.
Print Assumptions C11_year_from_sunday_one_week_late.
Theorem C11_set_week_number_refuted : exists d n r,
  valid_dt d /\ 1902 <= mYear d <= 2099 /\ 1 <= n <= 52 /\ setWeekNo d n = Ok r /\ getWeekNo r <> Ok n.
Proof. exact PropDateProofs.set_week_refuted. Qed.
Print Assumptions C11_set_week_number_refuted.
Example C11_sunday_ex :
  exists r, setWeekNo (newDate 2024 5 19 false TzNone) 10 = Ok r /\ ymd r = (2024, 3, 3) /\ getWeekNo r = Ok 9.
Proof. eexists; split; [reflexivity|split; reflexivity]. Qed.
Example C11_year_from_sunday_ex :
  exists r, setWeekNo (newDate 2023 5 17 false TzNone) 10 = Ok r /\ ymd r = (2023, 3, 15) /\ getWeekNo r = Ok 11.
Proof. eexists; split; [reflexivity|split; reflexivity]. Qed.
