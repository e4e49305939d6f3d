(** C78: the texts of dates, times and time zones for display, and the default time zone. *)
From Coq Require Import Lia.
From Verif Require Import PyBase PyProofs LineModel LineProofs DateTimeModel DateTimeSpec LocaleModel LocaleSpec LocaleProofs.

(** getLocaleDate: a date from 1901 to 2100 is shown with its weekday, the name of its month, its day and its year, as the format says; other formats give no text. *)
Theorem C78_date : forall d f, 1901 <= mYear d <= 2100 -> valid_date greg_leap (ymd d) ->
  (0 <= f <= 5 -> exists s, getLocaleDate d f = Ok s /\ date_text (ymd d) f s) /\ (~ 0 <= f <= 5 -> getLocaleDate d f = Ok []).
Proof. intros d f Y V. split; [intro F; exact (date_said d f Y V F)|exact (date_other d f)]. Qed.
Print Assumptions C78_date.
(** Dates with the same text are the same, of any year: with the formats without a year they have the same month and day. *)
Theorem C78_date_unique : forall d e f s, 1 <= mMonth d <= 12 -> 1 <= mMonth e <= 12 -> 0 <= f <= 5 -> getLocaleDate d f = Ok s -> getLocaleDate e f = Ok s ->
  mMonth d = mMonth e /\ mDay d = mDay e /\ (f <= 2 -> mYear d = mYear e).
Proof.
  intros d e f s D E F A B. destruct (date_same d e f s s [] [] D E F A B (or_introl eq_refl) (or_introl eq_refl) eq_refl) as (H1 & H2 & H3 & _). auto.
Qed.
Print Assumptions C78_date_unique.
(** getTime: the time of day on a clock of 24 or 12 hours, with or without seconds. *)
Theorem C78_time : forall zone_text default d ws ap, time_of d ->
  exists x, getTime zone_text default d ws ap false = Ok x /\ clock_text ws ap (mHours d) (mMinutes d) (mSeconds d) x.
Proof. exact time_said. Qed.
Print Assumptions C78_time.
(** Times with the same text are the same, up to the seconds if these are not shown. *)
Theorem C78_time_unique : forall zone_text default d e ws ap x, time_of d -> time_of e ->
  getTime zone_text default d ws ap false = Ok x -> getTime zone_text default e ws ap false = Ok x ->
  mHours d = mHours e /\ mMinutes d = mMinutes e /\ (ws = true -> mSeconds d = mSeconds e).
Proof. exact time_same. Qed.
Print Assumptions C78_time_unique.
(** The texts with 24 hours are in the order of the times. *)
Theorem C78_order : forall zone_text default d e x y, time_of d -> time_of e ->
  getTime zone_text default d true false false = Ok x -> getTime zone_text default e true false false = Ok y ->
  (ble x y = true <-> mHours d * 3600 + mMinutes d * 60 + mSeconds d <= mHours e * 3600 + mMinutes e * 60 + mSeconds e).
Proof. exact clock_order. Qed.
Print Assumptions C78_order.
(** getLocaleDateTime: both with a space, and it still tells both. *)
Theorem C78_datetime : forall zone_text default d f ws ap tz a b, getLocaleDate d f = Ok a -> getTime zone_text default d ws ap tz = Ok b ->
  getLocaleDateTime zone_text default d f ws ap tz = Ok (a ++ lit " " ++ b).
Proof. exact both_parts. Qed.
Print Assumptions C78_datetime.
Theorem C78_datetime_unique : forall zone_text default d e f ws ap x, 1 <= mMonth d <= 12 -> 1 <= mMonth e <= 12 -> time_of d -> time_of e -> 0 <= f <= 5 ->
  getLocaleDateTime zone_text default d f ws ap false = Ok x -> getLocaleDateTime zone_text default e f ws ap false = Ok x ->
  mMonth d = mMonth e /\ mDay d = mDay e /\ (f <= 2 -> mYear d = mYear e) /\ mHours d = mHours e /\ mMinutes d = mMinutes e /\ (ws = true -> mSeconds d = mSeconds e).
Proof. exact both_same. Qed.
Print Assumptions C78_datetime_unique.
(** The time zone, if it is asked for and has a text, stands after the time. *)
Theorem C78_zone : forall zone_text default d ws ap c z, getTime zone_text default d ws ap false = Ok c -> timeZoneDescriptor zone_text default d = Ok z ->
  getTime zone_text default d ws ap true = Ok (match z with [] => c | _ => c ++ lit " " ++ z end).
Proof. exact time_zone. Qed.
Print Assumptions C78_zone.
(** It is (UTC) in UTC; for a UTC offset its hours and minutes, which tell offsets of whole minutes apart; for a time zone what its VTIMEZONE says;
    and for a floating time what the VTIMEZONE of the default time zone says. *)
Theorem C78_descriptor : forall zone_text default d,
  (mTZUTC d = true -> timeZoneDescriptor zone_text default d = Ok (lit "(UTC)")) /\
  (forall n, mTZUTC d = false -> mTZID d = TzInt n -> Z.abs n < 360000 -> exists x, timeZoneDescriptor zone_text default d = Ok x /\ offset_text n x) /\
  (forall name, mTZUTC d = false -> mTZID d = TzName name -> timeZoneDescriptor zone_text default d = zone_text (TzName name) d) /\
  (mTZUTC d = false -> mTZID d = TzNone -> timeZoneDescriptor zone_text default d = zone_text (tzID default) d).
Proof.
  intros zt df d. split; [|split; [intros n U T N; exact (offset_said zt df d n U T N)|]].
  - intro U. unfold timeZoneDescriptor, tz_descriptor. cbn [tzUTC]. rewrite U. reflexivity.
  - unfold timeZoneDescriptor, tz_descriptor. cbn [tzUTC tzID]. split; [intros name U T|intros U T]; rewrite U, T; reflexivity.
Qed.
Print Assumptions C78_descriptor.
Theorem C78_offset_unique : forall m n x, Z.abs m < 360000 -> Z.abs n < 360000 -> m mod 60 = 0 -> n mod 60 = 0 -> offset_text m x -> offset_text n x -> m = n.
Proof. exact offset_same. Qed.
Print Assumptions C78_offset_unique.
(** getMonthText and getDayOfWeekText. *)
Theorem C78_names : forall d short w,
  (1 <= mMonth d <= 12 -> exists s, getMonthText d short = Ok s /\ called short month_names (mMonth d) s) /\
  (~ 1 <= mMonth d <= 12 -> getMonthText d short = Ok []) /\
  (0 <= w <= 6 -> exists s, getDayOfWeekText w = Ok s /\ called true week_names w s).
Proof.
  intros d short w. split; [|split].
  - intro H. destruct (month_called short (mMonth d) H) as (s & E & C & _). exists s. split; [|exact C]. unfold getMonthText.
    destruct (Z.ltb_spec (mMonth d) 1); [lia|]. destruct (Z.ltb_spec 12 (mMonth d)); [lia|]. exact E.
  - intro H. unfold getMonthText. destruct (Z.ltb_spec (mMonth d) 1); [reflexivity|]. destruct (Z.ltb_spec 12 (mMonth d)); [reflexivity|]. lia.
  - intro H. destruct (day_called true w H) as (s & E & C & _). exists s. split; [exact E|exact C].
Qed.
Print Assumptions C78_names.
(** CalendarManager: the ID of the default time zone is the one that was set. *)
Theorem C78_default : forall name, getDefaultTimezoneID (setDefaultTimezoneID name) = name.
Proof.
  intro name. unfold setDefaultTimezoneID. destruct name as [|s|n]; try reflexivity. destruct (beq s (lit "UTC")) eqn:E; [|reflexivity]. destruct (beq_case s (lit "UTC")) as [[-> _]|[_ X]]; [reflexivity|congruence].
Qed.
Print Assumptions C78_default.

(** ** Examples *)
Definition no_text : tzid -> dt -> res bytes := fun _ _ => Ok [].
Definition eastern : tzid -> dt -> res bytes := fun t _ => Ok (match t with TzName _ => lit "(EST)" | _ => [] end).
Definition utc : timezone := mkTimezone true TzNone.
Definition at_noon (h mi s : Z) (u : bool) (t : tzid) : dt := mkDT 2020 1 31 h mi s false u t None false 0.
Example C78_date_ex : valid_date greg_leap (ymd (at_noon 12 5 0 true TzNone)) /\
  map (getLocaleDate (at_noon 12 5 0 true TzNone)) [0; 1; 2; 3; 4; 5; 6] =
  [Ok (lit "Friday, January 31, 2020"); Ok (lit "Fri, Jan 31, 2020"); Ok (lit "1/31/2020"); Ok (lit "Friday, January 31"); Ok (lit "Fri, Jan 31"); Ok (lit "1/31"); Ok []].
Proof. split; [unfold valid_date; cbn; lia|]. vm_compute. reflexivity. Qed.
Example C78_date_unique_ex : getLocaleDate (mkDT 0 1 11 0 0 0 true false TzNone None false 0) 2 = Ok (lit "1/11/0") /\ getLocaleDate (mkDT (-1) 11 1 0 0 0 true false TzNone None false 0) 2 = Ok (lit "11/1/-1").
Proof. split; vm_compute; reflexivity. Qed.
Example C78_time_ex : time_of (at_noon 0 5 9 true TzNone) /\
  map (fun h => getTime no_text utc (at_noon h 5 9 true TzNone) true true false) [0; 1; 12; 23] = [Ok (lit "12:05:09 AM"); Ok (lit "1:05:09 AM"); Ok (lit "12:05:09 PM"); Ok (lit "11:05:09 PM")] /\
  getTime no_text utc (at_noon 7 5 9 true TzNone) false false false = Ok (lit "07:05").
Proof. split; [split; [|split]; cbn; lia|]. split; vm_compute; reflexivity. Qed.
Example C78_time_unique_ex : time_of (at_noon 7 5 9 true TzNone) /\ time_of (at_noon 7 5 10 true TzNone) /\
  getTime no_text utc (at_noon 7 5 9 true TzNone) false true false = getTime no_text utc (at_noon 7 5 10 true TzNone) false true false.
Proof. split; [split; [|split]; cbn; lia|]. split; [split; [|split]; cbn; lia|]. vm_compute. reflexivity. Qed.
(** With 12 hours they are not: 1 o'clock comes before 12 o'clock. *)
Example C78_order_ex : ble (lit "09:59:59") (lit "10:00:00") = true /\ getTime no_text utc (at_noon 9 59 59 true TzNone) true false false = Ok (lit "09:59:59") /\
  getTime no_text utc (at_noon 10 0 0 true TzNone) true false false = Ok (lit "10:00:00").
Proof. split; [reflexivity|]. split; vm_compute; reflexivity. Qed.
Example C78_datetime_ex : getLocaleDateTime eastern utc (at_noon 13 5 0 false (TzName (lit "US/Eastern"))) FULLDATE false true true = Ok (lit "Friday, January 31, 2020 1:05 PM (EST)").
Proof. vm_compute. reflexivity. Qed.
Example C78_datetime_unique_ex : getLocaleDateTime no_text utc (at_noon 13 5 0 true TzNone) NUMERICDATE true true false = Ok (lit "1/31/2020 1:05:00 PM") /\ time_of (at_noon 13 5 0 true TzNone).
Proof. split; [vm_compute; reflexivity|split; [|split]; cbn; lia]. Qed.
Example C78_zone_ex : getTime no_text utc (at_noon 13 5 0 false (TzInt (-16200))) false false true = Ok (lit "13:05 -0430") /\ getTime no_text utc (at_noon 13 5 0 false (TzName (lit "X"))) false false true = Ok (lit "13:05").
Proof. split; vm_compute; reflexivity. Qed.
Example C78_descriptor_ex : timeZoneDescriptor eastern (setDefaultTimezoneID (TzName (lit "US/Eastern"))) (at_noon 13 5 0 false TzNone) = Ok (lit "(EST)") /\
  timeZoneDescriptor eastern utc (at_noon 13 5 0 true TzNone) = Ok (lit "(UTC)").
Proof. split; vm_compute; reflexivity. Qed.
Example C78_offset_unique_ex : offset_text 19800 (lit "+0530") /\ offset_text (-19800) (lit "-0530").
Proof. split; exists 5, 30, 0; repeat split; lia. Qed.
Example C78_names_ex : getMonthText (at_noon 1 1 1 true TzNone) true = Ok (lit "Jan") /\ getMonthText (at_noon 1 1 1 true TzNone) false = Ok (lit "January") /\ getDayOfWeekText 6 = Ok (lit "Sat").
Proof. repeat split; vm_compute; reflexivity. Qed.
Example C78_default_ex : setDefaultTimezoneID (TzName (lit "UTC")) = utc /\ getDefaultTimezoneID utc = TzName (lit "UTC") /\ setDefaultTimezoneID (TzName (lit "Europe/Paris")) = mkTimezone false (TzName (lit "Europe/Paris")).
Proof. repeat split. Qed.

(** ** What the texts do not tell *)
(** With UTC as the default time zone a floating time is shown without a time zone, not with (UTC). *)
Theorem C78_default_refuted : exists d, timeZoneDescriptor no_text (setDefaultTimezoneID (TzName (lit "UTC"))) d = Ok [] /\
  getTime no_text (setDefaultTimezoneID (TzName (lit "UTC"))) d false false true = Ok (lit "13:05").
Proof. exists (at_noon 13 5 0 false TzNone). split; vm_compute; reflexivity. Qed.
Print Assumptions C78_default_refuted.
(** The seconds of an offset are not shown. *)
Theorem C78_seconds_refuted : exists d e x, mTZID d = TzInt 3600 /\ mTZID e = TzInt 3630 /\ timeZoneDescriptor no_text utc d = Ok x /\ timeZoneDescriptor no_text utc e = Ok x.
Proof. exists (at_noon 13 5 0 false (TzInt 3600)), (at_noon 13 5 0 false (TzInt 3630)), (lit "+0100"). repeat split; vm_compute; reflexivity. Qed.
Print Assumptions C78_seconds_refuted.
(** The texts with 12 hours are not in the order of the times. *)
Theorem C78_order_refuted : exists d e x y, time_of d /\ time_of e /\ mHours d < mHours e /\ getTime no_text utc d true true false = Ok x /\ getTime no_text utc e true true false = Ok y /\ ble x y = false.
Proof.
  exists (at_noon 9 0 0 true TzNone), (at_noon 10 0 0 true TzNone). do 2 eexists. split; [split; [|split]; cbn; lia|]. split; [split; [|split]; cbn; lia|]. split; [cbn; lia|].
  split; [vm_compute; reflexivity|]. split; [vm_compute; reflexivity|]. reflexivity.
Qed.
Print Assumptions C78_order_refuted.
