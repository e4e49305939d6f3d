(** Properties C34 and C35: the BY parts of a recurrence rule.  [tzo] is the timezone database,
    an arbitrary function. *)
From Coq Require Import Lia ZifyBool Sorting.Permutation.
From Verif Require Import PyBase ParserCtx CalSpec DateTimeModel DateTimeSpec DateTimeSpec2 RecurModel RecurSpec RecurExpand RecurSetSpec.
From Verif Require RecurByProofs RecurSortProofs RecurSetProofs2 RecurSetProofs3.

(** For the examples: a rule from its text, times in UTC, dates, and what is visible of a
    computed set. *)
Definition rule_of (s : string) : rule := match rule_parse default_ctx (lit s) with Ok r => r | Raise _ => rule_init end.
Definition utc (y m d h : Z) : dt := newDateTime y m d h 0 0 true TzNone.
Definition day (y m d : Z) : dt := newDate y m d false TzNone.
Definition no_zones : tzid -> Z -> Z -> Z -> Z -> Z -> Z -> bool -> bool -> Z := fun _ _ _ _ _ _ _ _ _ => 0.
Definition dates_of (r : res (list dt)) : list date := match r with Ok l => map ymd l | Raise _ => [] end.
Definition hours_of (r : res (list dt)) : list (date * Z) :=
  match r with Ok l => map (fun d => (ymd d, mHours d)) l | Raise _ => [] end.

(** C34. The limits keep, in order, the values that match an element of the part. *)
Theorem C34_month_limit : forall l ds, keeps byMonthLimit (fun d n => mMonth d = n) l ds.
Proof. exact RecurByProofs.month_keeps. Qed.
Print Assumptions C34_month_limit.
Example C34_month_limit_ex : dates_of (byMonthLimit [3; 1] [day 2000 1 5; day 2000 2 5; day 2000 3 5]) = [(2000, 1, 5); (2000, 3, 5)].
Proof. vm_compute. reflexivity. Qed.
Theorem C34_hour_limit : forall l ds, keeps byHourLimit (fun d n => mHours d = n) l ds.
Proof. exact RecurByProofs.hour_keeps. Qed.
Print Assumptions C34_hour_limit.
Example C34_hour_limit_ex : hours_of (byHourLimit [7] [utc 2000 1 5 6; utc 2000 1 5 7]) = [((2000, 1, 5), 7)].
Proof. vm_compute. reflexivity. Qed.
Theorem C34_minute_limit : forall l ds, keeps byMinuteLimit (fun d n => mMinutes d = n) l ds.
Proof. exact RecurByProofs.minute_keeps. Qed.
Print Assumptions C34_minute_limit.
Example C34_minute_limit_ex : hours_of (byMinuteLimit [0; 30] [utc 2000 1 5 6; newDateTime 2000 1 5 7 20 0 true TzNone]) = [((2000, 1, 5), 6)].
Proof. vm_compute. reflexivity. Qed.
Theorem C34_second_limit : forall l ds, keeps bySecondLimit (fun d n => mSeconds d = n) l ds.
Proof. exact RecurByProofs.second_keeps. Qed.
Print Assumptions C34_second_limit.
Example C34_second_limit_ex : hours_of (bySecondLimit [15; 30] [utc 2000 1 5 6; newDateTime 2000 1 5 7 0 30 true TzNone]) = [((2000, 1, 5), 7)].
Proof. vm_compute. reflexivity. Qed.
Theorem C34_weekno_limit : forall l ds, Forall (fun d => valid_dt d /\ 1901 <= mYear d <= 2100) ds ->
  keeps byWeekNoLimit (fun d n => 0 < n /\ iso_week (ymd d) n) l ds.
Proof. exact RecurByProofs.week_keeps. Qed.
Print Assumptions C34_weekno_limit.
(** 1 January 2000 lies in week 52 of 1999. *)
Example C34_weekno_limit_ex :
  dates_of (byWeekNoLimit [1; 52] [day 2000 1 1; day 2000 1 3; day 2000 1 10]) = [(2000, 1, 1); (2000, 1, 3)] /\
  Forall (fun d => valid_dt d /\ 1901 <= mYear d <= 2100) [day 2000 1 1; day 2000 1 3; day 2000 1 10].
Proof. split; [vm_compute; reflexivity|]. repeat constructor; vm_compute; congruence. Qed.
Theorem C34_monthday_limit : forall l ds, Forall (fun d => valid_dt d /\ 1752 < mYear d) ds ->
  keeps byMonthDayLimit (fun d n => is_month_day (ymd d) n) l ds.
Proof. exact RecurByProofs.monthday_keeps. Qed.
Print Assumptions C34_monthday_limit.
Example C34_monthday_limit_ex :
  dates_of (byMonthDayLimit [-1; 2] [day 2000 2 28; day 2000 2 29; day 2000 3 2]) = [(2000, 2, 29); (2000, 3, 2)] /\
  Forall (fun d => valid_dt d /\ 1752 < mYear d) [day 2000 2 28; day 2000 2 29; day 2000 3 2].
Proof. split; [vm_compute; reflexivity|]. repeat constructor; vm_compute; congruence. Qed.
Theorem C34_day_limit : forall l ds, Forall (fun d => valid_dt d /\ 1901 <= mYear d <= 2100) ds ->
  Forall (fun nw => 0 <= snd nw <= 6) l -> keeps byDayLimit (fun d nw => is_month_weekday (ymd d) nw) l ds.
Proof. exact RecurByProofs.day_keeps. Qed.
Print Assumptions C34_day_limit.
(** The last Monday and every Tuesday; 24 and 31 January 2000 are Mondays. *)
Example C34_day_limit_ex :
  dates_of (byDayLimit [(-1, 1); (0, 2)] [day 2000 1 24; day 2000 1 31; day 2000 2 1]) = [(2000, 1, 31); (2000, 2, 1)] /\
  Forall (fun d => valid_dt d /\ 1901 <= mYear d <= 2100) [day 2000 1 24; day 2000 1 31; day 2000 2 1] /\
  Forall (fun nw => 0 <= snd nw <= 6) [(-1, 1); (0, 2)].
Proof. split; [vm_compute; reflexivity|]. split; repeat constructor; vm_compute; congruence. Qed.

(** The expansions give one value for each value and each element of the part. *)
Theorem C34_hour_expand : forall l ds, yields byHourExpand (fun d n => at_clock d n (mMinutes d) (mSeconds d)) l ds.
Proof. exact RecurByProofs.hour_yields. Qed.
Print Assumptions C34_hour_expand.
Example C34_hour_expand_ex : hours_of (byHourExpand [7; 9] [utc 2000 1 5 6; utc 2000 1 6 6]) =
  [((2000, 1, 5), 7); ((2000, 1, 5), 9); ((2000, 1, 6), 7); ((2000, 1, 6), 9)].
Proof. vm_compute. reflexivity. Qed.
Theorem C34_minute_expand : forall l ds, yields byMinuteExpand (fun d n => at_clock d (mHours d) n (mSeconds d)) l ds.
Proof. exact RecurByProofs.minute_yields. Qed.
Print Assumptions C34_minute_expand.
Example C34_minute_expand_ex : match byMinuteExpand [10; 50] [utc 2000 1 5 6] with Ok l => map mMinutes l | _ => [] end = [10; 50].
Proof. vm_compute. reflexivity. Qed.
Theorem C34_second_expand : forall l ds, yields bySecondExpand (fun d n => at_clock d (mHours d) (mMinutes d) n) l ds.
Proof. exact RecurByProofs.second_yields. Qed.
Print Assumptions C34_second_expand.
Example C34_second_expand_ex : match bySecondExpand [0; 59] [utc 2000 1 5 6] with Ok l => map mSeconds l | _ => [] end = [0; 59].
Proof. vm_compute. reflexivity. Qed.
Theorem C34_month_expand : forall l ds, yields byMonthExpand (fun d n => on_date d (mYear d, n, mDay d)) l ds.
Proof. exact RecurByProofs.month_yields. Qed.
Print Assumptions C34_month_expand.
Example C34_month_expand_ex : dates_of (byMonthExpand [1; 2] [day 2000 6 30]) = [(2000, 1, 30); (2000, 2, 30)].
Proof. vm_compute. reflexivity. Qed.
(** The days need not exist here; they are dropped from the set later. *)
Theorem C34_monthday_expand : forall l ds, Forall (fun d => 1 <= mMonth d <= 12 /\ 1752 < mYear d) ds -> Forall (fun n => n <> 0) l ->
  yields byMonthDayExpand (fun d n e => exists k, is_month_day (mYear d, mMonth d, k) n /\ on_date d (mYear d, mMonth d, k) e) l ds.
Proof. exact RecurByProofs.monthday_yields. Qed.
Print Assumptions C34_monthday_expand.
Example C34_monthday_expand_ex :
  dates_of (byMonthDayExpand [1; -1] [day 2000 2 30; day 2000 4 1]) = [(2000, 2, 1); (2000, 2, 29); (2000, 4, 1); (2000, 4, 30)] /\
  Forall (fun d => 1 <= mMonth d <= 12 /\ 1752 < mYear d) [day 2000 2 30; day 2000 4 1] /\ Forall (fun n => n <> 0) [1; -1].
Proof. split; [vm_compute; reflexivity|]. split; repeat constructor; vm_compute; congruence. Qed.

(** All parts together: the set generated for one interval of the rule, in the order of time.
    DAILY and finer frequencies: the parts limit the day; BYHOUR, BYMINUTE and BYSECOND expand
    when they are finer than the frequency. *)
Theorem C34_daily : forall tzo r s, hours_free (rFreq r) = false \/ rFreq r = DAILY -> in_ranges r -> ~ given (rBySetPos r) ->
  valid_dt s -> 1901 <= mYear s <= 2100 ->
  exists out, generate_set tzo r s = Ok out /\ in_order tzo out /\
    describes out (fun e => same_kind s e /\ ymd e = ymd s /\ day_passes r (ymd s) /\ clock_ok r s e).
Proof. exact RecurSetProofs2.fine_set. Qed.
Print Assumptions C34_daily.
(** Friday the 13th at 9 and 17 o'clock. *)
Example C34_daily_ex : let r := rule_of "FREQ=DAILY;BYDAY=FR;BYMONTHDAY=13;BYHOUR=17,9" in
  hours_of (generate_set no_zones r (utc 2000 10 13 8)) = [((2000, 10, 13), 9); ((2000, 10, 13), 17)] /\
  hours_of (generate_set no_zones r (utc 2000 10 20 8)) = [] /\
  rFreq r = DAILY /\ in_ranges r /\ ~ given (rBySetPos r) /\ valid_dt (utc 2000 10 13 8).
Proof. split; [|split]; [vm_compute; reflexivity..|]. vm_compute. repeat split; repeat constructor; try congruence; intros []. Qed.
(** WEEKLY: the listed weekdays of the week of the start. *)
Theorem C34_weekly : forall tzo r s, rFreq r = WEEKLY -> in_ranges r -> ~ given (rBySetPos r) -> valid_dt s -> 1902 <= mYear s <= 2099 ->
  exists out, generate_set tzo r s = Ok out /\ in_order tzo out /\
    describes out (fun e => same_kind s e /\ clock_ok r s e /\ week_days r (ymd s) (ymd e)).
Proof. exact RecurSetProofs3.weekly_set. Qed.
Print Assumptions C34_weekly.
(** Thursday 6 January 2000; the week starts on Sunday. *)
Example C34_weekly_ex : let r := rule_of "FREQ=WEEKLY;BYDAY=SU,SA,MO;WKST=SU" in
  dates_of (generate_set no_zones r (utc 2000 1 6 8)) = [(2000, 1, 2); (2000, 1, 3); (2000, 1, 8)] /\
  rFreq r = WEEKLY /\ in_ranges r /\ ~ given (rBySetPos r) /\ valid_dt (utc 2000 1 6 8).
Proof. split; [vm_compute; reflexivity|]. vm_compute. repeat split; repeat constructor; try congruence; intros []. Qed.
(** MONTHLY: the days of the start's month picked by BYMONTHDAY and BYDAY. *)
Theorem C34_monthly : forall tzo r s, rFreq r = MONTHLY -> in_ranges r -> ~ given (rBySetPos r) -> ~ given (rByYearDay r) ->
  set_start s -> 1901 <= mYear s <= 2100 ->
  exists out, generate_set tzo r s = Ok out /\ in_order tzo out /\
    describes out (fun e => same_kind s e /\ clock_ok r s e /\
      listed (rByMonth r) (fun n => mMonth s = n) /\ month_days r (mYear s) (mMonth s) (mDay s) (ymd e)).
Proof. exact RecurSetProofs2.monthly_set. Qed.
Print Assumptions C34_monthly.
Example C34_monthly_ex : let r := rule_of "FREQ=MONTHLY;BYDAY=1MO,-1FR,TU" in
  dates_of (generate_set no_zones r (utc 2000 2 30 8)) =
    [(2000, 2, 1); (2000, 2, 7); (2000, 2, 8); (2000, 2, 15); (2000, 2, 22); (2000, 2, 25); (2000, 2, 29)] /\
  rFreq r = MONTHLY /\ in_ranges r /\ ~ given (rBySetPos r) /\ ~ given (rByYearDay r) /\ set_start (utc 2000 2 30 8).
Proof. split; [vm_compute; reflexivity|]. vm_compute. repeat split; repeat constructor; try congruence; intros []. Qed.
(** YEARLY with BYMONTH or BYMONTHDAY, or without BYDAY: the days of the listed months (or of
    the month of the start) picked by BYMONTHDAY and BYDAY. *)
Theorem C34_yearly_months : forall tzo r s, rFreq r = YEARLY -> in_ranges r -> ~ given (rBySetPos r) -> ~ given (rByYearDay r) -> ~ given (rByWeekNo r) ->
  given (rByMonth r) \/ given (rByMonthDay r) \/ ~ given (rByDay r) -> set_start s -> 1901 <= mYear s <= 2100 ->
  exists out, generate_set tzo r s = Ok out /\ in_order tzo out /\
    describes out (fun e => same_kind s e /\ clock_ok r s e /\
      exists m, (given (rByMonth r) -> In m (items (rByMonth r))) /\ (~ given (rByMonth r) -> m = mMonth s) /\
        month_days r (mYear s) m (mDay s) (ymd e)).
Proof. exact RecurSetProofs2.yearly_month_set. Qed.
Print Assumptions C34_yearly_months.
(** The first two Sundays of March and November 2000. *)
Example C34_yearly_months_ex : let r := rule_of "FREQ=YEARLY;BYMONTH=11,3;BYDAY=1SU,2SU" in
  dates_of (generate_set no_zones r (utc 2000 7 30 8)) = [(2000, 3, 5); (2000, 3, 12); (2000, 11, 5); (2000, 11, 12)] /\
  rFreq r = YEARLY /\ in_ranges r /\ ~ given (rBySetPos r) /\ ~ given (rByYearDay r) /\ ~ given (rByWeekNo r) /\ given (rByMonth r) /\
  set_start (utc 2000 7 30 8).
Proof. split; [vm_compute; reflexivity|]. vm_compute. repeat split; repeat constructor; try congruence; intros []. Qed.
(** YEARLY with BYDAY alone, up to the 52nd of a weekday: the days of the year. *)
Theorem C34_yearly_days : forall tzo r s, rFreq r = YEARLY -> in_ranges r -> ~ given (rBySetPos r) -> ~ given (rByYearDay r) -> ~ given (rByWeekNo r) ->
  ~ given (rByMonth r) -> ~ given (rByMonthDay r) -> given (rByDay r) -> all_in (fun nw => Z.abs (fst nw) <= 52) (rByDay r) ->
  set_start s -> 1901 <= mYear s <= 2100 ->
  exists out, generate_set tzo r s = Ok out /\ in_order tzo out /\
    describes out (fun e => same_kind s e /\ clock_ok r s e /\
      valid_date greg_leap (ymd e) /\ mYear e = mYear s /\ listed (rByDay r) (is_year_weekday (ymd e))).
Proof. exact RecurSetProofs3.yearly_day_set. Qed.
Print Assumptions C34_yearly_days.
Example C34_yearly_days_ex : let r := rule_of "FREQ=YEARLY;BYDAY=20MO,-1SU,1SA" in
  dates_of (generate_set no_zones r (utc 2000 7 30 8)) = [(2000, 1, 1); (2000, 5, 15); (2000, 12, 31)] /\
  rFreq r = YEARLY /\ in_ranges r /\ given (rByDay r) /\ all_in (fun nw => Z.abs (fst nw) <= 52) (rByDay r) /\ set_start (utc 2000 7 30 8).
Proof. split; [vm_compute; reflexivity|]. vm_compute. repeat split; repeat constructor; try congruence; intros []. Qed.

(** What the claim says beyond this is false.  BYYEARDAY: the 100th day of the year is 10
    April, but the code looks for 100 January and drops it. *)
Theorem C34_yearday_refuted : exists r s dd, rFreq r = YEARLY /\ in_ranges r /\ rByYearDay r = Some [100] /\
  days_between greg_leap (mYear s, 1, 1) dd 99 /\ valid_dt s /\ forall tzo, generate_set tzo r s = Ok [].
Proof.
  exists (rule_of "FREQ=YEARLY;BYYEARDAY=100"), (utc 2001 1 1 8), (2001, 4, 10).
  split; [reflexivity|]. split; [vm_compute; repeat split; repeat constructor; congruence|]. split; [reflexivity|].
  split; [left; split; [lia|vm_compute; reflexivity]|]. split; [repeat split; vm_compute; congruence|]. intro tzo. vm_compute. reflexivity.
Qed.
Print Assumptions C34_yearday_refuted.
(** BYYEARDAY does not limit rules that repeat hourly or more often (nor daily, weekly and
    monthly ones, where the RFC forbids it). *)
Theorem C34_hourly_yearday_refuted : exists r s, rFreq r = HOURLY /\ in_ranges r /\ rByYearDay r = Some [1] /\
  valid_dt s /\ (mMonth s, mDay s) = (1, 2) /\ generate_set no_zones r s <> Ok [].
Proof.
  exists (rule_of "FREQ=HOURLY;BYYEARDAY=1"), (utc 2001 1 2 8).
  split; [reflexivity|]. split; [vm_compute; repeat split; repeat constructor; congruence|]. split; [reflexivity|].
  split; [repeat split; vm_compute; congruence|]. split; [reflexivity|]. vm_compute. discriminate.
Qed.
Print Assumptions C34_hourly_yearday_refuted.
(** Negative week numbers match nothing, although 31 December 1970 is in the last week of
    its year: 7 January 1971 is in week 1. *)
Theorem C34_negative_weekno_refuted : exists s, valid_dt s /\ iso_week (ymd s) 53 /\
  days_between greg_leap (ymd s) (1971, 1, 7) 7 /\ iso_week (1971, 1, 7) 1 /\ byWeekNoLimit [-1] [s] = Ok [].
Proof.
  exists (utc 1970 12 31 8). split; [repeat split; vm_compute; congruence|]. split; [|split; [|split]].
  - exists 4, 1970, 12, 31, 364. split; [exists 364; split; [left; split; [lia|vm_compute; reflexivity]|vm_compute; reflexivity]|].
    split; [left; split; [vm_compute; congruence|reflexivity]|]. split; [vm_compute; repeat split; congruence|].
    split; [left; split; [lia|vm_compute; reflexivity]|reflexivity].
  - left; split; [lia|vm_compute; reflexivity].
  - exists 4, 1971, 1, 7, 6. split; [exists 371; split; [left; split; [lia|vm_compute; reflexivity]|vm_compute; reflexivity]|].
    split; [left; split; [vm_compute; congruence|reflexivity]|]. split; [vm_compute; repeat split; congruence|].
    split; [left; split; [lia|vm_compute; reflexivity]|reflexivity].
  - vm_compute. reflexivity.
Qed.
Print Assumptions C34_negative_weekno_refuted.
(** 2002 has 52 Mondays; its 53rd is a day of 2003. *)
Theorem C34_53rd_refuted : exists r s, rFreq r = YEARLY /\ in_ranges r /\ rByDay r = Some [(53, 1)] /\ valid_dt s /\
  exists e, generate_set no_zones r s = Ok [e] /\ mYear e <> mYear s.
Proof.
  exists (rule_of "FREQ=YEARLY;BYDAY=53MO"), (utc 2002 1 1 8).
  split; [reflexivity|]. split; [vm_compute; repeat split; repeat constructor; congruence|]. split; [reflexivity|].
  split; [repeat split; vm_compute; congruence|]. eexists. split; [vm_compute; reflexivity|]. vm_compute. discriminate.
Qed.
Print Assumptions C34_53rd_refuted.
(** BYMONTHDAY alone does not expand a yearly rule over the months of the year. *)
Theorem C34_yearly_monthday_refuted : exists r s, rFreq r = YEARLY /\ in_ranges r /\ rByMonthDay r = Some [15] /\ ~ given (rByMonth r) /\
  valid_dt s /\ dates_of (generate_set no_zones r s) = [(2002, 1, 15)].
Proof.
  exists (rule_of "FREQ=YEARLY;BYMONTHDAY=15"), (utc 2002 1 1 8).
  split; [reflexivity|]. split; [vm_compute; repeat split; repeat constructor; congruence|]. split; [reflexivity|].
  split; [intros []|]. split; [repeat split; vm_compute; congruence|]. vm_compute. reflexivity.
Qed.
Print Assumptions C34_yearly_monthday_refuted.
(** A date that two values of a part pick is returned twice. *)
Theorem C34_once_refuted : exists r s d, rFreq r = MONTHLY /\ in_ranges r /\ valid_dt s /\
  generate_set no_zones r s = Ok [d; d].
Proof.
  exists (rule_of "FREQ=MONTHLY;BYMONTHDAY=1,-31"), (utc 2002 1 1 8). eexists.
  split; [reflexivity|]. split; [vm_compute; repeat split; repeat constructor; congruence|].
  split; [repeat split; vm_compute; congruence|]. vm_compute. reflexivity.
Qed.
Print Assumptions C34_once_refuted.

(** C35. bySetPosLimit sorts its list by time and returns the elements at the listed
    positions, in the order of the positions; positions beyond the list give nothing. *)
Theorem C35_positions : forall tzo l ds, (forall d, In d ds -> 1 <= mMonth d <= 12) -> exists full ps,
  Permutation (map visible ds) (map visible full) /\ in_order tzo full /\ picks full l ps /\
  bySetPosLimit tzo l ds = Ok (List.concat ps).
Proof. exact RecurByProofs.setpos_total. Qed.
Print Assumptions C35_positions.
Example C35_positions_ex :
  dates_of (bySetPosLimit no_zones [-1; 1; 4; -4; 0] [day 2000 1 3; day 2000 1 1; day 2000 1 2]) = [(2000, 1, 3); (2000, 1, 1)] /\
  forall d, In d [day 2000 1 3; day 2000 1 1; day 2000 1 2] -> 1 <= mMonth d <= 12.
Proof. split; [vm_compute; reflexivity|]. intros d H. repeat destruct H as [<-|H]; try (vm_compute; split; congruence). destruct H. Qed.
(** In the set of an interval: the positions of the set that the rule has without BYSETPOS. *)
Theorem C35_set : forall tzo r s l out, rBySetPos r = Some l -> l <> [] -> generate_set tzo r s = Ok out ->
  exists full ps, generate_set tzo (set_bysetpos [] r) s = Ok full /\ in_order tzo full /\
    picks full l ps /\ Permutation (List.concat ps) out /\ in_order tzo out.
Proof. exact RecurSortProofs.setpos_set. Qed.
Print Assumptions C35_set.
(** The last weekday of a month. *)
Example C35_set_ex : let r := rule_of "FREQ=MONTHLY;BYDAY=MO,TU,WE,TH,FR;BYSETPOS=-1" in
  rBySetPos r = Some [-1] /\ exists d, generate_set no_zones r (utc 2000 4 1 8) = Ok [d] /\ ymd d = (2000, 4, 28).
Proof. cbv zeta. split; [reflexivity|]. eexists. split; [vm_compute; reflexivity|]. vm_compute. reflexivity. Qed.
