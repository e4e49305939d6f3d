(** Vocabulary for statements about the BY parts of a rule: which dates and times RFC 5545
    section 3.3.10 lets a part select. *)
From Coq Require Import Sorting.Sorted.
From Verif Require Import PyBase CalSpec DateTimeModel DateTimeSpec RecurModel.

Definition year_of (dd : date) : Z := fst (fst dd).
Definition month_of (dd : date) : Z := snd (fst dd).
Definition day_of (dd : date) : Z := snd dd.

(** [out] holds the values that satisfy [S] (a condition on visible fields) and no others. *)
Definition describes (out : list dt) (S : dt -> Prop) : Prop :=
  (forall e, In e out -> S e) /\
  (forall e, S e -> exists e', In e' out /\ visible e' = visible e).

(** A part that is present (an empty list counts as absent). *)
Definition given {A} (l : option (list A)) : Prop :=
  match l with Some (_ :: _) => True | _ => False end.
(** If the part is present then one of its values satisfies [P]. *)
Definition listed {A} (l : option (list A)) (P : A -> Prop) : Prop :=
  match l with Some (x :: t) => exists v, In v (x :: t) /\ P v | _ => True end.

(** BYMONTHDAY=n: the n-th day of the month, negative n counting from its end. *)
Definition is_month_day (dd : date) (n : Z) : Prop :=
  (0 < n /\ day_of dd = n) \/
  (n < 0 /\ day_of dd = month_len greg_leap (year_of dd) (month_of dd) + 1 + n).
(** BYDAY=nw within a month: the weekday w, and the n-th one (from the end) of the month. *)
Definition is_month_weekday (dd : date) (nw : Z * Z) : Prop :=
  is_weekday dd (snd nw) /\
  (0 < fst nw -> nth_wd_from (year_of dd, month_of dd, 1) (snd nw) (fst nw) dd) /\
  (fst nw < 0 ->
   nth_wd_back (year_of dd, month_of dd, month_len greg_leap (year_of dd) (month_of dd)) (snd nw) (- fst nw) dd).
(** BYDAY=nw within a year. *)
Definition is_year_weekday (dd : date) (nw : Z * Z) : Prop :=
  is_weekday dd (snd nw) /\
  (0 < fst nw -> nth_wd_from (year_of dd, 1, 1) (snd nw) (fst nw) dd) /\
  (fst nw < 0 -> nth_wd_back (year_of dd, 12, 31) (snd nw) (- fst nw) dd).
(** Two days in the same week, with weeks that start on weekday [wkst]. *)
Definition same_week (wkst : Z) (a b : date) : Prop :=
  exists ws i j, valid_date greg_leap ws /\ is_weekday ws wkst /\
    days_between greg_leap ws a i /\ 0 <= i < 7 /\ days_between greg_leap ws b j /\ 0 <= j < 7.

(** Both dates or both date-times, in the same zone. *)
Definition same_kind (s e : dt) : Prop :=
  mDateOnly e = mDateOnly s /\ mTZUTC e = mTZUTC s /\ mTZID e = mTZID s.

(** One unit of the clock: a present part lists the values, otherwise the start's value is kept.
    [free] says that the part expands; a part that limits keeps the start's value as well. *)
Definition clock_unit (l : option (list Z)) (free : bool) (s e : Z) : Prop :=
  match l with
  | Some (x :: t) => In e (x :: t) /\ (free = false -> e = s)
  | _ => e = s
  end.
Definition hours_free (f : freq) : bool := match f with SECONDLY | MINUTELY | HOURLY => false | _ => true end.
Definition minutes_free (f : freq) : bool := match f with SECONDLY | MINUTELY => false | _ => true end.
Definition seconds_free (f : freq) : bool := match f with SECONDLY => false | _ => true end.
Definition clock_ok (r : rule) (s e : dt) : Prop :=
  clock_unit (rByHours r) (hours_free (rFreq r)) (mHours s) (mHours e) /\
  clock_unit (rByMinutes r) (minutes_free (rFreq r)) (mMinutes s) (mMinutes e) /\
  clock_unit (rBySeconds r) (seconds_free (rFreq r)) (mSeconds s) (mSeconds e).

(** DAILY and finer: the day itself, if it passes all the limits. *)
Definition day_passes (r : rule) (dd : date) : Prop :=
  listed (rByMonth r) (fun n => month_of dd = n) /\
  listed (rByWeekNo r) (fun n => 0 < n /\ iso_week dd n) /\
  listed (rByMonthDay r) (is_month_day dd) /\
  listed (rByDay r) (is_month_weekday dd).
(** WEEKLY: the days of the start's week with a listed weekday. *)
Definition week_days (r : rule) (s e : date) : Prop :=
  listed (rByMonth r) (fun n => month_of s = n) /\
  listed (rByWeekNo r) (fun n => 0 < n /\ iso_week s n) /\
  (given (rByDay r) -> valid_date greg_leap e /\ same_week (rWeekstart r) s e) /\
  listed (rByDay r) (fun nw => fst nw = 0 /\ is_weekday e (snd nw)) /\
  (~ given (rByDay r) -> e = s).
(** The days of one month picked by BYMONTHDAY and BYDAY; without both, day [d0]. *)
Definition month_days (r : rule) (y m d0 : Z) (e : date) : Prop :=
  valid_date greg_leap e /\ year_of e = y /\ month_of e = m /\
  listed (rByMonthDay r) (is_month_day e) /\
  listed (rByDay r) (is_month_weekday e) /\
  (~ given (rByMonthDay r) -> ~ given (rByDay r) -> day_of e = d0).

(** A start whose month and clock are in range; its day may be missing from its month. *)
Definition set_start (s : dt) : Prop :=
  1 <= mMonth s <= 12 /\ valid_time (mHours s) (mMinutes s) (mSeconds s) /\
  (mDateOnly s = true -> secs_of_day s = 0).

(** The i-th value of a list: from the front for positive i, from the back for negative i. *)
Definition at_position {A} (l : list A) (i : Z) (x : A) : Prop :=
  (0 < i /\ nth_error l (Z.to_nat (i - 1)) = Some x) \/
  (i < 0 /\ nth_error (rev l) (Z.to_nat (- i - 1)) = Some x).
(** The values of [full] at the positions listed in [l], in the order of the list; positions
    that [full] does not have give nothing. *)
Definition picks {A} (full : list A) (l : list Z) (ps : list (list A)) : Prop :=
  Forall2 (fun i p => (exists x, p = [x] /\ at_position full i x) \/ (p = [] /\ forall x, ~ at_position full i x)) l ps.

(** In the order of the points in time that the values denote. *)
Definition in_order (tzo : tzid -> Z -> Z -> Z -> Z -> Z -> Z -> bool -> bool -> Z) (l : list dt) : Prop :=
  StronglySorted (fun a b => exists p q, snd (getPosixTime tzo a) = Ok p /\ snd (getPosixTime tzo b) = Ok q /\ p <= q) l.

(** [f l ds] keeps, in their order, the elements of ds that match one of the values of l. *)
Definition keeps {A} (f : list A -> list dt -> res (list dt)) (P : dt -> A -> Prop) (l : list A) (ds : list dt) : Prop :=
  exists p, f l ds = Ok (filter p ds) /\ forall d, In d ds -> (p d = true <-> exists v, In v l /\ P d v).
(** [f l ds] holds for every element d of ds and every value v of l, in this order, one e
    with Q d v e. *)
Definition yields {A} (f : list A -> list dt -> res (list dt)) (Q : dt -> A -> dt -> Prop) (l : list A) (ds : list dt) : Prop :=
  exists parts, f l ds = Ok (List.concat parts) /\ Forall2 (fun d part => Forall2 (Q d) l part) ds parts.
(** The same value with another date, or another clock reading. *)
Definition on_date (d : dt) (dd : date) (e : dt) : Prop :=
  same_kind d e /\ ymd e = dd /\ mHours e = mHours d /\ mMinutes e = mMinutes d /\ mSeconds e = mSeconds d.
Definition at_clock (d : dt) (h m s : Z) (e : dt) : Prop :=
  same_kind d e /\ ymd e = ymd d /\ mHours e = h /\ mMinutes e = m /\ mSeconds e = s.
