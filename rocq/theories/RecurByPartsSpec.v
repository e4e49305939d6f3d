(** Vocabulary for the expansion of rules with BY parts: the times that RFC 5545 section 3.3.10
    gives to a rule. *)
From Coq Require Import Sorting.Sorted.
From Verif Require Import PyBase CalSpec DateTimeModel DateTimeSpec DateTimeSpec2 PeriodModel PeriodSpec RecurModel RecurSpec
  RecurExpandSpec RecurSetSpec.

(** The k-th interval of the rule starts (for MONTHLY and YEARLY: on a day that may be missing
    from its month) at s. *)
Definition interval_at (sc : scale) (r : rule) (start : dt) (a k : Z) (s : dt) : Prop :=
  match step_months r with
  | Some p => months_later start (k * p) s
  | None => exists u, step_units sc (rFreq r) = Some u /\ instant sc s (a + k * (rInterval r * u))
  end.

(** YEARLY: the days of the year of s. *)
Definition yearly_by_month (r : rule) : Prop := given (rByMonth r) \/ given (rByMonthDay r) \/ ~ given (rByDay r).
Definition year_days (r : rule) (s : dt) (e : date) : Prop :=
  (yearly_by_month r -> exists m, (given (rByMonth r) -> In m (elems (rByMonth r))) /\ (~ given (rByMonth r) -> m = mMonth s) /\
     month_days r (mYear s) m (mDay s) e) /\
  (~ yearly_by_month r -> valid_date greg_leap e /\ year_of e = mYear s /\ listed (rByDay r) (is_year_weekday e)).

(** The BY parts select e in the interval that starts at s. *)
Definition selects (r : rule) (s e : dt) : Prop :=
  same_kind s e /\ clock_ok r s e /\
  match rFreq r with
  | WEEKLY => week_days r (ymd s) (ymd e)
  | MONTHLY => listed (rByMonth r) (fun n => mMonth s = n) /\ month_days r (mYear s) (mMonth s) (mDay s) (ymd e)
  | YEARLY => year_days r s (ymd e)
  | _ => ymd e = ymd s /\ day_passes r (ymd s)
  end.

(** x is the time of a selected e, not before the start a and not after UNTIL. *)
Definition by_instances (sc : scale) (r : rule) (lim : option Z) (start : dt) (a x : Z) : Prop :=
  a <= x /\ (forall c, lim = Some c -> x <= c) /\
  exists k s e, 0 <= k /\ interval_at sc r start a k s /\ selects r s e /\ instant sc e x.

(** The parts that the code handles as the RFC says. *)
Definition by_ok (sc : scale) (r : rule) : Prop :=
  in_ranges r /\ rUseCount r = false /\ ~ given (rBySetPos r) /\ all_in (fun n => n <= 59) (rBySeconds r) /\
  (sc = Dates -> hours_free (rFreq r) = true /\ ~ given (rByHours r) /\ ~ given (rByMinutes r) /\ ~ given (rBySeconds r)) /\
  (step_months r <> None -> ~ given (rByYearDay r)) /\
  (rFreq r = YEARLY -> ~ given (rByWeekNo r) /\ (yearly_by_month r \/ all_in (fun nw => Z.abs (fst nw) <= 52) (rByDay r))).

(** A call of expand with such a rule in the years 1902 to 2099: the first intervals after the
    end of the window must still start in these years. *)
Definition by_call (sc : scale) (off : Z) (r : rule) (start : dt) (range : period) (lim : option Z) (a w b : Z) : Prop :=
  sc <> Offsets /\ hasBy r = true /\ by_ok sc r /\ instant sc start a /\ 1902 <= mYear start /\
  (exists e, snd (getEnd range) = Ok e /\ instant sc e b /\
     exists k s, 0 <= k /\ interval_at sc r start a k s /\ mYear e < mYear s <= 2099) /\
  instant sc (pStart range) w /\ until_at sc start off r lim.

(** No part expands the intervals: DAILY and finer, with clock parts only for the units of the
    frequency and coarser ones. *)
Definition only_limits (r : rule) : Prop :=
  (hours_free (rFreq r) = false \/ rFreq r = DAILY) /\
  (hours_free (rFreq r) = true -> ~ given (rByHours r)) /\
  (minutes_free (rFreq r) = true -> ~ given (rByMinutes r)) /\
  (seconds_free (rFreq r) = true -> ~ given (rBySeconds r)).

(** The list holds exactly the instants with P, in order; some perhaps several times. *)
Definition lists_in_order (sc : scale) (l : list dt) (P : Z -> Prop) : Prop :=
  exists xs, Forall2 (instant sc) l xs /\ StronglySorted Z.le xs /\ forall x, In x xs <-> P x.

(** In the years of the calls above, a later clock reading in a zone is a later point in time. *)
Definition clock_ordered (tzo : tzid -> Z -> Z -> Z -> Z -> Z -> Z -> bool -> bool -> Z) (sc : scale) : Prop :=
  forall d e x y p q, instant sc d x -> instant sc e y -> same_zone d e -> 1901 <= mYear d <= 2100 -> 1901 <= mYear e <= 2100 ->
  snd (getPosixTime tzo (rebuilt d)) = Ok p -> snd (getPosixTime tzo (rebuilt e)) = Ok q -> x < y -> p < q.
(** The offset of a zone changes by less than a day. *)
Definition small_changes (tzo : tzid -> Z -> Z -> Z -> Z -> Z -> Z -> bool -> bool -> Z) : Prop :=
  forall t y m d h mi s y' m' d' h' mi' s',
    Z.abs (tzo t y m d h mi s true false - tzo t y' m' d' h' mi' s' true false) < 86400.
