(** Vocabulary for statements about periods: instants as numbers. *)
From Verif Require Import PyBase CalSpec DateTimeModel DateTimeSpec DateTimeSpec2.

(** The kinds of date-time values whose order is an order of instants: times in one zone
    (civil time), dates, and times in UTC or numeric zones. *)
Inductive scale : Set := InZone (utc : bool) (t : tzid) | Dates | Offsets.

(** [instant sc d n]: d is a valid value of kind sc and lies n seconds (n days for dates)
    after 1970-01-01, counted day by day on the calendar. *)
Definition instant (sc : scale) (d : dt) (n : Z) : Prop :=
  valid_dt d /\
  match sc with
  | InZone u t => mDateOnly d = false /\ mTZUTC d = u /\ mTZID d = t /\
      exists k, days_between hist_leap (1970, 1, 1) (ymd d) k /\ n = 86400 * k + secs_of_day d
  | Dates => mDateOnly d = true /\ days_between hist_leap (1970, 1, 1) (ymd d) n
  | Offsets => mDateOnly d = false /\ 1901 <= mYear d <= 2100 /\
      mTZOffset d = None /\ mPosixTimeCached d = false /\
      exists k o, fixed_zone d o /\ days_between hist_leap (1970, 1, 1) (ymd d) k /\
                  n = 86400 * k + secs_of_day d - o
  end.

(** The zone of d can be written in the given syntax. *)
Definition zone_ok (full : bool) (d : dt) : Prop :=
  mDateOnly d = false -> mTZUTC d = false -> match mTZID d with TzInt n => full = true /\ off_ok n | _ => True end.

