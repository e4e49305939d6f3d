(** Vocabulary for statements about DateTime values: the visible fields, and when
    they are valid.  The calendar notions come from CalSpec. *)
From Verif Require Import PyBase CalSpec DateTimeModel.

(** The date part of a value. *)
Definition ymd (d : dt) : date := (mYear d, mMonth d, mDay d).
(** Seconds since midnight. *)
Definition secs_of_day (d : dt) : Z := (mHours d * 60 + mMinutes d) * 60 + mSeconds d.
(** All visible fields of a DateTime (everything except the caches). *)
Definition visible (d : dt) := (ymd d, (mHours d, mMinutes d, mSeconds d), mDateOnly d, mTZUTC d, mTZID d).
(** A value whose fields are in range; a date-only value has a zero time. *)
Definition valid_dt (d : dt) : Prop :=
  valid_date hist_leap (ymd d) /\ valid_time (mHours d) (mMinutes d) (mSeconds d) /\
  (mDateOnly d = true -> secs_of_day d = 0).
