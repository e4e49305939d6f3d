(** What C62 says: moving a date-time to another time zone. *)
From Verif Require Import PyBase CalSpec DateTimeModel DateTimeSpec DateTimeSpec2 VTimezoneModel VTimezoneSpec.

(** Seconds by which the zone is ahead of UTC when a clock in UTC shows d. *)
Definition utc_offset (tzo : tzid -> Z -> Z -> Z -> Z -> Z -> Z -> bool -> bool -> Z) (z : bool * tzid) (d : dt) : Z :=
  if fst z then 0
  else match snd z with
       | TzInt n => n
       | t => tzo t (mYear d) (mMonth d) (mDay d) (mHours d) (mMinutes d) (mSeconds d) (mDateOnly d) true
       end.
(** What a date-time in this zone is ahead of UTC; a floating one is taken for UTC. *)
Definition ahead (tzo : tzid -> Z -> Z -> Z -> Z -> Z -> Z -> bool -> bool -> Z) (u : bool) (t : tzid) (d : dt) : Z :=
  if negb u && tz_true t then zone_offset tzo (u, t) d else 0.

(** The offset before a change is the one that the last change before it leads to. *)
Definition chained (es : list elem) : Prop :=
  forall x f o y g o', onset es x f o -> onset es y g o' -> x - f < y - g ->
    (forall z h p, onset es z h p -> ~ (x - f < z - h < y - g)) -> g = o.

(** A change has taken place before u (UTC), and the time that the last one repeats on the clock, if any, is over. *)
Definition settled (es : list elem) (u : Z) : Prop :=
  exists x f o, onset es x f o /\ x - f <= u /\ (forall y g p, onset es y g p -> y - g <= u -> y - g <= x - f) /\ f - o <= u - (x - f).
(** The database answers for the zone as its definition says: d shows t on the clock of the question. *)
Definition answers (tzo : tzid -> Z -> Z -> Z -> Z -> Z -> Z -> bool -> bool -> Z) (z : tzid) (es : list elem) (rel : bool) (d : dt) : Prop :=
  forall t, clock_reads d t -> in_force es rel t
    (tzo z (mYear d) (mMonth d) (mDay d) (mHours d) (mMinutes d) (mSeconds d) (mDateOnly d) rel).
