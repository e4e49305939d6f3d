(** More vocabulary for statements about DateTime values: comparison, text, caches. *)
From Verif Require Import PyBase CalSpec DateTimeModel DateTimeSpec.

(** The answers of the six comparison operators when b is x units of time after a. *)
Definition all_ops (tzo : tzid -> Z -> Z -> Z -> Z -> Z -> Z -> bool -> bool -> Z) (a b : dt) (x : Z) : Prop :=
  dt_lt tzo a b = Ok (0 <? x) /\ dt_le tzo a b = Ok (0 <=? x) /\ dt_gt tzo a b = Ok (x <? 0) /\
  dt_ge tzo a b = Ok (x <=? 0) /\ dt_eq tzo a b = Ok (x =? 0) /\ dt_ne tzo a b = Ok (negb (x =? 0)).

(** The zones of the two values are the same one. *)
Definition same_zone (a b : dt) : Prop := mTZUTC a = mTZUTC b /\ mTZID a = mTZID b.

(** Comparable without the posix time: same zone, or one of them floating (no zone). *)
Definition field_comparable (a b : dt) : Prop :=
  same_zone a b \/ floating a = true \/ floating b = true.

(** Values that are in UTC or in a zone given as a number of seconds. *)
Definition fixed_zone (d : dt) (o : Z) : Prop :=
  floating d = false /\ (mTZUTC d = true /\ o = 0 \/ mTZUTC d = false /\ mTZID d = TzInt o).

(** An object with the same visible fields whose caches are empty. *)
Definition rebuilt (d : dt) : dt :=
  mkDT (mYear d) (mMonth d) (mDay d) (mHours d) (mMinutes d) (mSeconds d) (mDateOnly d) (mTZUTC d) (mTZID d) None false 0.

(** Each field fits its columns in the text. *)
Definition printable (d : dt) : Prop :=
  0 <= mYear d <= 9999 /\ 0 <= mMonth d <= 99 /\ 0 <= mDay d <= 99 /\
  0 <= mHours d <= 99 /\ 0 <= mMinutes d <= 99 /\ 0 <= mSeconds d <= 99.

(** What the text says about the value: date-only values lose their zone (and time);
    a UTC value loses its TZID, and TZID names are not part of the text. *)
Definition said (d : dt) : dt :=
  if mDateOnly d then newDate (mYear d) (mMonth d) (mDay d) false TzNone
  else newDateTime (mYear d) (mMonth d) (mDay d) (mHours d) (mMinutes d) (mSeconds d) (mTZUTC d)
         (if mTZUTC d then TzNone else match mTZID d with TzInt n => TzInt n | _ => TzNone end).

(** Offsets that fit in +hhmm. *)
Definition off_ok (n : Z) : Prop := n mod 60 = 0 /\ Z.abs n < 360000.

(** The clock of the value reads x seconds after midnight of 1 January 1970. *)
Definition clock_reads (d : dt) (x : Z) : Prop :=
  exists k, days_between hist_leap (1970, 1, 1) (ymd d) k /\
            x = 86400 * k + 3600 * mHours d + 60 * mMinutes d + mSeconds d.
(** Seconds by which the zone (u says UTC, otherwise t) is ahead of UTC when its clock shows d. *)
Definition zone_offset (tzo : tzid -> Z -> Z -> Z -> Z -> Z -> Z -> bool -> bool -> Z) (z : bool * tzid) (d : dt) : Z :=
  if fst z then 0
  else match snd z with
       | TzInt n => n
       | t => tzo t (mYear d) (mMonth d) (mDay d) (mHours d) (mMinutes d) (mSeconds d) (mDateOnly d) false
       end.
(** The zone in which d is read beside o: its own; a floating d is in the zone of o; two floating
    values are both in UTC. *)
Definition zone_for (d o : dt) : bool * tzid :=
  if floating d then if floating o then (true, TzNone) else (mTZUTC o, mTZID o)
  else (mTZUTC d, mTZID d).

(** The columns of an accepted iCalendar date or date-time: four of year, two each of month and day (the last
    number of the text may be one column short), T, hours, minutes and seconds, and Z for UTC. *)
Inductive dt_columns (s : bytes) : Z * Z * Z -> option (Z * Z * Z * bool) -> Prop :=
| cols_date yy mm dd y m d : s = yy ++ mm ++ dd ->
    List.length yy = 4%nat -> List.length mm = 2%nat -> (1 <= List.length dd <= 2)%nat ->
    pyint yy = Ok y -> pyint mm = Ok m -> pyint dd = Ok d ->
    dt_columns s (y, m, d) None
| cols_time yy mm dd hh mi ss (z : bool) y m d h n x :
    s = yy ++ mm ++ dd ++ lit "T" ++ hh ++ mi ++ ss ++ (if z then lit "Z" else []) ->
    List.length yy = 4%nat -> List.length mm = 2%nat -> List.length dd = 2%nat ->
    List.length hh = 2%nat -> List.length mi = 2%nat -> (if z then List.length ss = 2 else 1 <= List.length ss <= 2)%nat ->
    pyint yy = Ok y -> pyint mm = Ok m -> pyint dd = Ok d ->
    pyint hh = Ok h -> pyint mi = Ok n -> pyint ss = Ok x ->
    dt_columns s (y, m, d) (Some (h, n, x, z)).
