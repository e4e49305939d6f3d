(** Independent specification of the civil calendar: leap years, month lengths,
    the next day, and the signed number of days between two dates (counted one
    day at a time).  Nothing here refers to the model. *)
From Coq Require Import ZArith List Bool.
Open Scope Z_scope.

(** The Gregorian leap year rule. *)
Definition greg_leap (y : Z) : bool :=
  if y mod 400 =? 0 then true
  else if y mod 100 =? 0 then false
  else y mod 4 =? 0.

(** The rule of the code's documentation: Julian (every 4th year) up to 1752, Gregorian afterwards. *)
Definition hist_leap (y : Z) : bool :=
  if y <? 1753 then y mod 4 =? 0 else greg_leap y.

Definition date := (Z * Z * Z)%type.

Definition month_len (leap : Z -> bool) (y m : Z) : Z :=
  if m =? 2 then (if leap y then 29 else 28)
  else if (m =? 4) || (m =? 6) || (m =? 9) || (m =? 11) then 30
  else 31.

Definition valid_date (leap : Z -> bool) (dd : date) : Prop :=
  let '(y, m, d) := dd in 1 <= m <= 12 /\ 1 <= d <= month_len leap y m.

(** The civil day after a given one. *)
Definition next_day (leap : Z -> bool) (dd : date) : date :=
  let '(y, m, d) := dd in
  if d <? month_len leap y m then (y, m, d + 1)
  else if m <? 12 then (y, m + 1, 1)
  else (y + 1, 1, 1).

(** [b] is [n] days after [a] (before, when n is negative). *)
Definition days_between (leap : Z -> bool) (a b : date) (n : Z) : Prop :=
  (0 <= n /\ Nat.iter (Z.to_nat n) (next_day leap) a = b) \/
  (n < 0 /\ Nat.iter (Z.to_nat (- n)) (next_day leap) b = a).

(** Valid time of day. *)
Definition valid_time (h mi s : Z) : Prop := 0 <= h < 24 /\ 0 <= mi < 60 /\ 0 <= s < 60.

(** The weekday (0 = Sunday ... 6 = Saturday) of a Gregorian date: 1970-01-01 was a
    Thursday (4) and weekdays repeat every seven days. *)
Definition is_weekday (dd : date) (w : Z) : Prop :=
  exists n, days_between greg_leap (1970, 1, 1) dd n /\ w = (4 + n) mod 7.

(** [dd] is the n-th weekday [w] on or after [base] (n = 1, 2, ...). *)
Inductive nth_wd_from (base : date) (w : Z) : Z -> date -> Prop :=
| nth_first dd k : 0 <= k < 7 -> days_between greg_leap base dd k -> is_weekday dd w ->
    nth_wd_from base w 1 dd
| nth_next n dd dd' : nth_wd_from base w n dd -> days_between greg_leap dd dd' 7 ->
    nth_wd_from base w (n + 1) dd'.

(** [dd] is the n-th last weekday [w] on or before [base] (n = 1, 2, ...). *)
Inductive nth_wd_back (base : date) (w : Z) : Z -> date -> Prop :=
| nth_last dd k : valid_date greg_leap dd -> 0 <= k < 7 -> days_between greg_leap dd base k -> is_weekday dd w ->
    nth_wd_back base w 1 dd
| nth_prev n dd dd' : valid_date greg_leap dd' -> nth_wd_back base w n dd -> days_between greg_leap dd' dd 7 ->
    nth_wd_back base w (n + 1) dd'.

(** Weekday number of ISO 8601: Monday = 1 ... Sunday = 7. *)
Definition iso_wd (w : Z) : Z := if w =? 0 then 7 else w.

(** ISO 8601 week number of a date: let [th] be the Thursday of the Monday-to-Sunday
    week that holds the date, and [yy] the year of [th]; weeks are counted from 1
    by the number of Thursdays of [yy] up to [th]. *)
Definition iso_week (dd : date) (wk : Z) : Prop :=
  exists w yy mm d k,
    is_weekday dd w /\
    days_between greg_leap dd (yy, mm, d) (4 - iso_wd w) /\
    valid_date greg_leap (yy, mm, d) /\
    days_between greg_leap (yy, 1, 1) (yy, mm, d) k /\
    wk = k / 7 + 1.

(** The date of weekday [w] in ISO week [n] of year [y]: weeks run from Monday to Sunday
    and week [n] holds the [n]-th Thursday of [y]. *)
Definition iso_week_date (y n w : Z) (dd : date) : Prop :=
  exists th, nth_wd_from (y, 1, 1) 4 n th /\ days_between greg_leap dd th (4 - iso_wd w).
