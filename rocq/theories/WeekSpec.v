(** What C11 is stated with. *)
From Verif Require Export PyBase CalSpec.

(** How many weeks setWeekNo is off, by the weekdays of 1 January and of the date: Sundays are taken for the first day of a week. *)
Definition week_shift (w1 w : Z) : Z := if w =? 0 then (if w1 =? 0 then 0 else -1) else (if w1 =? 0 then 1 else 0).
