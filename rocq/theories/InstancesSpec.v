(** What the theorems about the tool that prints instances are stated with. *)
From Verif Require Export CalSpec DateTimeSpec DateTimeSpec2 PeriodSpec RecurSpec RecurExpandSpec RecurSetSpec RecurByPartsSpec InstancesModel.

(** The scale of a time that was read: a date, or a time in UTC or without a time zone. *)
Definition kind (d : dt) : scale := if mDateOnly d then Dates else InZone (mTZUTC d) TzNone.
(** The same day of the year a hundred years later, or 1 March instead of a 29 February that is missing. *)
Definition century (d e : dt) : Prop :=
  same_kind d e /\ (mHours e, mMinutes e, mSeconds e) = (mHours d, mMinutes d, mSeconds d) /\ mYear e = mYear d + 100 /\
  (valid_date hist_leap (mYear d + 100, mMonth d, mDay d) -> (mMonth e, mDay e) = (mMonth d, mDay d)) /\
  (~ valid_date hist_leap (mYear d + 100, mMonth d, mDay d) -> (mMonth d, mDay d) = (2, 29) /\ (mMonth e, mDay e) = (3, 1)).
(** Words with a comma and a blank between them. *)
Definition with_commas (l : list bytes) : bytes := match l with [] => [] | w :: r => w ++ flat_map (fun v => lit ", " ++ v) r end.
(** What is printed for a start and a rule with these instances. *)
Definition printed (d : dt) (rrule : bytes) (items : list dt) : list bytes :=
  [lit "DTSTART:" ++ getText d; lit "RRULE:" ++ rrule; lit "Instances: " ++ with_commas (map getText items)].
