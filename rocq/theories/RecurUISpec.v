(** Vocabulary for statements about what rules and recurrence sets tell user interfaces. *)
From Verif Require Import PyBase DateTimeModel PeriodModel RecurModel RecurExpand RecurSetModel.

(** A BY part that is not there, or has no entries. *)
Definition no_part {A} (l : option (list A)) : Prop := l = None \/ l = Some [].
(** Its entries satisfy P. *)
Definition part_all {A} (P : A -> Prop) (l : option (list A)) : Prop := forall x m, l = Some m -> In x m -> P x.

(** Only FREQ, INTERVAL, COUNT, UNTIL and WKST. *)
Definition simple_rule (r : rule) : Prop :=
  no_part (rBySeconds r) /\ no_part (rByMinutes r) /\ no_part (rByHours r) /\ no_part (rByDay r) /\ no_part (rByMonthDay r) /\
  no_part (rByYearDay r) /\ no_part (rByWeekNo r) /\ no_part (rByMonth r) /\ no_part (rBySetPos r).
(** BYMONTH in any way; BYMONTHDAY with days 1 to 31 and -7 to -1; BYDAY with one number for all days, at most 4 and at least -2 (0: none);
    BYSETPOS with 1 or -1 alone; no other BY part. *)
Definition advanced_rule (r : rule) : Prop :=
  no_part (rBySeconds r) /\ no_part (rByMinutes r) /\ no_part (rByHours r) /\ no_part (rByYearDay r) /\ no_part (rByWeekNo r) /\
  part_all (fun d => 1 <= d <= 31 \/ -7 <= d <= -1) (rByMonthDay r) /\
  (exists n, -2 <= n <= 4 /\ part_all (fun day => fst day = n) (rByDay r)) /\
  (no_part (rBySetPos r) \/ rBySetPos r = Some [1] \/ rBySetPos r = Some [-1]).

Definition no_recurrence (s : rset) : Prop :=
  sRrules s = [] /\ sExrules s = [] /\ sRdates s = [] /\ sExdates s = [] /\ sRperiods s = [] /\ sExperiods s = [].
(** One RRULE and nothing else. *)
Definition lone_rule (s : rset) (r : rule) : Prop :=
  (exists c, sRrules s = [(r, c)]) /\ sExrules s = [] /\ sRdates s = [] /\ sExdates s = [] /\ sRperiods s = [] /\ sExperiods s = [].
(** At most one RRULE, with EXDATEs (and EXDATE periods), and nothing else. *)
Definition few_rules (s : rset) : Prop := (sRrules s = [] \/ exists r, sRrules s = [r]) /\ sExrules s = [] /\ sRdates s = [] /\ sRperiods s = [].
