(** Vocabulary for statements about recurrence rules. *)
From Coq Require Import Permutation.
From Verif Require Import PyBase DateTimeModel DateTimeSpec DateTimeSpec2 RecurModel.

(** Every element of the list satisfies P; an absent list has none. *)
Definition all_in {A} (P : A -> Prop) (l : option (list A)) : Prop :=
  match l with Some l => Forall P l | None => True end.

(** The numeric ranges of RFC 5545 section 3.3.10 (BYSETPOS, which the RFC limits to 1..366, is
    not limited by the code). *)
Definition in_ranges (r : rule) : Prop :=
  1 <= rInterval r /\
  (rUseCount r = true -> 1 <= rCount r) /\
  all_in (fun n => 0 <= n <= 60) (rBySeconds r) /\
  all_in (fun n => 0 <= n <= 59) (rByMinutes r) /\
  all_in (fun n => 0 <= n <= 23) (rByHours r) /\
  all_in (fun nw => Z.abs (fst nw) <= 53 /\ 0 <= snd nw <= 6) (rByDay r) /\
  all_in (fun n => 1 <= Z.abs n <= 31) (rByMonthDay r) /\
  all_in (fun n => 1 <= Z.abs n <= 366) (rByYearDay r) /\
  all_in (fun n => 1 <= Z.abs n <= 53) (rByWeekNo r) /\
  all_in (fun n => 1 <= n <= 12) (rByMonth r) /\
  0 <= rWeekstart r <= 6.

(** COUNT and UNTIL are exclusive, and set exactly when they are used. *)
Definition limits_ok (r : rule) : Prop :=
  (rUseCount r = true -> rUseUntil r = false) /\
  (rUseCount r = false -> rCount r = 0) /\
  (rUseUntil r = true <-> rUntil r <> None).

(** An UNTIL value that the rule syntax can express: four digit year and two digit fields,
    not in a zone given by a numeric offset. *)
Definition until_ok (d : dt) : Prop :=
  printable d /\ (mDateOnly d = false -> mTZUTC d = false -> forall n, mTZID d <> TzInt n).

Definition rule_ok (r : rule) : Prop :=
  in_ranges r /\ limits_ok r /\ match rUntil r with Some d => until_ok d | None => True end.

(** The same rule with absent and empty lists identified and the UNTIL value as its text
    says it. *)
Definition nonempty {A} (l : option (list A)) : option (list A) :=
  match l with Some [] => None | _ => l end.
Definition canon (r : rule) : rule :=
  mkRule (rFreq r) (rUseCount r) (rCount r) (rUseUntil r) (option_map said (rUntil r)) (rInterval r)
    (nonempty (rBySeconds r)) (nonempty (rByMinutes r)) (nonempty (rByHours r)) (nonempty (rByDay r))
    (nonempty (rByMonthDay r)) (nonempty (rByYearDay r)) (nonempty (rByWeekNo r)) (nonempty (rByMonth r))
    (nonempty (rBySetPos r)) (rWeekstart r).

(** The names of the BY parts. *)
Definition by_names : list bytes :=
  [lit "BYSECOND"; lit "BYMINUTE"; lit "BYHOUR"; lit "BYDAY"; lit "BYMONTHDAY"; lit "BYYEARDAY";
   lit "BYWEEKNO"; lit "BYMONTH"; lit "BYSETPOS"].

(** The elements of a list that may be absent. *)
Definition elems {A} (l : option (list A)) : list A := match l with Some l => l | None => [] end.
(** Same values, in any order. *)
Definition same_values {A} (a b : option (list A)) : Prop := Permutation (elems a) (elems b).

(** The same rule up to the order of the values in each list, apart from UNTIL. *)
Definition same_rule (a b : rule) : Prop :=
  rFreq a = rFreq b /\ rUseCount a = rUseCount b /\ rCount a = rCount b /\ rUseUntil a = rUseUntil b /\
  rInterval a = rInterval b /\ rWeekstart a = rWeekstart b /\
  same_values (rBySeconds a) (rBySeconds b) /\ same_values (rByMinutes a) (rByMinutes b) /\
  same_values (rByHours a) (rByHours b) /\ same_values (rByDay a) (rByDay b) /\
  same_values (rByMonthDay a) (rByMonthDay b) /\ same_values (rByYearDay a) (rByYearDay b) /\
  same_values (rByWeekNo a) (rByWeekNo b) /\ same_values (rByMonth a) (rByMonth b) /\
  same_values (rBySetPos a) (rBySetPos b).
