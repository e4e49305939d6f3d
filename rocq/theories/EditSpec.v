(** What C61 says: editing the times of a component. *)
From Verif Require Export EditModel DeriveSpec.
From Verif Require Import PyBase DateTimeModel DateTimeSpec DateTimeSpec2 PeriodModel PeriodSpec PropertyModel TimingSpec ValidateSpec RecurUnionSpec.

Definition time_names : list bytes := [lit "DTSTART"; lit "DTEND"; lit "DURATION"; lit "DUE"].
(** All other properties are kept. *)
Definition others_kept (ps ps' : props) : Prop := forall name, ~ In name time_names -> getProperties name ps' = getProperties name ps.
Definition absent (name : bytes) (ps : props) : Prop := getProperties name ps = [].
(** One property with this name: a duration, without parameters. *)
Definition one_duration (name : bytes) (ps : props) (du : dur) : Prop := getProperties name ps = [mkProp name [] (Some (Single (VDuration du)))].
(** What else is cached stays. *)
Definition rest_kept (t t' : timing) : Prop :=
  tStamp t' = tStamp t /\ tHasRid t' = tHasRid t /\ tRid t' = tRid t /\ tFuture t' = tFuture t /\ tPrior t' = tPrior t /\ tSet t' = tSet t.
(** If finalise accepts the component before, it accepts the new properties, and then the times are these. *)
Definition read_again (k : kind) (ps ps' : props) (P : timing -> Prop) : Prop :=
  forall t0 t1, timing_finalise k ps t0 = Ok t1 -> forall t, exists t2, timing_finalise k ps' t = Ok t2 /\ P t2.
(** From one date to the next. *)
Definition one_day (sc : scale) (x y : Z) : bool := match sc with Dates => y =? x + 1 | _ => false end.
