(** What C59 says: the component that deriveComponent makes. *)
From Verif Require Export DeriveModel.
From Verif Require Import PyBase DateTimeModel DateTimeSpec DateTimeSpec2 PeriodModel PeriodSpec PropertyModel DupSpec TimingSpec ValidateSpec RecurUnionSpec.

(** There is one property with this name.  Its value is the date d, and it has the parameters that say so: VALUE=DATE for a
    date, and the name of the zone for a time that has one. *)
Definition one_date (name : bytes) (ps : props) (d : dt) : Prop :=
  exists p, getProperties name ps = [p] /\ pName p = name /\ pValue p = Some (Single (VDateTime d)) /\
    ((forall n, mTZID d <> TzInt n) -> forall key, PropertyModel.assoc key (pParams p) =
      if mDateOnly d then if beq key (lit "VALUE") then Some [(lit "VALUE", [lit "DATE"])] else None
      else match mTZUTC d, mTZID d with
           | false, TzName (z :: zs) => if beq key (lit "TZID") then Some [(lit "TZID", [z :: zs])] else None
           | _, _ => None
           end).
(** e is n seconds after d, by the clock of d. *)
Definition after (d : dt) (n : Z) (e : dt) : Prop := forall sc x, sc <> Offsets -> instant sc d x -> instant sc e (later sc x n).
(** The value of the first DURATION. *)
Definition has_duration (ps : props) (du : dur) : Prop :=
  exists p l, getProperties (lit "DURATION") ps = p :: l /\ pValue p = Some (Single (VDuration du)).

Definition rules_and_dates : list bytes := [lit "RRULE"; lit "RDATE"; lit "EXRULE"; lit "EXDATE"].
Definition times : list bytes := [lit "DTSTART"; lit "DTEND"; lit "RECURRENCE-ID"].

(** new, with timing t', is the master c with timing t as a single component that starts at d and lasts n seconds, or as
    long as its DURATION says. *)
Definition derived (c : comp) (t : timing) (n : Z) (d : dt) (new : comp) (t' : timing) : Prop :=
  cKind new = cKind c /\ getUID new = getUID c /\ Forall2 copy_of (cSubs c) (cSubs new) /\
  (forall name, ~ In name (rules_and_dates ++ times) -> getProperties name (cProps new) = getProperties name (cProps c)) /\
  (forall name, In name rules_and_dates -> getProperties name (cProps new) = []) /\
  one_date (lit "DTSTART") (cProps new) d /\ one_date (lit "RECURRENCE-ID") (cProps new) d /\
  getRecurrenceID new = Some d /\
  tHasStart t' = true /\ tStart t' = d /\ tHasRid t' = true /\ tRid t' = Some d /\ tFuture t' = false /\ tPrior t' = false /\
  isRecurring t' = false /\
  if tDuration t
  then getProperties (lit "DTEND") (cProps new) = [] /\
       (getProperties (lit "DUE") (cProps c) = [] \/ cKind c <> VTODO ->
        exists du, has_duration (cProps c) du /\ after d (getTotalSeconds du) (tEnd t'))
  else exists e, one_date (lit "DTEND") (cProps new) e /\ after d n e /\
       (getProperties (lit "DUE") (cProps c) = [] /\ getProperties (lit "DURATION") (cProps c) = [] \/ cKind c <> VTODO -> tEnd t' = e).

(** The first component of the calendar that can recur and is not an override. *)
Definition first_master (c : cal) (i : nat) : Prop :=
  exists l r, held c = l ++ i :: r /\ is_recur (cKind (heap c i)) = true /\ getRecurrenceID (heap c i) = None /\
    Forall (fun j => is_recur (cKind (heap c j)) = true -> getRecurrenceID (heap c j) <> None) l.
(** The component and its timing are as finalise leaves them. *)
Definition finalised (c : comp) (t : timing) : Prop :=
  (exists t0, timing_finalise (cKind c) (cProps c) t0 = Ok t) /\ load_uid (cState c) (cProps c) = getUID c.

(** One of these starts at p and ends at q. *)
Definition takes_place (sc : scale) (xs : list expanded) (p q : Z) : Prop :=
  exists x, In x xs /\ instant sc (xStart x) p /\ instant sc (xEnd x) q.
