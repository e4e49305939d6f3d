(** Model of the editing of times and recurrences of a recurring component: icalendar/componentrecur.py:374-390, 503-620.
    The component is its properties and its cached times.  What is changed before an exception stays changed, so every
    function gives the state afterwards and how it ended.  Line numbers are those of componentrecur.py unless another file
    is named.  Definitions only. *)
From Verif Require Export DeriveModel.

Definition edited : Set := props * timing.
(** The fields that the functions set. *)
Definition set_times (t : timing) (hs : bool) (s : dt) (he : bool) (e : dt) (du : bool) : timing :=
  mkTiming (tStamp t) hs s he e du (tHasRid t) (tRid t) (tFuture t) (tPrior t) (tSet t).
(** 512-515 and the like. *)
Definition strip_times (ps : props) : props :=
  removeProperties (lit "DUE") (removeProperties (lit "DURATION") (removeProperties (lit "DTEND") (removeProperties (lit "DTSTART") ps))).
(** icalendar/property.py:332-337: Property(name, duration). *)
Definition duration_prop (name : bytes) (d : dur) : prop :=
  let v := Some (Single (VDuration d)) in mkProp name (setupValueParameter name [] v) v.
(** icalendar/property.py:346-351: Property(name, recurrence). *)
Definition recur_prop (name : bytes) (r : rule) : prop :=
  let v := Some (Single (VRecur r)) in mkProp name (setupValueParameter name [] v) v.

(** 503-515.  setToday (datetime.py:662-664) calls copy_ICalendarDateTime, which does not exist. *)
Definition editTiming (c : edited) : edited * res unit :=
  let '(ps, t) := c in ((ps, set_times t false (tStart t) false (tEnd t) false), Raise AttributeError).

(** 517-533.  The date is shared by mStart, mEnd and the property; it is a value here. *)
Definition editTimingDue (due : dt) (c : edited) : edited * res unit :=
  let '(ps, t) := c in ((addProperty (date_prop (lit "DUE") due) (strip_times ps), set_times t false due true due false), Ok tt).

Section WithTz.
Variable tzo : tzid -> Z -> Z -> Z -> Z -> Z -> Z -> bool -> bool -> Z.

(** 374-390. *)
Definition fixStartEnd (t : timing) : res timing :=
  if tHasStart t then
    do b <- dt_le tzo (tEnd t) (tStart t);
    if b then
      if mDateOnly (tStart t) then Ok (set_times t true (tStart t) (tHasEnd t) (offsetDay (tStart t) 1) true)
      else Ok (set_times t true (tStart t) (tHasEnd t) (setHHMMSS (offsetDay (tStart t) 1) 0 0 0) false)
    else Ok t
  else Ok t.

(** 535-557. *)
Definition editTimingStartEnd (start e : dt) (c : edited) : edited * res unit :=
  let '(ps, t) := c in
  let t := set_times t true start true e false in
  match fixStartEnd t with
  | Raise x => ((ps, t), Raise x)
  | Ok t =>
    let ps := addProperty (date_prop (lit "DTSTART") start) (strip_times ps) in
    if negb (mDateOnly start) then ((addProperty (date_prop (lit "DTEND") e) ps, t), Ok tt)
    else
      match dt_ne tzo e (offsetDay start 1) with
      | Raise x => ((ps, t), Raise x)
      | Ok true => ((addProperty (date_prop (lit "DTEND") e) ps, t), Ok tt)
      | Ok false => ((ps, t), Ok tt)
      end
  end.
End WithTz.

(** 559-580. *)
Definition editTimingStartDuration (start : dt) (d : dur) (c : edited) : edited * res unit :=
  let '(ps, t) := c in
  let t := set_times t true start false (addSeconds start (getTotalSeconds d)) true in
  let ps := addProperty (date_prop (lit "DTSTART") start) (strip_times ps) in
  if negb (mDateOnly start) || negb (dWeeks d =? 0) || (1 <? dDays d)
  then ((addProperty (duration_prop (lit "DURATION") d) ps, t), Ok tt) else ((ps, t), Ok tt).

(** 582-608: self.getExrules is not an attribute of a component (600). *)
Definition editRecurrenceSet (s : rset) (c : edited) : edited * res unit :=
  let '(ps, t) := c in
  let t := mkTiming (tStamp t) (tHasStart t) (tStart t) (tHasEnd t) (tEnd t) (tDuration t) (tHasRid t) (tRid t) (tFuture t) (tPrior t) (Some s) in
  let ps := removeProperties (lit "EXDATE") (removeProperties (lit "RDATE") (removeProperties (lit "EXRULE") (removeProperties (lit "RRULE") ps))) in
  ((fold_left (fun ps r => addProperty (recur_prop (lit "RRULE") (fst r)) ps) (sRrules s) ps, t), Raise AttributeError).

(** 610-620: a RecurrenceSet has no subtract. *)
Definition excludeRecurrence (start : dt) (c : edited) : edited * res unit :=
  match tSet (snd c) with None => (c, Ok tt) | Some _ => (c, Raise AttributeError) end.
