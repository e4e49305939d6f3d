(** Model of Calendar.deriveComponent (icalendar/calendar.py:336-390) and of making a property from a date
    (icalendar/property.py:187-204, 288-300).  Line numbers are those of calendar.py unless another file is named.
    Definitions only. *)
From Verif Require Export TimingModel DupModel.

(** icalendar/property.py:288-300: Property(name, date).  With a numeric zone the parameter would hold a number; such a
    date cannot come from text, and the parameter is empty here. *)
Definition date_prop (name : bytes) (d : dt) : prop :=
  let v := Some (Single (VDateTime d)) in
  let ps := setupValueParameter name [] v in
  mkProp name (if negb (mDateOnly d) && local d
               then add_param (lit "TZID") (lit "TZID", [match mTZID d with TzName n => n | _ => [] end]) ps else ps) v.

Section WithTz.
Variable tzo : tzid -> Z -> Z -> Z -> Z -> Z -> Z -> bool -> bool -> Z.

(** 369-374: recurrenceID.duplicate(), adjusted to the start of the master. *)
Definition derived_start (start rid : dt) : dt :=
  if negb (mDateOnly start) then if local start then adjustTimezone tzo rid (mTZUTC start) (mTZID start) else rid
  else setDateOnly rid true.

(** 354-362. *)
Definition strip_recurrence (ps : props) : props :=
  removeProperties (lit "RECURRENCE-ID") (removeProperties (lit "EXDATE") (removeProperties (lit "EXRULE")
    (removeProperties (lit "RDATE") (removeProperties (lit "RRULE") ps)))).
(** 376-385: the properties, with the start and, unless it is a component with DURATION, the end. *)
Definition derived_props (ps : props) (d : dt) (e : option dt) : props :=
  let ps := removeProperties (lit "DTEND") (removeProperties (lit "DTSTART") (strip_recurrence ps)) in
  let ps := addProperty (date_prop (lit "DTSTART") d) ps in
  let ps := match e with Some e => addProperty (date_prop (lit "DTEND") e) ps | None => ps end in
  addProperty (date_prop (lit "RECURRENCE-ID") d) ps.

(** 347-390 for the master c with timing t: the new component and its timing.  The timing of the copy is that of the
    master (componentrecur.py:99-126; its recurrence set is loaded again, and once more by finalise).  VPOLL and the
    like do not come here: masterComponent gives a ComponentRecur. *)
Definition derive (uuid : list nat -> bytes) (c : comp) (t : timing) (rid : dt) : res (comp * timing) :=
  do copy <- duplicate uuid [] c;
  do n <- subDateTime tzo (tEnd t) (tStart t);
  let d := derived_start (tStart t) rid in
  let e := if tDuration t then None else Some (addSeconds d (getTotalSeconds (setDuration n))) in
  let '(Comp k s ps subs) := copy in
  let ps := derived_props ps d e in
  do new <- finalise tzo (Comp k s ps subs);
  do t' <- timing_finalise k ps t;
  Ok (new, t').
(** 336-390. *)
Definition deriveComponent (uuid : list nat -> bytes) (c : cal) (tim : nat -> timing) (rid : dt) : res (option (comp * timing)) :=
  match masterComponent c with
  | None => Ok None
  | Some i => do r <- derive uuid (heap c i) (tim i) rid; Ok (Some r)
  end.
End WithTz.
