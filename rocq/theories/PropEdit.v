(** Properties of editing the times of a component: C61. *)
From Coq Require Import Lia.
From Verif Require Import PyBase PyProofs CalSpec DateTimeModel DateTimeSpec DateTimeSpec2 DurationModel PeriodModel PeriodSpec PropertyModel ComponentModel CalendarModel RecurModel
  RecurExpand RecurSetModel RecurUnionSpec TimingModel TimingSpec ValidateSpec DeriveModel DeriveSpec EditModel EditSpec EditProofs CalendarSpec PropComponent PropCalendar PropRecur2 PropRecur4 PropRecur5 PropTiming PropDerive.

(** editTimingStartEnd with a start before the end: the component has the start as its only DTSTART and the end as its only
    DTEND (none if it is from one date to the next), neither DURATION nor DUE, and otherwise the properties it had.  The times
    it has cached are the same, and they are those that finalise finds in the new properties. *)
Theorem C61_start_end : forall tzo sc start e x y ps t, tidy_props ps -> instant sc start x -> instant sc e y -> x < y ->
  exists ps' t', editTimingStartEnd tzo start e (ps, t) = ((ps', t'), Ok tt) /\
    others_kept ps ps' /\ one_date (lit "DTSTART") ps' start /\ absent (lit "DURATION") ps' /\ absent (lit "DUE") ps' /\
    (if one_day sc x y then absent (lit "DTEND") ps' else one_date (lit "DTEND") ps' e) /\
    rest_kept t t' /\ tHasStart t' = true /\ tStart t' = start /\ tHasEnd t' = true /\ tEnd t' = e /\ tDuration t' = false /\
    forall k, read_again k ps ps' (fun t2 => tHasStart t2 = true /\ tStart t2 = start /\ instant sc (tEnd t2) y /\
      tDuration t2 = false /\ tHasEnd t2 = match k with VTODO => false | _ => negb (one_day sc x y) end).
Proof.
  intros tzo sc start e x y ps t T I J L. destruct (start_end_ok tzo sc start e x y ps t T I J L) as (ps' & t' & E & A & B & C & D & F & -> & G).
  exists ps'. eexists. split; [exact E|]. repeat (split; [assumption || (repeat split; reflexivity)|]). exact G.
Qed.
Print Assumptions C61_start_end.

(** editTimingStartDuration: DTSTART and DURATION, and no DTEND and no DUE; no DURATION either if it starts at a date and
    the duration has neither weeks nor more than one day.  The cached end is as long after the start as the duration is, and
    so is the one that finalise finds, unless the duration was dropped and is not one of one day. *)
Theorem C61_start_duration : forall start du ps t, tidy_props ps ->
  exists ps' t', editTimingStartDuration start du (ps, t) = ((ps', t'), Ok tt) /\
    others_kept ps ps' /\ one_date (lit "DTSTART") ps' start /\ absent (lit "DTEND") ps' /\ absent (lit "DUE") ps' /\
    (if negb (mDateOnly start) || negb (dWeeks du =? 0) || (1 <? dDays du) then one_duration (lit "DURATION") ps' du else absent (lit "DURATION") ps') /\
    rest_kept t t' /\ tHasStart t' = true /\ tStart t' = start /\ tHasEnd t' = false /\ tDuration t' = true /\ after start (getTotalSeconds du) (tEnd t') /\
    forall k, read_again k ps ps' (fun t2 => tHasStart t2 = true /\ tStart t2 = start /\
      (mDateOnly start = false \/ dWeeks du <> 0 \/ 1 < dDays du \/ getTotalSeconds du / 86400 = 1 -> after start (getTotalSeconds du) (tEnd t2))).
Proof.
  intros start du ps t T. destruct (start_duration_ok start du ps t T) as (ps' & t' & E & A & B & C & D & F & (e & -> & G) & H).
  exists ps'. eexists. split; [exact E|]. repeat (split; [assumption || (repeat split; reflexivity)|]). exact H.
Qed.
Print Assumptions C61_start_duration.

(** editTimingDue: DUE, and neither DTSTART nor DTEND nor DURATION.  A to-do has that end afterwards. *)
Theorem C61_due : forall due ps t, tidy_props ps ->
  exists ps' t', editTimingDue due (ps, t) = ((ps', t'), Ok tt) /\
    others_kept ps ps' /\ one_date (lit "DUE") ps' due /\ absent (lit "DTSTART") ps' /\ absent (lit "DTEND") ps' /\ absent (lit "DURATION") ps' /\
    rest_kept t t' /\ tHasStart t' = false /\ tHasEnd t' = true /\ tEnd t' = due /\ tDuration t' = false /\
    read_again VTODO ps ps' (fun t2 => tHasStart t2 = false /\ tHasEnd t2 = true /\ tEnd t2 = due).
Proof.
  intros due ps t T. destruct (due_ok due ps t T) as (ps' & t' & E & A & B & C & D & F & -> & G).
  exists ps'. eexists. split; [exact E|]. repeat (split; [assumption || (repeat split; reflexivity)|]). exact G.
Qed.
Print Assumptions C61_due.

(** ** Examples *)
(** The only component of this text is edited; then its lines, its cached start and end, with whether it has an end, how the
    call ended, and the same times as finalise finds them. *)
Definition seen (t : timing) := (visible (tStart t), tHasEnd t, visible (tEnd t)).
Definition edit (f : edited -> edited * res unit) (l : list bytes) :=
  let c := object_of (read l) 0 in
  let '((ps, t), r) := f (cProps c, timings (read l) 0) in
  match generate fl0 (Comp (cKind c) (cState c) ps (cSubs c)), timing_finalise (cKind c) ps new_timing with
  | Some (Ok s), Ok t2 => Some (s, seen t, r, seen t2)
  | _, _ => None
  end.
Definition day (d : Z) : dt := newDate 1970 1 d false TzNone.
Definition hours n : dur := mkDur true 0 0 n 0 0.
Definition days n : dur := mkDur true 0 n 0 0 0.
Definition old : list bytes := vevent [lit "DTSTART:19700101T090000Z"; lit "DURATION:PT1H"; lit "SUMMARY:s"].
Lemma old_tidy : tidy_props (cProps (object_of (read old) 0)).
Proof. split; [repeat constructor; no_in|]. repeat constructor; discriminate. Qed.
Example C61_start_end_ex : tidy_props (cProps (object_of (read old) 0)) /\
  instant (InZone true TzNone) (utc 1970 1 3 9) 205200 /\ instant (InZone true TzNone) (utc 1970 1 3 11) 212400 /\
  edit (editTimingStartEnd no_zones (utc 1970 1 3 9) (utc 1970 1 3 11)) old =
    Some (lines [lit "BEGIN:VEVENT"; lit "UID:a"; lit "DTSTART:19700103T090000Z"; lit "DTEND:19700103T110000Z"; lit "SUMMARY:s"; lit "END:VEVENT"],
          (visible (utc 1970 1 3 9), true, visible (utc 1970 1 3 11)), Ok tt, (visible (utc 1970 1 3 9), true, visible (utc 1970 1 3 11))) /\
  edit (editTimingStartEnd no_zones (day 3) (day 5)) old =
    Some (lines [lit "BEGIN:VEVENT"; lit "UID:a"; lit "DTSTART;VALUE=DATE:19700103"; lit "DTEND;VALUE=DATE:19700105"; lit "SUMMARY:s"; lit "END:VEVENT"],
          (visible (day 3), true, visible (day 5)), Ok tt, (visible (day 3), true, visible (day 5))).
Proof. split; [exact old_tidy|]. split; [apply (utc_jan 3 9); lia|]. split; [apply (utc_jan 3 11); lia|]. split; vm_compute; reflexivity. Qed.
Example C61_start_duration_ex : tidy_props (cProps (object_of (read old) 0)) /\
  edit (editTimingStartDuration (utc 1970 1 3 9) (hours 2)) old =
    Some (lines [lit "BEGIN:VEVENT"; lit "UID:a"; lit "DTSTART:19700103T090000Z"; lit "DURATION:PT2H"; lit "SUMMARY:s"; lit "END:VEVENT"],
          (visible (utc 1970 1 3 9), false, visible (utc 1970 1 3 11)), Ok tt, (visible (utc 1970 1 3 9), false, visible (utc 1970 1 3 11))) /\
  edit (editTimingStartDuration (day 3) (days 2)) old =
    Some (lines [lit "BEGIN:VEVENT"; lit "UID:a"; lit "DTSTART;VALUE=DATE:19700103"; lit "DURATION:P2D"; lit "SUMMARY:s"; lit "END:VEVENT"],
          (visible (day 3), false, visible (day 5)), Ok tt, (visible (day 3), false, visible (day 5))) /\
  edit (editTimingStartDuration (day 3) (days 1)) old =
    Some (lines [lit "BEGIN:VEVENT"; lit "UID:a"; lit "DTSTART;VALUE=DATE:19700103"; lit "SUMMARY:s"; lit "END:VEVENT"],
          (visible (day 3), false, visible (day 4)), Ok tt, (visible (day 3), false, visible (day 4))).
Proof. split; [exact old_tidy|]. split; [|split]; vm_compute; reflexivity. Qed.
Definition task : list bytes := vtodo [lit "DTSTART:19700101T090000Z"; lit "DUE:19700102T090000Z"; lit "SUMMARY:s"].
Example C61_due_ex : tidy_props (cProps (object_of (read task) 0)) /\
  exists s t, edit (editTimingDue (utc 1970 1 3 9)) task =
    Some (lines [lit "BEGIN:VTODO"; lit "UID:a"; lit "DUE:19700103T090000Z"; lit "SUMMARY:s"; lit "END:VTODO"], (s, true, visible (utc 1970 1 3 9)), Ok tt, (t, true, visible (utc 1970 1 3 9))).
Proof. split; [split; [repeat constructor; no_in|]; repeat constructor; discriminate|]. do 2 eexists. vm_compute. reflexivity. Qed.

(** ** What does not hold *)

(** editTiming is to remove the times.  It raises, and leaves the properties; the component no longer has a start in memory. *)
Theorem C61_none_refuted : exists ps t t', tHasStart t = true /\ getProperties (lit "DTSTART") ps <> [] /\
  editTiming (ps, t) = ((ps, t'), Raise AttributeError) /\ tHasStart t' = false.
Proof. exists (cProps (object_of (read old) 0)), (timings (read old) 0). eexists. split; [reflexivity|]. split; [discriminate|]. split; [vm_compute; reflexivity|]. vm_compute. reflexivity. Qed.
Print Assumptions C61_none_refuted.

(** An end that is not after the start is replaced in memory, and written as it was given. *)
Theorem C61_order_refuted : exists start e l,
  edit (editTimingStartEnd no_zones start e) l =
    Some (lines [lit "BEGIN:VEVENT"; lit "UID:a"; lit "DTSTART:19700103T090000Z"; lit "DTEND:19700103T080000Z"; lit "SUMMARY:s"; lit "END:VEVENT"],
          (visible (utc 1970 1 3 9), true, visible (utc 1970 1 4 0)), Ok tt, (visible (utc 1970 1 3 9), true, visible (utc 1970 1 3 8))).
Proof. exists (utc 1970 1 3 9), (utc 1970 1 3 8), old. vm_compute. reflexivity. Qed.
Print Assumptions C61_order_refuted.

(** From one date to the next: the component has an end in memory, and none when it is read again, so that its
    recurrences last a day before and no time at all after. *)
Theorem C61_one_day_refuted : exists start e l s x y, instant Dates start x /\ instant Dates e y /\ x < y /\
  edit (editTimingStartEnd no_zones start e) l = Some (s, (visible start, true, visible e), Ok tt, (visible start, false, visible e)).
Proof.
  exists (day 3), (day 4), old. eexists. exists 2, 3.
  assert (I : instant Dates (day 3) 2 /\ instant Dates (day 4) 3) by (split; (split; [repeat split; vm_compute; congruence|split; [reflexivity|left; split; [lia|reflexivity]]])).
  split; [apply I|]. split; [apply I|]. split; [lia|]. vm_compute. reflexivity.
Qed.
Print Assumptions C61_one_day_refuted.

(** A duration of forty-eight hours is lost if the start is a date: two days become one. *)
Theorem C61_hours_refuted : exists start du l, getTotalSeconds du = 2 * 86400 /\
  edit (editTimingStartDuration start du) l =
    Some (lines [lit "BEGIN:VEVENT"; lit "UID:a"; lit "DTSTART;VALUE=DATE:19700103"; lit "SUMMARY:s"; lit "END:VEVENT"],
          (visible (day 3), false, visible (day 5)), Ok tt, (visible (day 3), false, visible (day 4))).
Proof. exists (day 3), (hours 48), old. split; vm_compute; reflexivity. Qed.
Print Assumptions C61_hours_refuted.

(** A to-do gets DTEND, which it cannot have, and has no end when it is read again. *)
Theorem C61_to_do_refuted : exists start e l,
  edit (editTimingStartEnd no_zones start e) l =
    Some (lines [lit "BEGIN:VTODO"; lit "UID:a"; lit "DTSTART:19700103T090000Z"; lit "DTEND:19700103T110000Z"; lit "SUMMARY:s"; lit "END:VTODO"],
          (visible (utc 1970 1 3 9), true, visible (utc 1970 1 3 11)), Ok tt, (visible (utc 1970 1 3 9), false, visible (utc 1970 1 3 11))).
Proof. exists (utc 1970 1 3 9), (utc 1970 1 3 11), task. vm_compute. reflexivity. Qed.
Print Assumptions C61_to_do_refuted.

(** editRecurrenceSet raises.  Even if it is given the recurrence set of the component itself, the dates and the exclusions
    are gone from the component afterwards. *)
Theorem C61_recurrence_set_refuted : exists l s, tSet (timings (read l) 0) = Some s /\ exists a b,
  edit (editRecurrenceSet s) l = Some (lines [lit "BEGIN:VEVENT"; lit "UID:a"; lit "DTSTART:19700101T090000Z"; lit "RRULE:FREQ=DAILY;COUNT=5"; lit "END:VEVENT"], a, Raise AttributeError, b) /\
  getProperties (lit "EXDATE") (cProps (object_of (read l) 0)) <> [] /\ getProperties (lit "RDATE") (cProps (object_of (read l) 0)) <> [].
Proof.
  exists (timed [lit "RRULE:FREQ=DAILY;COUNT=5"; lit "EXDATE:19700102T090000Z"; lit "RDATE:19700110T090000Z"]). eexists. split; [vm_compute; reflexivity|].
  do 2 eexists. split; [vm_compute; reflexivity|]. split; vm_compute; discriminate.
Qed.
Print Assumptions C61_recurrence_set_refuted.

(** excludeRecurrence raises for any component that recurs, and changes nothing. *)
Theorem C61_exclude_refuted : exists l d a b, isRecurring (timings (read l) 0) = true /\
  edit (excludeRecurrence d) l = Some (lines l, a, Raise AttributeError, b).
Proof. exists (timed [lit "RRULE:FREQ=DAILY;COUNT=5"]), (utc 1970 1 2 9). do 2 eexists. split; [reflexivity|]. vm_compute. reflexivity. Qed.
Print Assumptions C61_exclude_refuted.
