(** Model of validation: componentbase.py:199-262, containerbase.py:64-76, icalendar/componentrecur.py:295-348, the
    validate methods and cardinality tables of the iCalendar component classes, validation.py, icalendar/validation.py.
    Definitions only; vCards are in VCardCheckModel.v. *)
From Verif Require Export ComponentModel.

(** propertyCardinality_1: calendar.py:58-61, vevent.py:27-30, vtodo.py:88-91, vjournal.py:26-29, vfreebusy.py:31-34,
    vtimezone.py:25-27, vtimezoneelement.py:29-33, vavailability.py:25-28, available.py:25-29, vpoll.py:25-29, vvoter.py:24-26,
    vote.py:24-25; for alarms that of mActionData (valarm.py:75-78, 116-119, 157-160, 231-234, 250-254, 288-290, 484), which loadAction chooses by mAction
    (valarm.py:302-308, 623-627; definitions.py:327-334); componentbase.py:31. *)
Definition alarm_once (action : Z) : list bytes :=
  if action =? 5 then [lit "ACTION"; lit "TRIGGER"; lit "URL"]
  else if action =? 6 then [lit "ACTION"]
  else [lit "ACTION"; lit "TRIGGER"].
Definition cardinality_1 (k : kind) (s : cstate) : list bytes :=
  match k with
  | VCALENDAR => [lit "PRODID"; lit "VERSION"]
  | VEVENT | VTODO | VJOURNAL | VFREEBUSY | VAVAILABILITY => [lit "DTSTAMP"; lit "UID"]
  | VTIMEZONE => [lit "TZID"]
  | STANDARD | DAYLIGHT => [lit "DTSTART"; lit "TZOFFSETTO"; lit "TZOFFSETFROM"]
  | AVAILABLE => [lit "DTSTAMP"; lit "DTSTART"; lit "UID"]
  | VPOLL => [lit "DTSTAMP"; lit "UID"; lit "ORGANIZER"]
  | VVOTER => [lit "VOTER"]
  | VALARM => alarm_once (sAction s)
  | VOTE | UNKNOWN _ => []
  end.
(** propertyCardinality_1_Fix_Empty: valarm.py:51, 121-123, 162-165, 485; componentbase.py:32. *)
Definition cardinality_1_Fix_Empty (k : kind) (s : cstate) : list bytes :=
  match k with
  | VALARM => if sAction s =? 1 then [lit "DESCRIPTION"]
              else if sAction s =? 2 then [lit "DESCRIPTION"; lit "SUMMARY"] else []
  | _ => []
  end.
(** propertyCardinality_0_1: calendar.py:63-66, vevent.py:32-50, vtodo.py:93-113, vjournal.py:31-43, vfreebusy.py:36-42,
    vtimezone.py:29-32, vtimezoneelement.py:35-37, vavailability.py:30-44, available.py:31-43, vpoll.py:31-49, vvoter.py:28-34,
    vote.py:27-30, valarm.py:52, 80-85, 125-129, 167-171, 236-240, 256-260, 486; componentbase.py:33. *)
Definition alarm_at_most (action : Z) : list bytes :=
  if action =? 0 then [lit "DURATION"; lit "REPEAT"; lit "ATTACH"; lit "ACKNOWLEDGED"]
  else if action =? 6 then []
  else [lit "DURATION"; lit "REPEAT"; lit "ACKNOWLEDGED"].
Definition cardinality_0_1 (k : kind) (s : cstate) : list bytes :=
  match k with
  | VCALENDAR => [lit "CALSCALE"; lit "METHOD"]
  | VEVENT => [lit "CLASS"; lit "CREATED"; lit "DESCRIPTION"; lit "GEO"; lit "LAST-MODIFIED"; lit "LOCATION"; lit "ORGANIZER";
      lit "PRIORITY"; lit "SEQUENCE"; lit "SUMMARY"; lit "TRANSP"; lit "URL"; lit "RECURRENCE-ID"; lit "RRULE"; lit "DTEND";
      lit "DURATION"]
  | VTODO => [lit "CLASS"; lit "COMPLETED"; lit "CREATED"; lit "DESCRIPTION"; lit "DTSTART"; lit "GEO"; lit "LAST-MODIFIED";
      lit "LOCATION"; lit "ORGANIZER"; lit "PERCENT-COMPLETE"; lit "PRIORITY"; lit "RECURRENCE-ID"; lit "SEQUENCE"; lit "SUMMARY";
      lit "URL"; lit "RRULE"; lit "DUE"; lit "DURATION"]
  | VJOURNAL => [lit "CLASS"; lit "CREATED"; lit "DTSTART"; lit "LAST-MODIFIED"; lit "ORGANIZER"; lit "RECURRENCE-ID";
      lit "SEQUENCE"; lit "SUMMARY"; lit "URL"; lit "RRULE"]
  | VFREEBUSY => [lit "CONTACT"; lit "DTSTART"; lit "DTEND"; lit "ORGANIZER"; lit "URL"]
  | VTIMEZONE => [lit "LAST-MODIFIED"; lit "TZURL"]
  | STANDARD | DAYLIGHT => [lit "RRULE"]
  | VAVAILABILITY => [lit "BUSYTYPE"; lit "CLASS"; lit "CREATED"; lit "DESCRIPTION"; lit "DTSTART"; lit "LAST-MODIFIED";
      lit "ORGANIZER"; lit "SEQUENCE"; lit "SUMMARY"; lit "URL"; lit "RECURRENCE-ID"; lit "DTEND"; lit "DURATION"]
  | AVAILABLE => [lit "CREATED"; lit "DESCRIPTION"; lit "GEO"; lit "LAST-MODIFIED"; lit "LOCATION"; lit "RECURRENCE-ID";
      lit "RRULE"; lit "SEQUENCE"; lit "SUMMARY"; lit "DTEND"; lit "DURATION"]
  | VPOLL => [lit "ACCEPT-RESPONSE"; lit "CLASS"; lit "CREATED"; lit "COMPLETED"; lit "DESCRIPTION"; lit "DTSTART"; lit "DTEND";
      lit "DURATION"; lit "LAST-MODIFIED"; lit "POLL-MODE"; lit "POLL-PROPERTIES"; lit "POLL-WINNER"; lit "PRIORITY";
      lit "SEQUENCE"; lit "STATUS"; lit "SUMMARY"; lit "URL"]
  | VVOTER => [lit "CREATED"; lit "DESCRIPTION"; lit "LAST-MODIFIED"; lit "SUMMARY"; lit "URL"]
  | VOTE => [lit "POLL-ITEM-ID"; lit "RESPONSE"]
  | VALARM => alarm_at_most (sAction s)
  | UNKNOWN _ => []
  end.
(** propertyCardinality_1_More: valarm.py:53, 173-175, 487; componentbase.py:34. *)
Definition cardinality_1_More (k : kind) (s : cstate) : list bytes :=
  match k with VALARM => if sAction s =? 2 then [lit "ATTENDEE"] else [] | _ => [] end.

(** What a call of validate returns: fixed and unfixed. *)
Definition report : Set := list bytes * list bytes.
(** "[%s] ..." % (self.getType(), ...). *)
Definition msg (k : kind) (text name : bytes) : bytes := lit "[" ++ getType k ++ lit "] " ++ text ++ lit ": " ++ name.

(** componentbase.py:233-237. *)
Definition check_1 (k : kind) (s : cstate) (ps : props) : list bytes :=
  map (msg k (lit "Missing or too many required property"))
    (filter (fun n => negb (countProperty n ps =? 1)%nat) (cardinality_1 k s)).
(** icalendar/property.py:191-201 with property.py:604-611: Property(name, text) for a name whose default type is TEXT. *)
Definition text_property (name text : bytes) : prop := mkProp name [] (Some (Single (VText text))).
(** componentbase.py:239-250. *)
Fixpoint check_1_Fix_Empty (k : kind) (doFix : bool) (names : list bytes) (ps : props) : props * report :=
  match names with
  | [] => (ps, ([], []))
  | n :: r =>
    if (1 <? countProperty n ps)%nat then
      let '(ps', (f, u)) := check_1_Fix_Empty k doFix r ps in (ps', (f, msg k (lit "Too many required property") n :: u))
    else if (countProperty n ps =? 0)%nat then
      let problem := msg k (lit "Missing required property") n in
      if doFix then
        let '(ps', (f, u)) := check_1_Fix_Empty k doFix r (addProperty (text_property n []) ps) in (ps', (problem :: f, u))
      else let '(ps', (f, u)) := check_1_Fix_Empty k doFix r ps in (ps', (f, problem :: u))
    else check_1_Fix_Empty k doFix r ps
  end.
(** componentbase.py:252-256. *)
Definition check_0_1 (k : kind) (s : cstate) (ps : props) : list bytes :=
  map (msg k (lit "Too many properties present")) (filter (fun n => (1 <? countProperty n ps)%nat) (cardinality_0_1 k s)).
(** componentbase.py:258-262. *)
Definition check_1_More (k : kind) (s : cstate) (ps : props) : list bytes :=
  map (msg k (lit "Missing required property")) (filter (fun n => negb (0 <? countProperty n ps)%nat) (cardinality_1_More k s)).
(** componentrecur.py:339-345: is one of them STATUS:CANCELLED?  getTextValue() is None for another value class, and
    getValue() is None for one with no text. *)
Fixpoint has_cancelled (l : list prop) : res bool :=
  match l with
  | [] => Ok false
  | p :: r => match text_of (pValue p) with
              | None => Raise AttributeError
              | Some t => if beq (upper t) (lit "CANCELLED") then Ok true else has_cancelled r
              end
  end.
(** componentrecur.py:329-348. *)
Definition check_STATUS (k : kind) (doFix : bool) (ps : props) : props * res report :=
  if (1 <? countProperty (lit "STATUS") ps)%nat then
    let problem := msg k (lit "Too many properties") (lit "STATUS") in
    if doFix then
      match has_cancelled (getProperties (lit "STATUS") ps) with
      | Raise e => (ps, Raise e)
      | Ok true => (addProperty (text_property (lit "STATUS") (lit "CANCELLED")) (removeProperties (lit "STATUS") ps), Ok ([problem], []))
      | Ok false => (ps, Ok ([], [problem]))
      end
    else (ps, Ok ([], [problem]))
  else (ps, Ok ([], [])).
(** componentbase.py:207-212 with the checks of componentbase.py:48-53 and componentrecur.py:95-97. *)
Definition check_cardinality (k : kind) (s : cstate) (doFix : bool) (ps : props) : props * res report :=
  let u1 := check_1 k s ps in
  let '(ps1, (f2, u2)) := check_1_Fix_Empty k doFix (cardinality_1_Fix_Empty k s) ps in
  let u3 := check_0_1 k s ps1 in
  let u4 := check_1_More k s ps1 in
  let before := u1 ++ u2 ++ u3 ++ u4 in
  if is_recur k then
    match check_STATUS k doFix ps1 with
    | (ps2, Ok (f5, u5)) => (ps2, Ok (f2 ++ f5, before ++ u5))
    | (ps2, Raise e) => (ps2, Raise e)
    end
  else (ps1, Ok (f2, before)).

(** str.lower() in the C locale. *)
Definition lower_char (c : ascii) : ascii :=
  let n := nat_of_ascii c in
  if (65 <=? n)%nat && (n <=? 90)%nat then ascii_of_nat (n + 32) else c.
Definition lower (s : bytes) : bytes := map lower_char s.
(** validation.py:36-43; a value object is never false.  None.lower() when the value has no text. *)
Definition stringValue (text : bytes) (v : option value) : res bool :=
  match v with
  | Some (Single (VText t)) => Ok (beq (lower t) (lower text))
  | Some (Single (VPlain _ o)) | Some (Single (VUri o)) =>
    match o with Some t => Ok (beq (lower t) (lower text)) | None => Raise AttributeError end
  | _ => Ok false
  end.
(** validation.py:46-53. *)
Definition alwaysUTC (v : option value) : res bool := Ok (match datetime_of v with Some d => mTZUTC d | None => false end).
(** validation.py:56-63. *)
Definition numericRange (low high : Z) (v : option value) : res bool :=
  Ok (match integer_of v with Some n => (low <=? n) && (n <=? high) | None => false end).
(** validation.py:66-73. *)
Definition positiveIntegerOrZero (v : option value) : res bool :=
  Ok (match integer_of v with Some n => 0 <=? n | None => false end).
(** icalendar/validation.py:20-37; every class here has this table. *)
Definition value_checks : list (bytes * (option value -> res bool)) :=
  [(lit "CALSCALE", stringValue (lit "GREGORIAN")); (lit "VERSION", stringValue (lit "2.0"));
   (lit "PERCENT-COMPLETE", numericRange 0 100); (lit "PRIORITY", numericRange 0 9);
   (lit "COMPLETED", alwaysUTC); (lit "REPEAT", positiveIntegerOrZero); (lit "CREATED", alwaysUTC);
   (lit "DTSTAMP", alwaysUTC); (lit "LAST-MODIFIED", alwaysUTC); (lit "SEQUENCE", positiveIntegerOrZero);
   (lit "ACKNOWLEDGED", alwaysUTC)].
(** componentbase.py:216-223. *)
Fixpoint check_values (k : kind) (l : list prop) : res (list bytes) :=
  match l with
  | [] => Ok []
  | p :: r =>
    match assoc (upper (pName p)) value_checks with
    | None => check_values k r
    | Some f => do b <- f (pValue p); do u <- check_values k r;
                Ok (if b then u else msg k (lit "Property value incorrect") (upper (pName p)) :: u)
    end
  end.

Section WithTz.
Variable tzo : tzid -> Z -> Z -> Z -> Z -> Z -> Z -> bool -> bool -> Z.
(** The order in which mProperties.values() gives the lists (componentbase.py:216). *)
Variable order : list (list prop) -> list (list prop).

(** componentrecur.py:310-325: one rule.  getUntil() is None if UNTIL was switched on without a date. *)
Definition fix_until (start : dt) (u : dt) : dt :=
  let u1 := setDateOnly u (mDateOnly start) in
  if mDateOnly start then u1
  else let t := adjustToUTC tzo start in
       setTimezone (setHHMMSS u1 (mHours t) (mMinutes t) (mSeconds t)) true TzNone.
(** componentrecur.py:313-321: the rule with the UNTIL that was changed in place. *)
Definition with_until (r : rule) (u : dt) : rule :=
  mkRule (rFreq r) (rUseCount r) (rCount r) (rUseUntil r) (Some u) (rInterval r) (rBySeconds r) (rByMinutes r) (rByHours r)
    (rByDay r) (rByMonthDay r) (rByYearDay r) (rByWeekNo r) (rByMonth r) (rBySetPos r) (rWeekstart r).
(** componentrecur.py:307-325: the rules of mRecurrences are the value objects of the RRULE properties, as _resetRecurrenceSet
    left them (componentrecur.py:350-369, componentbase.py:511-524); that the properties were edited after finalise is not
    modelled.  The recurrence caches cleared at 322 are not modelled here. *)
Definition check_rule (k : kind) (start : dt) (doFix : bool) (p : prop) : prop * res report :=
  match pValue p with
  | Some (Single (VRecur r)) =>
    if rUseUntil r then
      match rUntil r with
      | None => (p, Raise AttributeError)
      | Some u =>
        if xorb (mDateOnly u) (mDateOnly start) then
          let problem := msg k (lit "Value types must match") (lit "DTSTART, UNTIL") in
          if doFix then (mkProp (pName p) (pParams p) (Some (Single (VRecur (with_until r (fix_until start u))))), Ok ([problem], []))
          else (p, Ok ([], [problem]))
        else (p, Ok ([], []))
      end
    else (p, Ok ([], []))
  | _ => (p, Ok ([], []))
  end.
(** componentbase.py:225-229, componentrecur.py:307-325: one after the other, up to the first exception; the reports are put together. *)
Section Each.
Context {A : Type}.
Variable f : A -> A * res report.
Fixpoint each (l : list A) : list A * res report :=
  match l with
  | [] => ([], Ok ([], []))
  | x :: r =>
    match f x with
    | (x', Raise e) => (x' :: r, Raise e)
    | (x', Ok (fx, ux)) =>
      match each r with
      | (r', Raise e) => (x' :: r', Raise e)
      | (r', Ok (fr, ur)) => (x' :: r', Ok (fx ++ fr, ux ++ ur))
      end
    end
  end.
End Each.
(** The rules of RRULE are changed in place (componentrecur.py:310-325): self.mProperties[name] = l. *)
Fixpoint replaceProperties (name : bytes) (l : list prop) (ps : props) : props :=
  match ps with
  | [] => []
  | (k, x) :: r => if beq k name then (k, l) :: r else (k, x) :: replaceProperties name l r
  end.
(** componentrecur.py:305-327. *)
Definition check_until (k : kind) (s : cstate) (doFix : bool) (ps : props) : props * res report :=
  match is_recur k, sStart s with
  | true, Some start =>
    let (l, r) := each (check_rule k start doFix) (getProperties (lit "RRULE") ps) in
    (replaceProperties (lit "RRULE") l ps, r)
  | _, _ => (ps, Ok ([], []))
  end.

(** `A` and `B` must not both be present, fixed by removing `gone`: vevent.py:112-124, vtodo.py:276-288,
    vavailability.py:73-84, available.py:66-77. *)
Definition not_both (k : kind) (doFix : bool) (a b gone : bytes) (ps : props) : props * report :=
  if hasProperty a ps && hasProperty b ps then
    let problem := msg k (lit "Properties must not both be present") (a ++ lit ", " ++ b) in
    if doFix then (removeProperties gone ps, ([problem], [])) else (ps, ([], [problem]))
  else (ps, ([], [])).
(** vevent.py:104-110; `parent` is mProperties of mParentComponent if there is one. *)
Definition needs_start (k : kind) (parent : option props) (ps : props) : list bytes :=
  match parent with
  | Some pp => if negb (hasProperty (lit "METHOD") pp) && negb (hasProperty (lit "DTSTART") ps)
               then [msg k (lit "Missing required property") (lit "DTSTART")] else []
  | None => []
  end.
(** The extra constraints: vevent.py:103-126, vtodo.py:275-299, vavailability.py:72-86, available.py:65-79, valarm.py:491-500,
    vtimezone.py:92-105. *)
Definition extra (k : kind) (doFix : bool) (parent : option props) (subs : list comp) (ps : props) : props * report :=
  match k with
  | VEVENT =>
    let u1 := needs_start k parent ps in
    let '(ps', (f, u)) := not_both k doFix (lit "DTEND") (lit "DURATION") (lit "DTEND") ps in (ps', (f, u1 ++ u))
  | VTODO =>
    let '(ps', (f, u)) := not_both k doFix (lit "DUE") (lit "DURATION") (lit "DURATION") ps in
    (ps', (f, u ++ (if hasProperty (lit "DURATION") ps' && negb (hasProperty (lit "DTSTART") ps')
                    then [msg k (lit "Property must be present") (lit "DTSTART with DURATION")] else [])))
  | VAVAILABILITY | AVAILABLE => not_both k doFix (lit "DTEND") (lit "DURATION") (lit "DTEND") ps
  | VALARM =>
    (ps, ([], if xorb (hasProperty (lit "DURATION") ps) (hasProperty (lit "REPEAT") ps)
              then [msg k (lit "Properties must be present together") (lit "DURATION, REPEAT")] else []))
  | VTIMEZONE =>
    (ps, ([], if existsb (fun c => beq (getType (cKind c)) (lit "STANDARD") || beq (getType (cKind c)) (lit "DAYLIGHT")) subs then []
              else [msg k (lit "At least one component must be present") (lit "STANDARD or DAYLIGHT")]))
  | _ => (ps, ([], []))
  end.

(** componentbase.py:199-231, componentrecur.py:295-327 and the methods above, on a component whose parent has the
    properties `parent`: the component afterwards and what is returned.  That VAlarm.validate stores the tables of its
    action in the object (valarm.py:484-487) is left out. *)
Fixpoint validate (doFix : bool) (parent : option props) (c : comp) : comp * res report :=
  let '(Comp k s ps subs) := c in
  match check_cardinality k s doFix ps with
  | (ps1, Raise e) => (Comp k s ps1 subs, Raise e)
  | (ps1, Ok (f1, u1)) =>
    match check_values k (List.concat (order (map snd ps1))) with
    | Raise e => (Comp k s ps1 subs, Raise e)
    | Ok u2 =>
      match each (validate doFix (Some ps1)) subs with
      | (subs', Raise e) => (Comp k s ps1 subs', Raise e)
      | (subs', Ok (f3, u3)) =>
        match check_until k s doFix ps1 with
        | (ps2, Raise e) => (Comp k s ps2 subs', Raise e)
        | (ps2, Ok (f4, u4)) =>
          let '(ps3, (f5, u5)) := extra k doFix parent subs' ps2 in
          (Comp k s ps3 subs', Ok (f1 ++ f3 ++ f4 ++ f5, u1 ++ u2 ++ u3 ++ u4 ++ u5))
        end
      end
    end
  end.

(** containerbase.py:64-76; the text of the exception is left out. *)
Definition container_validate (doFix doRaise : bool) (c : comp) : comp * res report :=
  match validate doFix None c with
  | (c', Ok (f, u)) => (c', if doRaise && negb (match u with [] => true | _ => false end) then Raise ValidationError else Ok (f, u))
  | (c', Raise e) => (c', Raise e)
  end.
End WithTz.
