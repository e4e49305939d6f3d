(** What the theorems about validation are stated with: which component has which problem, and what a repair is. *)
From Verif Require Import ComponentModel CalSpec DateTimeSpec DateTimeSpec2.
From Verif Require Export ComponentSpec.

(** A dictionary of properties as addProperty and removeProperty keep it: every key once, with at least one property,
    and all of that name. *)
Definition tidy_props (ps : props) : Prop :=
  NoDup (map fst ps) /\
  Forall (fun kl => snd kl <> [] /\ Forall (fun p => upper (pName p) = fst kl) (snd kl)) ps.
Inductive tidy : comp -> Prop :=
| tidy_intro : forall k s ps subs, tidy_props ps -> Forall tidy subs -> tidy (Comp k s ps subs).

(** The properties of a name, in any letter case. *)
Definition named (name : bytes) (ps : props) : list prop :=
  filter (fun p => beq (upper (pName p)) name) (List.concat (map snd ps)).
Definition many (name : bytes) (ps : props) : nat := List.length (named name ps).

(** The sorts of components the limits speak of.  An alarm is of the sort its getAction() says. *)
Inductive family : Set :=
| Calendar | Event | ToDo | Journal | FreeBusy | Zone | Observance | Availability | Available | Poll | Voter | Vote
| AudioAlarm | DisplayAlarm | EmailAlarm | UriAlarm | NoneAlarm | OtherAlarm | Other.
Definition family_of (k : kind) (s : cstate) : family :=
  match k with
  | VCALENDAR => Calendar | VEVENT => Event | VTODO => ToDo | VJOURNAL => Journal | VFREEBUSY => FreeBusy
  | VTIMEZONE => Zone | STANDARD | DAYLIGHT => Observance | VAVAILABILITY => Availability | AVAILABLE => Available
  | VPOLL => Poll | VVOTER => Voter | VOTE => Vote | UNKNOWN _ => Other
  | VALARM => match sAction s with
              | 0 => AudioAlarm | 1 => DisplayAlarm | 2 => EmailAlarm | 5 => UriAlarm | 6 => NoneAlarm | _ => OtherAlarm
              end
  end.

(** The limits, property by property. *)
Definition exactly_once : list (bytes * list family) :=
  [(lit "PRODID", [Calendar]); (lit "VERSION", [Calendar]);
   (lit "UID", [Event; ToDo; Journal; FreeBusy; Availability; Available; Poll]);
   (lit "DTSTAMP", [Event; ToDo; Journal; FreeBusy; Availability; Available; Poll]);
   (lit "DTSTART", [Observance; Available]); (lit "TZOFFSETTO", [Observance]); (lit "TZOFFSETFROM", [Observance]);
   (lit "TZID", [Zone]); (lit "ORGANIZER", [Poll]); (lit "VOTER", [Voter]);
   (lit "ACTION", [AudioAlarm; DisplayAlarm; EmailAlarm; UriAlarm; NoneAlarm; OtherAlarm]);
   (lit "TRIGGER", [AudioAlarm; DisplayAlarm; EmailAlarm; UriAlarm; OtherAlarm]); (lit "URL", [UriAlarm])].
Definition at_most_once : list (bytes * list family) :=
  [(lit "CALSCALE", [Calendar]); (lit "METHOD", [Calendar]);
   (lit "CLASS", [Event; ToDo; Journal; Availability; Poll]);
   (lit "CREATED", [Event; ToDo; Journal; Availability; Available; Poll; Voter]);
   (lit "DESCRIPTION", [Event; ToDo; Availability; Available; Poll; Voter]);
   (lit "GEO", [Event; ToDo; Available]); (lit "LOCATION", [Event; ToDo; Available]);
   (lit "LAST-MODIFIED", [Event; ToDo; Journal; Zone; Availability; Available; Poll; Voter]);
   (lit "ORGANIZER", [Event; ToDo; Journal; FreeBusy; Availability]);
   (lit "PRIORITY", [Event; ToDo; Poll]); (lit "PERCENT-COMPLETE", [ToDo]); (lit "COMPLETED", [ToDo; Poll]);
   (lit "SEQUENCE", [Event; ToDo; Journal; Availability; Available; Poll]);
   (lit "SUMMARY", [Event; ToDo; Journal; Availability; Available; Poll; Voter]);
   (lit "TRANSP", [Event]); (lit "URL", [Event; ToDo; Journal; FreeBusy; Availability; Poll; Voter]);
   (lit "RECURRENCE-ID", [Event; ToDo; Journal; Availability; Available]);
   (lit "RRULE", [Event; ToDo; Journal; Observance; Available]);
   (lit "DTSTART", [ToDo; Journal; FreeBusy; Availability; Poll]); (lit "DUE", [ToDo]);
   (lit "DTEND", [Event; FreeBusy; Availability; Available; Poll]);
   (lit "DURATION", [Event; ToDo; Availability; Available; Poll; AudioAlarm; DisplayAlarm; EmailAlarm; UriAlarm; OtherAlarm]);
   (lit "CONTACT", [FreeBusy]); (lit "TZURL", [Zone]); (lit "BUSYTYPE", [Availability]);
   (lit "ACCEPT-RESPONSE", [Poll]); (lit "POLL-MODE", [Poll]); (lit "POLL-PROPERTIES", [Poll]); (lit "POLL-WINNER", [Poll]);
   (lit "STATUS", [Poll]); (lit "POLL-ITEM-ID", [Vote]); (lit "RESPONSE", [Vote]);
   (lit "REPEAT", [AudioAlarm; DisplayAlarm; EmailAlarm; UriAlarm; OtherAlarm]);
   (lit "ACKNOWLEDGED", [AudioAlarm; DisplayAlarm; EmailAlarm; UriAlarm; OtherAlarm]); (lit "ATTACH", [AudioAlarm])].
(** Exactly once, and empty text will do. *)
Definition exactly_once_text : list (bytes * list family) :=
  [(lit "DESCRIPTION", [DisplayAlarm; EmailAlarm]); (lit "SUMMARY", [EmailAlarm])].
Definition at_least_once : list (bytes * list family) := [(lit "ATTENDEE", [EmailAlarm])].
(** Components with a STATUS that CANCELLED overrides, and with recurrences. *)
Definition recurring : list family := [Event; ToDo; Journal; Available].
(** Pairs that exclude each other, and the one that gives way. *)
Definition exclusive : list (bytes * bytes * bytes * list family) :=
  [(lit "DTEND", lit "DURATION", lit "DTEND", [Event; Availability; Available]);
   (lit "DUE", lit "DURATION", lit "DURATION", [ToDo])].
Definition listed (t : list (bytes * list family)) (name : bytes) (f : family) : Prop :=
  exists fs, In (name, fs) t /\ In f fs.
(** The property `name` is to go, for there is another one that it must not be beside. *)
Definition gives_way (f : family) (ps : props) (name : bytes) : Prop :=
  exists a b fs, In (a, b, name, fs) exclusive /\ In f fs /\ named a ps <> [] /\ named b ps <> [].

(** The text of a value, an integer, a date-time. *)
Definition is_text (v : option value) (t : bytes) : Prop :=
  v = Some (Single (VText t)) \/ (exists c, v = Some (Single (VPlain c (Some t)))) \/ v = Some (Single (VUri (Some t))).
(** The values that properties of some names must have. *)
Definition right_value (name : bytes) (v : option value) : option Prop :=
  if beq name (lit "CALSCALE") then Some (exists t, is_text v t /\ upper t = lit "GREGORIAN")
  else if beq name (lit "VERSION") then Some (exists t, is_text v t /\ upper t = lit "2.0")
  else if beq name (lit "PERCENT-COMPLETE") then Some (exists n, v = Some (Single (VInteger n)) /\ 0 <= n <= 100)
  else if beq name (lit "PRIORITY") then Some (exists n, v = Some (Single (VInteger n)) /\ 0 <= n <= 9)
  else if existsb (beq name) [lit "REPEAT"; lit "SEQUENCE"] then Some (exists n, v = Some (Single (VInteger n)) /\ 0 <= n)
  else if existsb (beq name) [lit "COMPLETED"; lit "CREATED"; lit "DTSTAMP"; lit "LAST-MODIFIED"; lit "ACKNOWLEDGED"]
  then Some (exists d, v = Some (Single (VDateTime d)) /\ mTZUTC d = true)
  else None.
(** A rule that ends on a date although the component starts at a time, or the other way round. *)
Definition mismatch (start : dt) (p : prop) (r : rule) (u : dt) : Prop :=
  pValue p = Some (Single (VRecur r)) /\ rUseUntil r = true /\ rUntil r = Some u /\ mDateOnly u <> mDateOnly start.
Definition cancelled (ps : props) : Prop :=
  exists p t, In p (named (lit "STATUS") ps) /\ is_text (pValue p) t /\ upper t = lit "CANCELLED".

(** What becomes of a problem under validate(doFix=True): it is repaired; it stays; it is reported as not fixed although
    the repair of another one has made it disappear; the repair of another one has made it disappear without mention. *)
Inductive outcome : Set := Repaired | Stays | GoneReported | GoneSilently.

Definition says (k : kind) (text name : bytes) : bytes := lit "[" ++ getType k ++ lit "] " ++ text ++ lit ": " ++ name.

(** The problems of one component, by themselves; `parent` is the properties of the component it is in. *)
Inductive problem (parent : option props) (k : kind) (s : cstate) (ps : props) (subs : list comp) : outcome -> bytes -> Prop :=
| p_required : forall n, listed exactly_once n (family_of k s) -> many n ps <> 1%nat ->
    problem parent k s ps subs Stays (says k (lit "Missing or too many required property") n)
| p_text_many : forall n, listed exactly_once_text n (family_of k s) -> (1 < many n ps)%nat ->
    problem parent k s ps subs Stays (says k (lit "Too many required property") n)
| p_text_none : forall n, listed exactly_once_text n (family_of k s) -> many n ps = 0%nat ->
    problem parent k s ps subs Repaired (says k (lit "Missing required property") n)
| p_too_many : forall n, listed at_most_once n (family_of k s) -> (1 < many n ps)%nat -> ~ gives_way (family_of k s) ps n ->
    problem parent k s ps subs Stays (says k (lit "Too many properties present") n)
| p_too_many_gone : forall n, listed at_most_once n (family_of k s) -> (1 < many n ps)%nat -> gives_way (family_of k s) ps n ->
    problem parent k s ps subs GoneReported (says k (lit "Too many properties present") n)
| p_none : forall n, listed at_least_once n (family_of k s) -> many n ps = 0%nat ->
    problem parent k s ps subs Stays (says k (lit "Missing required property") n)
| p_status : In (family_of k s) recurring -> (1 < many (lit "STATUS") ps)%nat -> ~ cancelled ps ->
    problem parent k s ps subs Stays (says k (lit "Too many properties") (lit "STATUS"))
| p_status_cancelled : In (family_of k s) recurring -> (1 < many (lit "STATUS") ps)%nat -> cancelled ps ->
    problem parent k s ps subs Repaired (says k (lit "Too many properties") (lit "STATUS"))
| p_value : forall n p right, In p (named n ps) -> right_value n (pValue p) = Some right -> ~ right ->
    problem parent k s ps subs Stays (says k (lit "Property value incorrect") n)
| p_until : forall start p r u, In (family_of k s) recurring -> sStart s = Some start -> In p (named (lit "RRULE") ps) ->
    mismatch start p r u -> problem parent k s ps subs Repaired (says k (lit "Value types must match") (lit "DTSTART, UNTIL"))
| p_exclusive : forall a b n fs, In (a, b, n, fs) exclusive -> In (family_of k s) fs -> named a ps <> [] -> named b ps <> [] ->
    problem parent k s ps subs Repaired (says k (lit "Properties must not both be present") (a ++ lit ", " ++ b))
| p_start : forall pp, family_of k s = Event -> parent = Some pp -> named (lit "METHOD") pp = [] -> named (lit "DTSTART") ps = [] ->
    problem parent k s ps subs Stays (says k (lit "Missing required property") (lit "DTSTART"))
| p_todo_start : family_of k s = ToDo -> named (lit "DURATION") ps <> [] -> named (lit "DTSTART") ps = [] -> named (lit "DUE") ps = [] ->
    problem parent k s ps subs Stays (says k (lit "Property must be present") (lit "DTSTART with DURATION"))
| p_todo_start_gone : family_of k s = ToDo -> named (lit "DURATION") ps <> [] -> named (lit "DTSTART") ps = [] -> named (lit "DUE") ps <> [] ->
    problem parent k s ps subs GoneSilently (says k (lit "Property must be present") (lit "DTSTART with DURATION"))
| p_together : k = VALARM -> (named (lit "DURATION") ps = [] <-> named (lit "REPEAT") ps <> []) ->
    problem parent k s ps subs Stays (says k (lit "Properties must be present together") (lit "DURATION, REPEAT"))
| p_no_observance : k = VTIMEZONE -> (forall c, In c subs -> getType (cKind c) <> lit "STANDARD" /\ getType (cKind c) <> lit "DAYLIGHT") ->
    problem parent k s ps subs Stays (says k (lit "At least one component must be present") (lit "STANDARD or DAYLIGHT")).
(** The problems of a component and of those in it. *)
Inductive tree_problem : option props -> comp -> outcome -> bytes -> Prop :=
| tp_here : forall parent k s ps subs o m, problem parent k s ps subs o m -> tree_problem parent (Comp k s ps subs) o m
| tp_below : forall parent k s ps subs c o m, In c subs -> tree_problem (Some ps) c o m -> tree_problem parent (Comp k s ps subs) o m.

(** What validate needs in order not to raise: VERSION and CALSCALE, if they have a value that holds text, do have the
    text, and a rule with UNTIL has a date there.  For the repair of STATUS: when there are several, they have text. *)
Definition ready_props (ps : props) : Prop :=
  (forall n p, n = lit "VERSION" \/ n = lit "CALSCALE" -> In p (named n ps) ->
     (forall c, pValue p <> Some (Single (VPlain c None))) /\ pValue p <> Some (Single (VUri None))) /\
  (forall p r, In p (named (lit "RRULE") ps) -> pValue p = Some (Single (VRecur r)) -> rUseUntil r = true -> rUntil r <> None).
Definition status_props (ps : props) : Prop :=
  (1 < many (lit "STATUS") ps)%nat -> forall p, In p (named (lit "STATUS") ps) -> exists t, is_text (pValue p) t.
Inductive everywhere (P : props -> Prop) : comp -> Prop :=
| everywhere_intro : forall k s ps subs, P ps -> Forall (everywhere P) subs -> everywhere P (Comp k s ps subs).

(** ** Repairs. *)

(** The start of each component shows a time of the day, and the offset it may remember is that of its zone. *)
Inductive starts_ok (tzo : tzid -> Z -> Z -> Z -> Z -> Z -> Z -> bool -> bool -> Z) : comp -> Prop :=
| starts_intro : forall k s ps subs,
    (forall d, sStart s = Some d -> valid_time (mHours d) (mMinutes d) (mSeconds d) /\
       (mTZOffset d = None \/ mTZOffset d = Some (zone_offset tzo (mTZUTC d, mTZID d) d))) ->
    Forall (starts_ok tzo) subs -> starts_ok tzo (Comp k s ps subs).

(** Seconds after midnight UTC of the time d shows in its zone; if it is in no zone, as though that were UTC. *)
Definition utc_seconds (tzo : tzid -> Z -> Z -> Z -> Z -> Z -> Z -> bool -> bool -> Z) (d : dt) : Z :=
  (3600 * mHours d + 60 * mMinutes d + mSeconds d - (if floating d then 0 else zone_offset tzo (mTZUTC d, mTZID d) d)) mod 86400.
(** UNTIL becomes the same day without a time, or with the time of day that the start has in UTC. *)
Definition until_repaired (tzo : tzid -> Z -> Z -> Z -> Z -> Z -> Z -> bool -> bool -> Z) (start u u' : dt) : Prop :=
  ymd u' = ymd u /\ mDateOnly u' = mDateOnly start /\
  (mDateOnly start = false -> mTZUTC u' = true /\ valid_time (mHours u') (mMinutes u') (mSeconds u') /\
     3600 * mHours u' + 60 * mMinutes u' + mSeconds u' = utc_seconds tzo start).
(** `change` says what becomes of UNTIL. *)
Definition rule_repaired (change : dt -> dt -> dt -> Prop) (start : dt) (p p' : prop) : Prop :=
  (forall r u, ~ mismatch start p r u) /\ p' = p \/
  exists r r' u u', mismatch start p r u /\ change start u u' /\
    pName p' = pName p /\ pParams p' = pParams p /\ pValue p' = Some (Single (VRecur r')) /\ rUntil r' = Some u' /\
    r = mkRule (rFreq r') (rUseCount r') (rCount r') (rUseUntil r') (Some u) (rInterval r') (rBySeconds r') (rByMinutes r')
          (rByHours r') (rByDay r') (rByMonthDay r') (rByYearDay r') (rByWeekNo r') (rByMonth r') (rBySetPos r') (rWeekstart r').
(** The properties of one name before and after. *)
Inductive props_repaired (change : dt -> dt -> dt -> Prop) (f : family) (s : cstate) (ps : props) (n : bytes) : list prop -> Prop :=
| r_text : listed exactly_once_text n f -> named n ps = [] ->
    props_repaired change f s ps n [mkProp n [] (Some (Single (VText [])))]
| r_status : n = lit "STATUS" -> In f recurring -> (1 < many n ps)%nat -> cancelled ps ->
    props_repaired change f s ps n [mkProp n [] (Some (Single (VText (lit "CANCELLED"))))]
| r_gone : gives_way f ps n -> props_repaired change f s ps n []
| r_until : forall start l, n = lit "RRULE" -> In f recurring -> sStart s = Some start ->
    Forall2 (rule_repaired change start) (named n ps) l -> props_repaired change f s ps n l
| r_same : ~ (listed exactly_once_text n f /\ named n ps = []) ->
    ~ (n = lit "STATUS" /\ In f recurring /\ (1 < many n ps)%nat /\ cancelled ps) -> ~ gives_way f ps n ->
    ~ (n = lit "RRULE" /\ In f recurring /\ sStart s <> None) -> props_repaired change f s ps n (named n ps).
Inductive repaired (change : dt -> dt -> dt -> Prop) : comp -> comp -> Prop :=
| repaired_intro : forall k s ps subs ps' subs', Forall2 (repaired change) subs subs' ->
    (forall n, props_repaired change (family_of k s) s ps n (named n ps')) ->
    repaired change (Comp k s ps subs) (Comp k s ps' subs').
