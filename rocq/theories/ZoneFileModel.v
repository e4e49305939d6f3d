(** Model of the writing of iCalendar files by the tz compiler, and of VTIMEZONE objects read from text: /repo/src/zonal/tzconvert.py:141-153,
    zone.py, rule.py, and pycalendar/icalendar/vtimezoneelement.py, calendar.py.  Definitions only. *)
From Verif Require Export ZoneTzModel TzFileModel.
From Verif Require Export MakeModel.

(** ** The components that are made *)

(** rule.py:451-562, zone.py:490-519 and 282-290: a STANDARD or DAYLIGHT object.  Its state is what finalise (vtimezoneelement.py:62-90) leaves. *)
Definition sub_comp (s : sub) : comp :=
  let ps := addProperty (with_value (lit "TZOFFSETFROM") (Single (VOffset (sbFrom s)))) [] in
  let ps := addProperty (with_value (lit "TZOFFSETTO") (Single (VOffset (sbTo s)))) ps in
  let ps := addProperty (text_prop 0 (lit "TZNAME") None (sbName s)) ps in
  let ps := addProperty (date_prop (lit "DTSTART") (sbStart s)) ps in
  let ps := match sbRule s with Some r => addProperty (recur_prop (lit "RRULE") r) ps | None => ps end in
  let ps := fold_left (fun ps d => addProperty (date_prop (lit "RDATE") d) ps) (sbDates s) ps in
  Comp (if sbDay s then DAYLIGHT else STANDARD) (mkState [] [] None [] (Some (sbStart s)) None 1) ps [].
(** zone.py:184-189, 256 and vtimezone.py:68-78: the VTIMEZONE object, with the sub-components sorted by their start (zone_vtimezone). *)
Definition zone_comp (name : bytes) (subs : list sub) : comp :=
  let ps := addProperty (text_prop 0 (lit "TZID") None name) [] in
  let ps := addProperty (text_prop 0 (lit "X-LIC-LOCATION") None name) ps in
  Comp VTIMEZONE (mkState [] [] None name None None 1) ps (map sub_comp subs).
(** containerbase.py:50-54, calendar.py:619-622: Calendar(), with the value of Calendar.sProdID, and addComponent of the time zones. *)
Definition new_calendar (prodid : bytes) (l : list comp) : comp :=
  let ps := addProperty (text_prop 0 (lit "PRODID") None prodid) [] in
  let ps := addProperty (text_prop 0 (lit "VERSION") None (lit "2.0")) ps in
  let ps := addProperty (text_prop 0 (lit "CALSCALE") None (lit "GREGORIAN")) ps in
  Comp VCALENDAR (newState []) ps l.

Section WithTz.
Variable tzo : tzid -> Z -> Z -> Z -> Z -> Z -> Z -> bool -> bool -> Z.

(** zone.py:171-257. *)
Definition made_zone (d : tzdata) (minYear maxYear : Z) (zn : zone) : res comp :=
  do subs <- zone_vtimezone tzo zn (tzRules d) minYear maxYear;
  Ok (zone_comp (znName zn) subs).
Fixpoint made_zones (d : tzdata) (minYear maxYear : Z) (l : list zone) : res (list comp) :=
  match l with
  | [] => Ok []
  | zn :: l => do c <- made_zone d minYear maxYear zn; do r <- made_zones d minYear maxYear l; Ok (c :: r)
  end.
(** tzconvert.py:147-149: `if filterzones and tzzone.name not in filterzones: continue`; None is like the empty list. *)
Definition wanted (filterzones : list bytes) (zn : zone) : bool :=
  match filterzones with [] => true | _ => existsb (beq (znName zn)) filterzones end.
(** tzconvert.py:141-153.  getText (calendar.py:408-420, 639-669) adds no time zones to a calendar that has time zones only.  The zones come in the
    order of a dictionary; they are sorted by their names when they are written (calendar.py:175-183, componentbase.py:371-397).  Simplification: of several exceptions
    the first in the order of the model is raised. *)
Definition vtimezones (fl : floats) (prodid : bytes) (d : tzdata) (minYear maxYear : Z) (filterzones : list bytes) : option (res bytes) :=
  match made_zones d minYear maxYear (filter (wanted filterzones) (map snd (tzZones d))) with
  | Ok l => generate fl (new_calendar prodid l)
  | Raise e => Some (Raise e)
  end.
End WithTz.

(** ** The objects that are read *)

(** property.py:213-218 (getUTCOffsetValue), and its number. *)
Definition offset_of (v : option value) : option Z := match v with Some (Single (VOffset n)) => Some n | _ => None end.
(** vtimezoneelement.py:41-49 and 62-90: the fields of a STANDARD or DAYLIGHT object after finalise; the rules and dates of componentbase.py:511-545. *)
Definition element_of (c : comp) : elem :=
  let ps := cProps c in
  mkElem (match loadDateTime (lit "DTSTART") ps with Some d => d | None => newDefault end)
    (match load offset_of (lit "TZOFFSETTO") ps with Some n => n | None => 0 end)
    (match load offset_of (lit "TZOFFSETFROM") ps with Some n => n | None => 0 end)
    (match loadString (lit "TZNAME") ps with Some t => t | None => [] end)
    (mkRset (load_rules (lit "RRULE") ps) [] (load_dates (lit "RDATE") ps) [] (load_periods (lit "RDATE") ps) []) None None.
(** vtimezone.py:41-52: a VTIMEZONE object that was not asked anything. *)
Definition vtimezone_of (c : comp) : vtz := vtz_init (map element_of (cSubs c)).
(** calendar.py:611-617: getTimezone; the first component that is a VTIMEZONE with this TZID. *)
Definition calendar_zone (cal : comp) (id : bytes) : option comp :=
  find (fun c => match cKind c with VTIMEZONE => beq (sID (cState c)) id | _ => false end) (cSubs cal).
