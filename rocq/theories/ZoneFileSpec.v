(** What C74 says: the files that the tz compiler writes, and what is read from them. *)
From Coq Require Export Sorting.Sorted.
From Verif Require Export ZoneFileModel ZoneTzSpec ComponentSpec StatusSpec.

(** A local time with room for its numbers. *)
Definition at_local (d : dt) : Prop := printable d /\ mDateOnly d = false /\ mTZUTC d = false /\ mTZID d = TzNone.
(** A sub-component that can be written: local times, offsets below 100 hours, the name in UTF-8, a rule with parts in their ranges. *)
Definition sub_fine (s : sub) : Prop :=
  Forall at_local (sbStart s :: sbDates s) /\ Z.abs (sbFrom s) < 360000 /\ Z.abs (sbTo s) < 360000 /\ utf8 (sbName s) /\
  match sbRule s with Some r => rule_ok r | None => True end.
(** A name of a zone: UTF-8, on one line. *)
Definition zone_name (n : bytes) : Prop := utf8 n /\ ~ In CR n /\ ~ In LF n.

(** The zones that are asked for, by their names, with their sub-components. *)
Definition asks (want : list bytes) (d : tzdata) (l : list zone) : Prop :=
  NoDup (map znName (map snd (tzZones d))) /\
  (forall zn, In zn l <-> In zn (map snd (tzZones d)) /\ (want = [] \/ In (znName zn) want)) /\
  StronglySorted (fun a b => text_lt (znName a) (znName b)) l.

(** The component is the time zone with this name and with these sub-components, as they are read. *)
Definition shows_sub (s : sub) (c : comp) : Prop :=
  cKind c = (if sbDay s then DAYLIGHT else STANDARD) /\ element_of c = elem_of (read_back s) /\ cSubs c = [].
Definition shows_zone (name : bytes) (subs : list sub) (c : comp) : Prop :=
  cKind c = VTIMEZONE /\ sID (cState c) = name /\ loadString (lit "TZID") (cProps c) = Some name /\
  loadString (lit "X-LIC-LOCATION") (cProps c) = Some name /\ Forall2 shows_sub subs (cSubs c).

(** A change that fits into the text: its year, its offsets, and the names that it can have. *)
Definition fits (c : change) : Prop :=
  1902 <= mYear (chAt c) <= 9998 /\ Z.abs (chFrom c) < 86400 /\ Z.abs (chTo c) < 360000 /\ forall day name, called c day name -> utf8 name.
