(** What the theorems about the time zones of a calendar are stated with. *)
From Verif Require Export CalTzModel DupSpec.

(** A property with one date-time value in this zone. *)
Definition dated_in (t : tzid) (c : comp) : Prop :=
  exists p d, In p (all_props c) /\ pValue p = Some (Single (VDateTime d)) /\ mTZID d = t.
(** A component of the calendar that is no zone, or a period of availability in such a component, has such a property. *)
Definition uses (subs : list comp) (t : tzid) : Prop :=
  t <> TzNone /\ t <> TzName [] /\ t <> TzInt 0 /\
  exists c, In c subs /\ getType (cKind c) <> lit "VTIMEZONE" /\
    (dated_in t c \/ cKind c = VAVAILABILITY /\ exists a, In a (cSubs c) /\ upper_type a = lit "AVAILABLE" /\ dated_in t a).
(** Anything with a zone in it, at any depth. *)
Definition item_in (t : tzid) (i : item) : Prop :=
  match i with
  | VDateTime d => mTZID d = t
  | VPeriod p => mTZID (pStart p) = t
  | _ => False
  end.
Inductive mentions (t : tzid) : comp -> Prop :=
| mentions_here : forall c p i, In p (all_props c) -> pValue p = Some (Single i) -> item_in t i -> mentions t c
| mentions_list : forall c p ty l i, In p (all_props c) -> pValue p = Some (Multi ty l) -> In i l -> item_in t i -> mentions t c
| mentions_in : forall c d, In d (cSubs c) -> mentions t d -> mentions t c.

Definition zone (c : comp) : Prop := cKind c = VTIMEZONE.
Definition has_zone (subs : list comp) (t : tzid) : Prop := exists c, In c subs /\ zone c /\ TzName (sID (cState c)) = t.
(** No component with a type like vtimezone that is not of the class. *)
Definition zones_only (subs : list comp) : Prop := Forall (fun c => upper_type c = lit "VTIMEZONE" -> zone c) subs.
(** The database has zones under their IDs, that can be copied. *)
Definition sound (lookup : tzid -> option comp) : Prop :=
  forall t z, lookup t = Some z -> zone z /\ ready z /\ TzName (sID (cState z)) = t.
Definition wanted (standard : tzid -> bool) (m : mode) (t : tzid) : Prop :=
  match m with ALL_TIMEZONES => True | NONSTD_TIMEZONES => standard t = false | NO_TIMEZONES => False end.
(** The zones that are stripped. *)
Definition stripped (lookup : tzid -> option comp) (standard : tzid -> bool) (c : comp) : bool :=
  match cKind c with
  | VTIMEZONE => let t := TzName (sID (cState c)) in match lookup t with Some _ => standard t | None => false end
  | _ => false
  end.
