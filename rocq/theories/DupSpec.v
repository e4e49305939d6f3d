(** What the theorems about copies and equality of components are stated with. *)
From Verif Require Import DupModel CalendarModel.
From Verif Require Export ComponentSpec.

(** A copy: the same class and properties, copies of the sub-components in the same order, and the same UID, start,
    recurrence id and time zone id where the class has them. *)
Inductive copy_of : comp -> comp -> Prop :=
| copy_intro : forall k s s' ps subs subs',
    (k <> VCALENDAR -> sUID s' = sUID s) ->
    (In k [VEVENT; VTODO; VJOURNAL; AVAILABLE] -> sStart s' = sStart s /\ sRid s' = sRid s) ->
    (In k [STANDARD; DAYLIGHT; VFREEBUSY] -> sStart s' = sStart s) ->
    (k = VTIMEZONE -> sID s' = sID s) ->
    (k = VALARM -> sAction s' = sAction s) ->
    Forall2 copy_of subs subs' -> copy_of (Comp k s ps subs) (Comp k s' ps subs').

(** The types of the components that may be put in another one. *)
Definition may_hold (parent : kind) (t : bytes) : Prop :=
  match parent with
  | VEVENT | VTODO => t = lit "VALARM"
  | VTIMEZONE => t = lit "STANDARD" \/ t = lit "DAYLIGHT"
  | VAVAILABILITY => t = lit "AVAILABLE"
  | VVOTER => t = lit "VOTE"
  | _ => True
  end.
(** A period holds either an end or a duration; a rule holds an UNTIL value only if it is used. *)
Definition item_ready (i : item) : Prop :=
  match i with
  | VPeriod p => (exists s e, p = newPeriodEnd s e) \/ (exists s d, p = newPeriodDur s d)
  | VRecur r => if rUseUntil r then exists u, rUntil r = Some u else rUntil r = None
  | _ => True
  end.
Definition value_ready (v : value) : Prop := match v with Single i => item_ready i | Multi _ l => Forall item_ready l end.
Definition prop_ready (p : prop) : Prop := exists v, pValue p = Some v /\ value_ready v.
(** Every property has a value, and every component is in one that may hold it. *)
Inductive ready : comp -> Prop :=
| ready_intro : forall k s ps subs, Forall (fun kl => Forall prop_ready (snd kl)) ps ->
    Forall (fun c => may_hold k (getType (cKind c))) subs -> Forall ready subs -> ready (Comp k s ps subs).

(** The key a component is sorted by does not come from a uuid, and not from the fields of an alarm. *)
Definition own_key (c : comp) : Prop :=
  match cKind c with
  | VALARM => False
  | VEVENT | VTODO | VJOURNAL | AVAILABLE => sMapKey (cState c) <> None
  | VFREEBUSY | VAVAILABILITY | VPOLL | VVOTER | VOTE => sMapKey (cState c) = None /\ sUID (cState c) <> []
  | _ => True
  end.
(** There is at most one sub-component, or they are in a fixed order, or each has such a key. *)
Inductive steady : comp -> Prop :=
| steady_intro : forall c,
    (List.length (cSubs c) <= 1)%nat \/ In (cKind c) [VPOLL; VVOTER; VTIMEZONE] \/ Forall own_key (cSubs c) ->
    Forall steady (cSubs c) -> steady c.

Section Equality.
Variable tzo : tzid -> Z -> Z -> Z -> Z -> Z -> Z -> bool -> bool -> Z.
Variable fl : floats.
Variable phash : prop -> Z.
Definition all_props (c : comp) : list prop := List.concat (map snd (cProps c)).
(** Each component of a tree has properties that can be compared with each other, and are equal to themselves. *)
Inductive comparable : comp -> Prop :=
| comparable_intro : forall c,
    (forall p q, In p (all_props c) -> In q (all_props c) -> exists b, prop_eq tzo fl p q = Ok b) ->
    (forall p, In p (all_props c) -> prop_eq tzo fl p p = Ok true) ->
    Forall comparable (cSubs c) -> comparable c.
(** A stock of properties on which == never raises and is an equivalence, and equal properties have equal hashes. *)
Definition regular (U : prop -> Prop) : Prop :=
  (forall p q, U p -> U q -> exists b, prop_eq tzo fl p q = Ok b) /\
  (forall p, U p -> prop_eq tzo fl p p = Ok true) /\
  (forall p q, U p -> U q -> prop_eq tzo fl p q = Ok true -> prop_eq tzo fl q p = Ok true) /\
  (forall p q r, U p -> U q -> U r -> prop_eq tzo fl p q = Ok true -> prop_eq tzo fl q r = Ok true -> prop_eq tzo fl p r = Ok true) /\
  (forall p q, U p -> U q -> prop_eq tzo fl p q = Ok true -> phash p = phash q).
(** All properties in the tree are from the stock. *)
Inductive drawn (U : prop -> Prop) : comp -> Prop :=
| drawn_intro : forall c, (forall p, In p (all_props c) -> U p) -> Forall (drawn U) (cSubs c) -> drawn U c.
(** The same type, for each property of the one an equal property of the other, and sub-components that are alike one
    by one, in some order. *)
Inductive alike : comp -> comp -> Prop :=
| alike_intro : forall c d l,
    getType (cKind c) = getType (cKind d) ->
    (forall p, In p (all_props c) -> exists q, In q (all_props d) /\ prop_eq tzo fl p q = Ok true) ->
    (forall q, In q (all_props d) -> exists p, In p (all_props c) /\ prop_eq tzo fl p q = Ok true) ->
    Permutation l (cSubs d) -> Forall2 alike (cSubs c) l -> alike c d.
End Equality.

(** Values without floats, periods, rules and local times. *)
Definition simple_item (i : item) : Prop :=
  match i with
  | VText _ | VPlain _ _ | VUri _ | VInteger _ | VOffset _ | VDuration _ | VStatus _ => True
  | VDateTime d => mDateOnly d = false /\ mTZUTC d = true
  | _ => False
  end.
(** Properties with such a value, and with every parameter name once. *)
Definition simple_prop (p : prop) : Prop :=
  NoDup (map fst (pParams p)) /\
  match pValue p with
  | None => True
  | Some (Single i) => simple_item i
  | Some (Multi _ l) => Forall simple_item l
  end.
(** Every component is in one that may hold it. *)
Inductive nested : comp -> Prop :=
| nested_intro : forall k s ps subs, Forall (fun c => may_hold k (getType (cKind c))) subs -> Forall nested subs -> nested (Comp k s ps subs).
