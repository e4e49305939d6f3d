(** Model of duplicate: values (plaintextvalue.py:27-28, integervalue.py:28-29, valueutils.py:71-72, multivalue.py:30-33 and
    the other value classes), properties (icalendar/property.py:233-239) and components (componentbase.py:55-64 and the
    component classes).  A copy is another object with equal parts; that the parts are not shared is not modelled.
    Definitions only. *)
From Verif Require Export RecurExpand ComponentModel.

(** period.py:43-48: the copy keeps what mUseDuration says is in use (None.duplicate() raises). *)
Definition period_duplicate (p : period) : res period :=
  if pUse p then match pDur p with Some d => Ok (newPeriodDur (pStart p) d) | None => Raise AttributeError end
  else match pEnd p with Some e => Ok (newPeriodEnd (pStart p) e) | None => Raise AttributeError end.
(** The value classes.  Dates, durations and texts have copies with the same fields (datetime.py:96-108, duration.py:38-49). *)
Definition item_duplicate (i : item) : res item :=
  match i with
  | VPeriod p => do q <- period_duplicate p; Ok (VPeriod q)
  | VRecur r => do q <- rule_duplicate r; Ok (VRecur q)
  | _ => Ok i
  end.
Definition value_duplicate (v : value) : res value :=
  match v with
  | Single i => do j <- item_duplicate i; Ok (Single j)
  | Multi t l => do m <- map_r item_duplicate l; Ok (Multi t m)
  end.
(** icalendar/property.py:233-239; without a value mValue.duplicate() raises. *)
Definition prop_duplicate (p : prop) : res prop :=
  match pValue p with
  | None => Raise AttributeError
  | Some v => do w <- value_duplicate v; Ok (mkProp (pName p) (pParams p) (Some w))
  end.
(** componentbase.py:61-63. *)
Definition props_duplicate (ps : props) : res props :=
  map_r (fun kl => do l <- map_r prop_duplicate (snd kl); Ok (fst kl, l)) ps.

(** What the classes copy: component.py:55-65, componentrecur.py:99-126 (mStart, mHasStart, mRecurrenceID,
    mHasRecurrenceID, mMapKey), valarm.py:340-359 (not mMapKey), vtimezone.py:47-51, vtimezoneelement.py:51-60,
    vfreebusy.py:57-66, calendar.py:85-89; an UnknownComponent gets a new mMapKey (vunknown.py:30).  [uuid] is what
    uuid.uuid4() has for the copy. *)
Definition dup_state (k : kind) (uuid : bytes) (s : cstate) : cstate :=
  match k with
  | VCALENDAR => newState uuid
  | VEVENT | VTODO | VJOURNAL | AVAILABLE => mkState uuid (sUID s) (sMapKey s) [] (sStart s) (sRid s) 1
  | VALARM => mkState uuid (sUID s) None [] None None (sAction s)
  | VTIMEZONE => mkState uuid (sUID s) None (sID s) None None 1
  | STANDARD | DAYLIGHT | VFREEBUSY => mkState uuid (sUID s) None [] (sStart s) None 1
  | _ => mkState uuid (sUID s) None [] None None 1
  end.
(** componentbase.py:55-64: first the sub-components, each checked by addComponent of the class, then the properties.
    [path] says which component it is; each gets its own uuid. *)
Fixpoint duplicate (uuid : list nat -> bytes) (path : list nat) (c : comp) : res comp :=
  let '(Comp k s ps subs) := c in
  do subs' <-
    (fix each (i : nat) (l : list comp) : res (list comp) :=
       match l with
       | [] => Ok []
       | x :: r => do x' <- duplicate uuid (i :: path) x;
                   if allowed k (cKind x') then do r' <- each (S i) r; Ok (x' :: r') else Raise ValueError
       end) 0%nat subs;
  do ps' <- props_duplicate ps;
  Ok (Comp k (dup_state k (uuid path) s) ps' subs').

(** componentrecur.py:76-78, 99-103, 132-133: mMaster, with numbers for objects. *)
Definition recurring (self master : nat) : bool := negb (Nat.eqb master self).
Definition dup_master (self master : nat) : nat := if recurring self master then master else self.
