(** Model of icalendar/vfreebusy.py (VFreeBusy) and icalendar/freebusy.py (FreeBusy), and of the free-busy methods of
    icalendar/calendar.py.  Line numbers are those of vfreebusy.py unless another file is named.  Definitions only.

    The component is its properties and the fields of the object.  Dates and periods are values here.  getEnd fills in the
    end of a period object that has a duration; that is not seen by any other function (period.py), and is left out for the
    periods of the FREEBUSY properties. *)
From Verif Require Export EditModel MakeModel.

(** freebusy.py:20-28: mType and mPeriod.  mType is a number, or whatever was given. *)
Inductive freebusy : Set := FB (ty : fbtype) (p : option period)
with fbtype : Set := Kind (n : Z) | Object (f : freebusy).
(** freebusy.py:20-23. *)
Definition FREE : Z := 0.
Definition BUSYTENTATIVE : Z := 1.
Definition BUSYUNAVAILABLE : Z := 2.
Definition BUSY : Z := 3.
(** freebusy.py:25-28: FreeBusy(type, period). *)
Definition new_freebusy (n : Z) (p : period) : res freebusy := do q <- period_duplicate p; Ok (FB (Kind n) (Some q)).
(** freebusy.py:25-28: FreeBusy(fb) with another such object. *)
Definition freebusy_of (f : freebusy) : freebusy := FB (Object f) None.
(** freebusy.py:36-43. *)
Definition fb_getType (f : freebusy) : fbtype := match f with FB t _ => t end.
Definition fb_getPeriod (f : freebusy) : option period := match f with FB _ p => p end.

(** 48-55: mHasStart, mStart, mHasEnd, mEnd, mDuration, mCachedBusyTime, mSpanPeriod, mBusyTime. *)
Record vfb : Set := mkVfb {
  bHasStart : bool; bStart : dt; bHasEnd : bool; bEnd : dt; bDuration : bool; bCached : bool; bSpan : option period; bTime : option (list freebusy) }.
(** 46-55. *)
Definition new_vfb : vfb := mkVfb false epoch false epoch false false None None.
(** 57-66.  mSpanPeriod is that of a new object. *)
Definition vfb_duplicate (b : vfb) : vfb := mkVfb (bHasStart b) (bStart b) (bHasEnd b) (bEnd b) (bDuration b) false None None.
(** The fields that the functions set together. *)
Definition set_bounds (b : vfb) (hs : bool) (s : dt) (he : bool) (e : dt) (du : bool) : vfb := mkVfb hs s he e du (bCached b) (bSpan b) (bTime b).

(** 74-99.  mHasEnd stays if there is no DTEND, mDuration stays if there is neither. *)
Definition vfb_finalise (ps : props) (b : vfb) : vfb :=
  let has := match loadDateTime (lit "DTSTART") ps with Some _ => true | None => false end in
  let start := match loadDateTime (lit "DTSTART") ps with Some d => d | None => bStart b end in
  match loadDateTime (lit "DTEND") ps with
  | Some e => set_bounds b has start true e false
  | None =>
    match loadDuration (lit "DURATION") ps with
    | Some du => set_bounds b has start (bHasEnd b) (addSeconds start (getTotalSeconds du)) true
    | None => set_bounds b has start (bHasEnd b) start (bDuration b)
    end
  end.

(** 234-263: None if the times of this property do not count. *)
Definition busy_kind (p : prop) : res (option Z) :=
  match assoc (lit "FBTYPE") (pParams p) with
  | None => Ok (Some BUSY)
  | Some l =>
    do v <- first_value l;
    Ok (if beq (upper v) (lit "BUSY") then Some BUSY
        else if beq (upper v) (lit "BUSY-UNAVAILABLE") then Some BUSYUNAVAILABLE
        else if beq (upper v) (lit "BUSY-TENTATIVE") then Some BUSYTENTATIVE
        else None)
  end.
(** 268-278: the periods of a value that is a list of periods. *)
Definition periods_of (p : prop) : list period :=
  match pValue p with
  | Some (Multi T_PERIOD l) => flat_map (fun i => match i with VPeriod q => [q] | _ => [] end) l
  | _ => []
  end.

Section WithTz.
Variable tzo : tzid -> Z -> Z -> Z -> Z -> Z -> Z -> bool -> bool -> Z.

(** mBusyTime, min_start and max_end. *)
Record gathered : Set := mkFound { fTimes : list freebusy; fMin : dt; fMax : dt }.
(** 281-293: one period. *)
Definition add_busy_period (n : Z) (q : period) (f : gathered) : gathered * res unit :=
  match new_freebusy n q with
  | Raise e => (f, Raise e)
  | Ok x =>
    let l := fTimes f ++ [x] in
    match snd (getEnd q) with
    | Raise e => (mkFound l (fMin f) (fMax f), Raise e)
    | Ok e =>
      match fTimes f with
      | [] => (mkFound l (pStart q) e, Ok tt)
      | _ =>
        match dt_gt tzo (fMin f) (pStart q) with
        | Raise x => (mkFound l (fMin f) (fMax f), Raise x)
        | Ok a =>
          let m := if a then pStart q else fMin f in
          match dt_lt tzo (fMax f) e with
          | Raise x => (mkFound l m (fMax f), Raise x)
          | Ok b => (mkFound l m (if b then e else fMax f), Ok tt)
          end
        end
      end
    end
  end.
Fixpoint add_busy_periods (n : Z) (l : list period) (f : gathered) : gathered * res unit :=
  match l with
  | [] => (f, Ok tt)
  | q :: r => match add_busy_period n q f with (f, Ok _) => add_busy_periods n r f | (f, Raise e) => (f, Raise e) end
  end.
(** 230-293. *)
Fixpoint add_busy_props (l : list prop) (f : gathered) : gathered * res unit :=
  match l with
  | [] => (f, Ok tt)
  | p :: r =>
    match busy_kind p with
    | Raise e => (f, Raise e)
    | Ok None => add_busy_props r f
    | Ok (Some n) => match add_busy_periods n (periods_of p) f with (f, Ok _) => add_busy_props r f | (f, Raise e) => (f, Raise e) end
    end
  end.
(** 303: the comparison of two times of the list; every one has a period. *)
Definition cmp_busy (x y : freebusy) : res Z :=
  match fb_getPeriod x, fb_getPeriod y with
  | Some p, Some q => compareDateTime tzo (pStart p) (pStart q)
  | _, _ => Raise AttributeError
  end.

(** 221-319.  On an exception the list gathered so far stays, and the cache is not marked as filled. *)
Definition cacheBusyTime (ps : props) (b : vfb) : vfb * res unit :=
  let set c s t := mkVfb (bHasStart b) (bStart b) (bHasEnd b) (bEnd b) (bDuration b) c s t in
  match add_busy_props (getProperties (lit "FREEBUSY") ps) (mkFound [] epoch epoch) with
  | (f, Raise e) => (set (bCached b) (bSpan b) (Some (fTimes f)), Raise e)
  | (f, Ok _) =>
    match fTimes f with
    | [] => (set true (bSpan b) None, Ok tt)
    | _ =>
      match sort_cmp cmp_busy [] (fTimes f) with
      | Raise e => (set (bCached b) (bSpan b) (Some (fTimes f)), Raise e)
      | Ok l =>
        let start := if bHasStart b then bStart b else fMin f in
        let e := if bHasEnd b then bEnd b else fMax f in
        (set true (Some (newPeriodEnd start e)) (Some l), Ok tt)
      end
    end
  end.

(** 204-205, 213-214. *)
Definition with_cache (ps : props) (b : vfb) : vfb * res unit := if bCached b then (b, Ok tt) else cacheBusyTime ps b.
(** 208, 217: whether the window meets the span.  isPeriodOverlap(None) is an AttributeError. *)
Definition meets (window : period) (b : vfb) : res bool :=
  match bTime b with
  | None => Ok false
  | Some _ => match bSpan b with Some s => isPeriodOverlap tzo window s | None => Raise AttributeError end
  end.
(** 202-209 on object i: the fields afterwards, and what is appended to the list. *)
Definition expandPeriodComp (i : nat) (ps : props) (window : period) (b : vfb) : vfb * res (list nat) :=
  match with_cache ps b with
  | (b, Raise e) => (b, Raise e)
  | (b, Ok _) => (b, do m <- meets window b; Ok (if m then [i] else []))
  end.
(** 211-219. *)
Definition expandPeriodFB (ps : props) (window : period) (b : vfb) : vfb * res (list freebusy) :=
  match with_cache ps b with
  | (b, Raise e) => (b, Raise e)
  | (b, Ok _) => (b, do m <- meets window b; Ok (if m then map freebusy_of (match bTime b with Some l => l | None => [] end) else []))
  end.

(** ** Editing *)

(** 161-164 and, with DUE, 185-189. *)
Definition strip_bounds (ps : props) : props :=
  removeProperties (lit "DURATION") (removeProperties (lit "DTEND") (removeProperties (lit "DTSTART") ps)).
(** 101-117. *)
Definition vfb_fixStartEnd (b : vfb) : res vfb :=
  if bHasStart b then
    do x <- dt_le tzo (bEnd b) (bStart b);
    if x then
      if mDateOnly (bStart b) then Ok (set_bounds b true (bStart b) (bHasEnd b) (offsetDay (bStart b) 1) true)
      else Ok (set_bounds b true (bStart b) (bHasEnd b) (setHHMMSS (offsetDay (bStart b) 1) 0 0 0) false)
    else Ok b
  else Ok b.
(** 153-175. *)
Definition vfb_editTimingStartEnd (start e : dt) (c : props * vfb) : (props * vfb) * res unit :=
  let '(ps, b) := c in
  let b := set_bounds b true start true e false in
  match vfb_fixStartEnd b with
  | Raise x => ((ps, b), Raise x)
  | Ok b =>
    let ps := addProperty (date_prop (lit "DTSTART") start) (strip_bounds ps) in
    if negb (mDateOnly start) then ((addProperty (date_prop (lit "DTEND") e) ps, b), Ok tt)
    else
      match dt_ne tzo e (offsetDay start 1) with
      | Raise x => ((ps, b), Raise x)
      | Ok true => ((addProperty (date_prop (lit "DTEND") e) ps, b), Ok tt)
      | Ok false => ((ps, b), Ok tt)
      end
  end.
End WithTz.

(** 140-151: setToday raises (see EditModel.editTiming). *)
Definition vfb_editTiming (c : props * vfb) : (props * vfb) * res unit :=
  let '(ps, b) := c in ((ps, set_bounds b false (bStart b) false (bEnd b) false), Raise AttributeError).
(** 177-199. *)
Definition vfb_editTimingStartDuration (start : dt) (d : dur) (c : props * vfb) : (props * vfb) * res unit :=
  let '(ps, b) := c in
  let b := set_bounds b true start false (addSeconds start (getTotalSeconds d)) true in
  let ps := addProperty (date_prop (lit "DTSTART") start) (removeProperties (lit "DUE") (strip_bounds ps)) in
  if negb (mDateOnly start) || negb (dWeeks d =? 0) || (1 <? dDays d)
  then ((addProperty (duration_prop (lit "DURATION") d) ps, b), Ok tt) else ((ps, b), Ok tt).

(** ** The calendar *)

(** calendar.py:499-502: a VFreeBusy has no expandPeriod, nor has an unknown component of that type. *)
Definition getVFreeBusyList (c : cal) : res (list nat) :=
  match getComponents (Some (lit "VFREEBUSY")) c with [] => Ok [] | _ => Raise AttributeError end.
(** calendar.py:565-586: for the first instance that is not at a date, getProperty is called with two arguments and calls
    loadValue with two, which takes one (componentbase.py:193-194, 455). *)
Fixpoint busy_instances (l : list expanded) : res unit :=
  match l with
  | [] => Ok tt
  | x :: r => if mDateOnly (xStart x) then busy_instances r else Raise TypeError
  end.
(** calendar.py:559-599, with an empty list: what it is afterwards.  A calendar has no getVFreeBusy (590). *)
Definition getFreeBusy tzo order (fuel : nat) (linked : nat -> bool) (range : period) (c : cal) (tim : nat -> timing)
  : option ((nat -> timing) * res (list freebusy)) :=
  match getVEvents tzo order fuel linked range true c tim with
  | None => None
  | Some (tim, Raise e) => Some (tim, Raise e)
  | Some (tim, Ok xs) => Some (tim, do _ <- busy_instances xs; Raise AttributeError)
  end.
