(** Model of what a recurring component caches about its time, and of its expansion over a window:
    icalendar/componentrecur.py:76-92, 158-198, 231-293, 350-373, 392-484, 675-676, icalendar/vtodo.py:224-240,
    icalendar/componentexpanded.py:20-160, icalendar/calendar.py:448-457, 490-496 and componentbase.py:511-545.
    Line numbers are those of componentrecur.py unless another file is named.  Definitions only.

    Objects are shared in the code: mStart is the value object of DTSTART, the dates of the results are objects of the
    rule caches.  Nothing here changes a date that is already there except by normalise (modelled) and by filling its own
    caches (which fresh objects do not have; see RecurSetModel.v). *)
From Verif Require Export CalendarModel RecurExpand RecurSetModel.

(** 80-92: mStamp, mHasStart, mStart, mHasEnd, mEnd, mDuration, mHasRecurrenceID, mRecurrenceID, mAdjustFuture,
    mAdjustPrior, mRecurrences. *)
Record timing : Set := mkTiming {
  tStamp : dt; tHasStart : bool; tStart : dt; tHasEnd : bool; tEnd : dt; tDuration : bool;
  tHasRid : bool; tRid : option dt; tFuture : bool; tPrior : bool; tSet : option rset }.
(** 80-92. *)
Definition new_timing : timing := mkTiming epoch false epoch false epoch false false None false false None.

(** property.py:185-190 (getRecurrenceValue) and 171-176 (getMultiValue). *)
Definition recur_of (v : option value) : option rule := match v with Some (Single (VRecur r)) => Some r | _ => None end.
Definition multi_of (v : option value) : list item := match v with Some (Multi _ l) => l | _ => [] end.

(** componentbase.py:511-523: the rules that are added to the set.  They are the value objects of the properties; they
    are taken to be objects that were not expanded before. *)
Definition load_rules (name : bytes) (ps : props) : list (rule * rcache) :=
  flat_map (fun p => match recur_of (pValue p) with Some r => [(r, cache_init)] | None => [] end) (getProperties name ps).
(** componentbase.py:525-545: the dates. *)
Definition load_dates (name : bytes) (ps : props) : list dt :=
  flat_map (fun p => flat_map (fun i => match i with VDateTime d => [d] | _ => [] end) (multi_of (pValue p))) (getProperties name ps).
(** componentbase.py:538-542: of a period only the start is added, a DateTime among the periods.  It has no getEnd: the
    object here is a period without an end, for which getEnd raises the same AttributeError. *)
Definition load_periods (name : bytes) (ps : props) : list period :=
  flat_map (fun p => flat_map (fun i => match i with VPeriod q => [mkPeriod (pStart q) None None false] | _ => [] end) (multi_of (pValue p)))
    (getProperties name ps).
(** 350-373. *)
Definition load_set (ps : props) : option rset :=
  let has name := negb (countProperty (lit name) ps =? 0)%nat in
  if has "RRULE"%string || has "RDATE"%string || has "EXRULE"%string || has "EXDATE"%string
  then Some (mkRset (load_rules (lit "RRULE") ps) (load_rules (lit "EXRULE") ps) (load_dates (lit "RDATE") ps)
               (load_dates (lit "EXDATE") ps) (load_periods (lit "RDATE") ps) (load_periods (lit "EXDATE") ps))
  else None.

(** 280-289: mAdjustFuture and mAdjustPrior. *)
Definition load_range (ps : props) : res (bool * bool) :=
  match findFirstProperty (lit "RECURRENCE-ID") ps with
  | None => Ok (false, false)
  | Some p => match assoc (lit "RANGE") (pParams p) with
              | None => Ok (false, false)
              | Some l => do v <- first_value l; Ok (beq v (lit "THISANDFUTURE"), beq v (lit "THISANDPRIOR"))
              end
  end.

(** 245-265: mHasEnd, mEnd and mDuration from DTEND or DURATION, with this mStart. *)
Definition load_end (start : dt) (ps : props) : bool * dt * bool :=
  match loadDateTime (lit "DTEND") ps with
  | Some e => (true, e, false)
  | None =>
    match loadDuration (lit "DURATION") ps with
    | Some du => (false, addSeconds start (getTotalSeconds du), true)
    | None => (false, if mDateOnly start then offsetDay start 1 else start, false)
    end
  end.
(** vtodo.py:228-240: mHasEnd and mEnd; mDuration stays. *)
Definition load_due (start : dt) (ps : props) (e : bool * dt * bool) : bool * dt * bool :=
  match loadDateTime (lit "DUE") ps with
  | Some d => (true, d, snd e)
  | None =>
    match loadDuration (lit "DURATION") ps with
    | Some du => (true, addSeconds start (getTotalSeconds du), snd e)
    | None => (false, snd (fst e), snd e)
    end
  end.

(** 231-293 and vtodo.py:224-240: finalise of a component of kind k.  The summary and what the classes add besides is left
    out.  getText of mRecurrenceID None is an AttributeError (279). *)
Definition timing_finalise (k : kind) (ps : props) (t : timing) : res timing :=
  let stamp := match loadDateTime (lit "DTSTAMP") ps with Some d => d | None => tStamp t end in
  let has := match loadDateTime (lit "DTSTART") ps with Some _ => true | None => false end in
  let start := match loadDateTime (lit "DTSTART") ps with Some d => d | None => tStart t end in
  let e := load_end start ps in
  let hasrid := negb (countProperty (lit "RECURRENCE-ID") ps =? 0)%nat in
  do r <- (if hasrid then
             match loadDateTime (lit "RECURRENCE-ID") ps with
             | None => Raise AttributeError
             | Some d => do fp <- load_range ps; Ok (Some d, fst fp, snd fp)
             end
           else Ok (tRid t, tFuture t, tPrior t));
  let '(rid, future, prior) := r in
  let '(he, en, du) := match k with VTODO => load_due start ps e | _ => e end in
  Ok (mkTiming stamp has start he en du hasrid rid future prior (load_set ps)).
(** A component that has just been parsed. *)
Definition timing_of (c : comp) : res timing := timing_finalise (cKind c) (cProps c) new_timing.

(** ** Expansion *)

(** componentexpanded.py:55-58: mOwner (the object), mInstanceStart, mInstanceEnd, mRecurring. *)
Record expanded : Set := mkExpanded { xOwner : nat; xStart : dt; xEnd : dt; xRecurring : bool }.

(** What a component is in: nothing, a calendar (then its overridden components of the same UID, as objects with their
    timings: calendar.py:490-496), or another component, which has no getRecurrenceInstancesIds. *)
Inductive parent : Set := NoParent | InCalendar (overrides : list (nat * timing)) | InOther.

Section WithTz.
Variable tzo : tzid -> Z -> Z -> Z -> Z -> Z -> Z -> bool -> bool -> Z.

(** `d + (e - s)`, datetime.py:122-160. *)
Definition shift (d e s : dt) : res dt := do n <- subDateTime tzo e s; Ok (addSeconds d (getTotalSeconds (setDuration n))).

(** componentexpanded.py:94-160 (initFromOwner), for an owner with these fields.  A date is not == None, and subtracting
    None raises ValueError (datetime.py:158-170, 191-193). *)
Definition expand_owner (i : nat) (t : timing) (rid : option dt) : res expanded :=
  match rid with
  | None => Ok (mkExpanded i (tStart t) (tEnd t) false)
  | Some d =>
    if negb (tHasRid t) then
      if tHasEnd t then do e <- shift d (tEnd t) (tStart t); Ok (mkExpanded i d e true)
      else Ok (mkExpanded i d d true)
    else
      match tRid t with
      | None => Raise ValueError
      | Some r =>
        do same <- dt_eq tzo d r;
        if same then Ok (mkExpanded i (tStart t) (tEnd t) true)
        else do s <- shift d (tStart t) r; do e <- shift s (tEnd t) (tStart t); Ok (mkExpanded i s e true)
      end
  end.

(** recurs.sort(), 406: list.sort with __lt__. *)
Fixpoint insert_dt (x : dt) (l : list dt) : res (list dt) :=
  match l with
  | [] => Ok [x]
  | y :: r => do b <- dt_lt tzo y x; if b then do r' <- insert_dt x r; Ok (y :: r') else Ok (x :: l)
  end.
Fixpoint sort_dt (l : list dt) : res (list dt) :=
  match l with [] => Ok [] | x :: r => do r' <- sort_dt r; insert_dt x r' end.

(** 430-431: list.sort(self.sort_by_dtstart); the function begins with `e1.self`, which is not an attribute (61-75).  It
    is called as soon as there are two elements. *)
Definition sort_by_dtstart (l : list (nat * timing)) : res (list (nat * timing)) :=
  match l with [] | [_] => Ok l | _ => Raise AttributeError end.
(** 441-445: from the last element down to the second, the first that starts after the item. *)
Fixpoint find_prior (l : list (nat * timing)) (d : dt) : res (option (nat * timing)) :=
  match l with
  | [] => Ok None
  | o :: r => do b <- dt_gt tzo (tStart (snd o)) d; if b then Ok (Some o) else find_prior r d
  end.
(** 448-452: a list has no elementAt. *)
Definition find_future (l : list (nat * timing)) : res (option (nat * timing)) :=
  match l with [] => Ok None | _ => Raise AttributeError end.
(** range(len(l) - 1, 0, -1): the elements but the first, from the end. *)
Definition from_last (l : list (nat * timing)) : list (nat * timing) := rev (tl l).

Variable order : list dt -> list dt.

(** `for iter in items: results.append(f(iter))`: what is in the list when it ends or an exception comes. *)
Fixpoint append_each (f : dt -> res expanded) (l : list dt) : list expanded * res unit :=
  match l with
  | [] => ([], Ok tt)
  | d :: r => match f d with
              | Raise e => ([], Raise e)
              | Ok x => let (xs, o) := append_each f r in (x :: xs, o)
              end
  end.

(** 433-456: one item, with the sorted lists of overrides. *)
Definition expand_item (i : nat) (t : timing) (prior future : list (nat * timing)) (d : dt) : res expanded :=
  do p <- find_prior (from_last prior) d;
  do f <- find_future (from_last future);
  let (j, u) := match f, p with Some o, _ => o | None, Some o => o | None, None => (i, t) end in
  expand_owner j u (Some d).

(** 399-461: from the items of the recurrence set to the results.  An overridden component without mRecurrenceID is left
    out; the index of a calendar has none unless it is edited after it was added. *)
Definition expand_items (i : nat) (t : timing) (overrides : list (nat * timing)) (items : list dt) : list expanded * res unit :=
  match sort_dt (flat_map (fun o => match tRid (snd o) with Some d => [d] | None => [] end) overrides) with
  | Raise e => ([], Raise e)
  | Ok [] => append_each (fun d => expand_owner i t (Some d)) items
  | Ok recurs =>
    match set_difference tzo order items recurs with
    | Raise e => ([], Raise e)
    | Ok items =>
      let prior := filter (fun o => tPrior (snd o)) overrides in
      let future := filter (fun o => tFuture (snd o)) overrides in
      match prior ++ future with
      | [] => append_each (fun d => expand_owner i t (Some d)) items
      | _ =>
        match sort_by_dtstart prior, sort_by_dtstart future with
        | Ok prior, Ok future => append_each (expand_item i t prior future) items
        | Raise e, _ | _, Raise e => ([], Raise e)
        end
      end
    end
  end.

(** What expand does to the fields it is given: mStart is normalised if there is a rule, and the rules have new caches. *)
Definition after_expand (s s' : rset) (t : timing) : timing :=
  mkTiming (tStamp t) (tHasStart t) (match sRrules s with [] => tStart t | _ => normalise (tStart t) end) (tHasEnd t) (tEnd t)
    (tDuration t) (tHasRid t) (tRid t) (tFuture t) (tPrior t) (Some s').

(** 470-484.  The rules may need any number of rounds; None says that the fuel is used up. *)
Definition withinPeriod (fuel : nat) (t : timing) (range : period) : option (timing * res bool) :=
  match tSet t with
  | Some s =>
    if hasRecurrence s then
      match rset_expand tzo order fuel s (tStart t) range 0 None with
      | None => None
      | Some (s', (items, r)) => Some (after_expand s s' t, do _ <- r; Ok (match items with [] => false | _ => true end))
      end
    else Some (t, do a <- dt_le tzo (tEnd t) (pStart range);
                  if a then Ok false else do e <- snd (getEnd range); do b <- dt_ge tzo (tStart t) e; Ok (negb b))
  | None => Some (t, do a <- dt_le tzo (tEnd t) (pStart range);
                     if a then Ok false else do e <- snd (getEnd range); do b <- dt_ge tzo (tStart t) e; Ok (negb b))
  end.

(** 192-193. *)
Definition isRecurring (t : timing) : bool := match tSet t with Some s => hasRecurrence s | None => false end.

(** 392-468: expandPeriod of object i with timing t: the timing afterwards, what is appended to the results, and how it
    ends. *)
Definition expandPeriod (fuel : nat) (i : nat) (t : timing) (p : parent) (range : period) : option (timing * (list expanded * res unit)) :=
  match tSet t, isRecurring t && negb (tHasRid t) with
  | Some s, true =>
    match rset_expand tzo order fuel s (tStart t) range 0 None with
    | None => None
    | Some (s', (items, r)) =>
      let t' := after_expand s s' t in
      match r with
      | Raise e => Some (t', ([], Raise e))
      | Ok _ =>
        Some (t', match p with
                  | NoParent => ([], Ok tt)
                  | InOther => ([], Raise AttributeError)
                  | InCalendar overrides => expand_items i t' overrides items
                  end)
      end
    end
  | _, _ =>
    match withinPeriod fuel t range with
    | None => None
    | Some (t', r) =>
      Some (t', match r with
                | Raise e => ([], Raise e)
                | Ok false => ([], Ok tt)
                | Ok true => match expand_owner i t' (if tHasRid t then tRid t else None) with
                             | Raise e => ([], Raise e)
                             | Ok x => ([x], Ok tt)
                             end
                end)
    end
  end.

(** ** A calendar *)

(** list.sort(cmp) of Python 2: stable, and x comes before y if cmp(x, y) < 0.  Which pairs are compared depends on the
    algorithm; here each element is moved to the left as long as it comes before its neighbour. *)
Fixpoint move_left {A} (cmp : A -> A -> res Z) (x : A) (before : list A) : res (list A) :=
  match before with
  | [] => Ok [x]
  | y :: r => do c <- cmp x y; if c <? 0 then do r' <- move_left cmp x r; Ok (y :: r') else Ok (x :: y :: r)
  end.
Fixpoint sort_cmp {A} (cmp : A -> A -> res Z) (before l : list A) : res (list A) :=
  match l with [] => Ok (rev before) | x :: r => do before <- move_left cmp x before; sort_cmp cmp before r end.

(** A comparison function that returns a truth value: False is 0 and True is 1. *)
Definition as_int (b : bool) : Z := if b then 1 else 0.
(** componentexpanded.py:22-39; the owners have these timings. *)
Definition cmp_allday (tim : nat -> timing) (x y : expanded) : res Z :=
  do b <- (if mDateOnly (xStart x) && mDateOnly (xStart y) then dt_lt tzo (xStart x) (xStart y)
           else if mDateOnly (xStart x) then Ok true
           else if mDateOnly (xStart y) then Ok false
           else do same <- dt_eq tzo (xStart x) (xStart y);
                if same then
                  do same <- dt_eq tzo (xEnd x) (xEnd y);
                  if same then dt_lt tzo (tStamp (tim (xOwner x))) (tStamp (tim (xOwner y))) else dt_gt tzo (xEnd x) (xEnd y)
                else dt_lt tzo (xStart x) (xStart y));
  Ok (as_int b).
(** componentexpanded.py:41-52. *)
Definition cmp_start (x y : expanded) : res Z :=
  do same <- dt_eq tzo (xStart x) (xStart y);
  do b <- (if same then
             if mDateOnly (xStart x) && negb (mDateOnly (xStart y)) || negb (mDateOnly (xStart x)) && mDateOnly (xStart y)
             then Ok (mDateOnly (xStart x)) else Ok false
           else dt_lt tzo (xStart x) (xStart y));
  Ok (as_int b).

(** calendar.py:490-496 for the UID of component i: its overridden components. *)
Definition overrides_of (c : cal) (tim : nat -> timing) (i : nat) : list (nat * timing) :=
  map (fun j => (j, tim j)) (getRecurrenceInstancesItems (getUID (heap c i)) c).
(** calendar.py:450-451: the components one after the other.  mParentComponent is this calendar or, for a component that
    was made without a parent, None; addComponent does not set it (componentbase.py:126-127).  An UnknownComponent (such
    as one of type vevent, which getComponents finds) has no expandPeriod. *)
Fixpoint expand_each (fuel : nat) (linked : nat -> bool) (range : period) (c : cal) (tim : nat -> timing) (l : list nat)
  : option ((nat -> timing) * (list expanded * res unit)) :=
  match l with
  | [] => Some (tim, ([], Ok tt))
  | i :: r =>
    if negb (is_recur (cKind (heap c i))) then Some (tim, ([], Raise AttributeError)) else
    match expandPeriod fuel i (tim i) (if linked i then InCalendar (overrides_of c tim i) else NoParent) range with
    | None => None
    | Some (t, (xs, o)) =>
      let tim := fun j => if Nat.eqb j i then t else tim j in
      match o with
      | Raise e => Some (tim, (xs, Raise e))
      | Ok _ => match expand_each fuel linked range c tim r with
                | None => None
                | Some (tim, (ys, o)) => Some (tim, (xs ++ ys, o))
                end
      end
    end
  end.
(** calendar.py:448-457, with an empty list. *)
Definition getVEvents (fuel : nat) (linked : nat -> bool) (range : period) (allday : bool) (c : cal) (tim : nat -> timing)
  : option ((nat -> timing) * res (list expanded)) :=
  match expand_each fuel linked range c tim (getComponents (Some (lit "VEVENT")) c) with
  | None => None
  | Some (tim, (_, Raise e)) => Some (tim, Raise e)
  | Some (tim, (xs, Ok _)) => Some (tim, sort_cmp (if allday then cmp_allday tim else cmp_start) [] xs)
  end.
End WithTz.
