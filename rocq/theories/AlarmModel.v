(** Model of the cached state of alarms: icalendar/valarm.py:48-296 (actions), 312-338 (constructor), 413-474 (finalise), 503-679 (editing and
    triggers).  ComponentModel.v has the sort key, ValidateModel.v the validation.  The alarm is its properties and its cached
    values; what is changed before an exception stays changed.  Line numbers are those of valarm.py unless another file is
    named.  Definitions only. *)
From Verif Require Export MakeModel.

(** mActionData: the classes 48-296.  Base is VAlarmAction (48-71) itself.  A text is None if it was not given or not loaded. *)
Inductive adata : Set :=
| Audio (speak : option bytes) | Display (description : option bytes)
| Email (description summary : option bytes) (attendees : option (list (option bytes)))
| UnknownAction | Uri (uri : option bytes) | NoAction | Base (type : Z).

(** The fields that 312-338 set; mNextTrigger is never set to anything else than its first value (see initNextTrigger). *)
Record valarm : Set := mkAlarm {
  aAction : Z; aAbsolute : bool; aOnStart : bool; aOn : dt; aBy : dur; aRepeats : Z; aInterval : dur;
  aStatusInit : bool; aStatus : Z; aLast : dt; aDone : Z; aData : adata }.
(** 312-338: __init__. *)
Definition newAlarm : valarm :=
  mkAlarm 1 false true newDefault (setDuration 3600) 0 (setDuration 300) false 0 newDefault 0 (Display (Some [])).
Definition set_action (a : valarm) (x : Z) (d : adata) : valarm :=
  mkAlarm x (aAbsolute a) (aOnStart a) (aOn a) (aBy a) (aRepeats a) (aInterval a) (aStatusInit a) (aStatus a) (aLast a) (aDone a) d.
Definition set_trigger (a : valarm) (absolute on_start : bool) (on : dt) (by_ : dur) : valarm :=
  mkAlarm (aAction a) absolute on_start on by_ (aRepeats a) (aInterval a) (aStatusInit a) (aStatus a) (aLast a) (aDone a) (aData a).
Definition set_repeats (a : valarm) (n : Z) (i : dur) : valarm :=
  mkAlarm (aAction a) (aAbsolute a) (aOnStart a) (aOn a) (aBy a) n i (aStatusInit a) (aStatus a) (aLast a) (aDone a) (aData a).
Definition set_status (a : valarm) (i : bool) (s : Z) (l : dt) (n : Z) : valarm :=
  mkAlarm (aAction a) (aAbsolute a) (aOnStart a) (aOn a) (aBy a) (aRepeats a) (aInterval a) i s l n (aData a).

(** property.py:157-162: getCalAddressValue().getValue() of each ATTENDEE that has one (191-199). *)
Definition address_of (p : prop) : list (option bytes) :=
  match pValue p with Some (Single (VPlain PCalAddress s)) => [s] | _ => [] end.
(** loadAction (623-627) with sActionToAlarmMap (302-308), and load of each class (61-62, 94-96, 138-140, 186-199, 269-271). *)
Definition load_action (action : Z) (ps : props) : adata :=
  if action =? 0 then Audio (loadString (lit "X-MULBERRY-SPEAK-TEXT") ps)
  else if action =? 1 then Display (loadString (lit "DESCRIPTION") ps)
  else if action =? 2 then
    Email (loadString (lit "DESCRIPTION") ps) (loadString (lit "SUMMARY") ps) (Some (flat_map address_of (getProperties (lit "ATTENDEE") ps)))
  else if action =? 5 then Uri (loadString (lit "URL") ps)
  else if action =? 6 then NoAction
  else UnknownAction.

(** 435-446: mTriggerOnStart when the trigger is a duration. *)
Definition load_related (was : bool) (p : option prop) : res bool :=
  match p with
  | None => Ok was
  | Some p =>
    match assoc (lit "RELATED") (pParams p) with
    | None => Ok true
    | Some l => do v <- first_value l; Ok (if beq v (lit "START") then true else if beq v (lit "END") then false else was)
    end
  end.
(** 413-474 for these fields. *)
Definition alarm_load (ps : props) (a : valarm) : res valarm :=
  let a := match loadString (lit "ACTION") ps with
           | Some t => let x := match assoc t action_map with Some x => x | None => 4 end in set_action a x (load_action x ps)
           | None => a
           end in
  do a <- match loadDateTime (lit "TRIGGER") ps, loadDuration (lit "TRIGGER") ps with
          | Some d, _ => Ok (set_trigger a true (aOnStart a) d (aBy a))
          | None, Some d => do s <- load_related (aOnStart a) (findFirstProperty (lit "TRIGGER") ps); Ok (set_trigger a false s (aOn a) d)
          | None, None => Ok a
          end;
  let n := match loadInteger (lit "REPEAT") ps with Some n => n | None => aRepeats a end in
  let i := match loadDuration (lit "DURATION") ps with Some d => d | None => aInterval a end in
  let a := set_repeats a n i in
  let s := match loadString (lit "X-MULBERRY-ALARM-STATUS") ps with
           | Some t => if beq t (lit "PENDING") then 0 else if beq t (lit "COMPLETED") then 1 else if beq t (lit "DISABLED") then 2 else 0
           | None => aStatus a
           end in
  let l := match loadDateTime (lit "X-MULBERRY-LAST-TRIGGER") ps with Some d => d | None => aLast a end in
  Ok (set_status a (aStatusInit a) s l (aDone a)).

Definition alarm_state : Set := props * valarm.
(** Property(name, text) with a text that can be None. *)
Definition str_prop (name : bytes) (s : option bytes) : prop :=
  match s with Some s => text_prop 0 name None s | None => mkProp name [] None end.
(** remove of each class (67-68, 105-106, 149-150, 215-218, 280-281). *)
Definition remove_action (d : adata) (ps : props) : props :=
  match d with
  | Audio _ => removeProperties (lit "X-MULBERRY-SPEAK-TEXT") ps
  | Display _ => removeProperties (lit "DESCRIPTION") ps
  | Email _ _ _ => removeProperties (lit "ATTENDEE") (removeProperties (lit "SUMMARY") (removeProperties (lit "DESCRIPTION") ps))
  | Uri _ => removeProperties (lit "URL") ps
  | UnknownAction | NoAction | Base _ => ps
  end.
(** 211-213: Property(ATTENDEE, attendee, CAL-ADDRESS). *)
Definition attendee_prop (s : option bytes) : prop :=
  match s with Some s => text_prop 0 (lit "ATTENDEE") (Some T_CALADDRESS) s | None => mkProp (lit "ATTENDEE") [] None end.
(** add of each class (64-65, 98-103, 142-147, 201-213, 273-278): the properties and how it ended.  Iterating None raises. *)
Definition add_action (d : adata) (ps : props) : props * res unit :=
  let ps := remove_action d ps in
  match d with
  | Audio s => (addProperty (str_prop (lit "X-MULBERRY-SPEAK-TEXT") s) ps, Ok tt)
  | Display s => (addProperty (str_prop (lit "DESCRIPTION") s) ps, Ok tt)
  | Email s t l =>
    let ps := addProperty (str_prop (lit "SUMMARY") t) (addProperty (str_prop (lit "DESCRIPTION") s) ps) in
    match l with
    | Some l => (fold_left (fun ps a => addProperty (attendee_prop a) ps) l ps, Ok tt)
    | None => (ps, Raise TypeError)
    end
  | Uri s => (addProperty (str_prop (lit "URL") s) ps, Ok tt)
  | UnknownAction | NoAction | Base _ => (ps, Ok tt)
  end.

(** 38-45 with definitions.py:303-312, 327-334. *)
Definition action_text (x : Z) : bytes :=
  if x =? 0 then lit "AUDIO" else if x =? 1 then lit "DISPLAY" else if x =? 2 then lit "EMAIL" else if x =? 3 then lit "PROCEDURE"
  else if x =? 5 then lit "URI" else if x =? 6 then lit "NONE" else lit "PROCEDURE".
(** 520-536. *)
Definition editAction (action : Z) (data : adata) (c : alarm_state) : alarm_state * res unit :=
  let '(ps, a) := c in
  let ps := remove_action (aData a) (removeProperties (lit "ACTION") ps) in
  let ps := addProperty (text_prop 0 (lit "ACTION") None (action_text action)) ps in
  let '(ps, r) := add_action data ps in ((ps, set_action a action data), r).

(** 511-518, 611-618: the text of a status; the empty text for any other number. *)
Definition status_text (s : Z) : bytes :=
  if s =? 0 then lit "PENDING" else if s =? 1 then lit "COMPLETED" else if s =? 2 then lit "DISABLED" else [].
(** 503-518. *)
Definition editStatus (s : Z) (c : alarm_state) : alarm_state * res unit :=
  let '(ps, a) := c in
  ((addProperty (text_prop 0 (lit "X-MULBERRY-ALARM-STATUS") None (status_text s)) (removeProperties (lit "X-MULBERRY-ALARM-STATUS") ps),
    set_status a (aStatusInit a) s (aLast a) (aDone a)), Ok tt).

(** 538-548. *)
Definition editTriggerOn (d : dt) (c : alarm_state) : alarm_state * res unit :=
  let '(ps, a) := c in
  ((addProperty (date_prop (lit "TRIGGER") d) (removeProperties (lit "TRIGGER") ps), set_trigger a true (aOnStart a) d (aBy a)), Ok tt).

(** 550-569. *)
Definition editTriggerBy (d : dur) (on_start : bool) (c : alarm_state) : alarm_state * res unit :=
  let '(ps, a) := c in
  let p := duration_prop (lit "TRIGGER") d in
  let p := mkProp (pName p) (add_param (lit "RELATED") (lit "RELATED", [if negb on_start then lit "END" else lit "START"]) (pParams p)) (pValue p) in
  ((addProperty p (removeProperties (lit "TRIGGER") ps), set_trigger a false on_start (aOn a) d), Ok tt).

(** 571-583. *)
Definition editRepeats (n : Z) (i : dur) (c : alarm_state) : alarm_state * res unit :=
  let '(ps, a) := c in
  let ps := removeProperties (lit "DURATION") (removeProperties (lit "REPEAT") ps) in
  let ps := if 0 <? n then addProperty (duration_prop (lit "DURATION") i) (addProperty (with_value (lit "REPEAT") (Single (VInteger n))) ps) else ps in
  ((ps, set_repeats a n i), Ok tt).

(** 664-677.  A DateTime has no method copy, and an alarm has no method getEmbedder. *)
Definition getFirstTrigger (a : valarm) : res unit := Raise AttributeError.
(** 629-662: it stops at getFirstTrigger. *)
Definition initNextTrigger (a : valarm) : valarm * res unit :=
  if aStatus a =? 1 then (a, Ok tt)
  else let a := set_status a true (aStatus a) (aLast a) 0 in (a, getFirstTrigger a).
(** 588-591: dt.copy. *)
Definition getNextTrigger (c : alarm_state) : alarm_state * res unit :=
  let '(ps, a) := c in
  if aStatusInit a then (c, Raise AttributeError)
  else let '(a, r) := initNextTrigger a in ((ps, a), match r with Ok _ => Raise AttributeError | Raise e => Raise e end).
(** 593-599: mLastTrigger.copy. *)
Definition alarmTriggered (c : alarm_state) : alarm_state * res unit :=
  let '(ps, a) := c in
  ((removeProperties (lit "X-MULBERRY-ALARM-STATUS") (removeProperties (lit "X-MULBERRY-LAST-TRIGGER") ps), a), Raise AttributeError).
