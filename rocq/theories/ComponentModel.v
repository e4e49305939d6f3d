(** Model of component trees: componentbase.py (property dictionary, sub-components, sorting, generate),
    containerbase.py (parse), icalendar/component.py, componentrecur.py, calendar.py and the component classes.
    Typed properties are those of PropertyModel.v, folding and unfolding those of LineModel.v.
    Definitions only. *)
From Verif Require Export PropertyModel.

(** The classes registered with Component.registerComponent (component.py:36-38: vevent.py:163, vtodo.py:353,
    vjournal.py:69, vfreebusy.py:329, vtimezone.py:290, vtimezonestandard.py:33, vtimezonedaylight.py:33, valarm.py:679,
    vavailability.py:116, available.py:89, vpoll.py:83, vvoter.py:67, vote.py:49, vunknown.py:61), and Calendar
    (calendar.py:37).  An UnknownComponent has its type as data (vunknown.py:29). *)
Inductive kind : Set :=
| VCALENDAR | VEVENT | VTODO | VJOURNAL | VFREEBUSY | VTIMEZONE | STANDARD | DAYLIGHT | VALARM | VAVAILABILITY
| AVAILABLE | VPOLL | VVOTER | VOTE | UNKNOWN (mType : bytes).

(** getType of each class; icalendar/definitions.py:19-28, 317-318, 355-357. *)
Definition getType (k : kind) : bytes :=
  match k with
  | VCALENDAR => lit "VCALENDAR" | VEVENT => lit "VEVENT" | VTODO => lit "VTODO" | VJOURNAL => lit "VJOURNAL"
  | VFREEBUSY => lit "VFREEBUSY" | VTIMEZONE => lit "VTIMEZONE" | STANDARD => lit "STANDARD"
  | DAYLIGHT => lit "DAYLIGHT" | VALARM => lit "VALARM" | VAVAILABILITY => lit "VAVAILABILITY"
  | AVAILABLE => lit "AVAILABLE" | VPOLL => lit "VPOLL" | VVOTER => lit "VVOTER" | VOTE => lit "VOTE"
  | UNKNOWN t => t
  end.
(** componentbase.py:80-84, vunknown.py:38-42. *)
Definition beginDelimiter (k : kind) : bytes := lit "BEGIN:" ++ getType k.
Definition endDelimiter (k : kind) : bytes := lit "END:" ++ getType k.

(** component.py:40-45: the mapper; BEGIN:UNKNOWN makes an UnknownComponent with the default comptype "". *)
Definition mapper : list (bytes * kind) :=
  map (fun k => (getType k, k)) [VEVENT; VTODO; VJOURNAL; VFREEBUSY; VTIMEZONE; STANDARD; DAYLIGHT; VALARM;
    VAVAILABILITY; AVAILABLE; VPOLL; VVOTER; VOTE] ++ [(lit "UNKNOWN", UNKNOWN [])].
Definition kind_of (compname : bytes) : kind :=
  match assoc compname mapper with Some k => k | None => UNKNOWN compname end.

(** isinstance(component, ComponentRecur): vevent.py:25, vtodo.py:27, vjournal.py:24, available.py:23. *)
Definition is_recur (k : kind) : bool :=
  match k with VEVENT | VTODO | VJOURNAL | AVAILABLE => true | _ => false end.

(** mProperties: a dictionary from upper-case names to lists, as an association list in order of insertion. *)
Definition props : Set := list (bytes * list prop).

(** What finalise and the setters store in a component, as far as it is used here: mUID (component.py:50), mMapKey
    (None: not set, or None as in componentrecur.py:79), mID (vtimezone.py:42), mStart when there is one
    (componentrecur.py:83-84, vtimezoneelement.py:43), mRecurrenceID (componentrecur.py:91), mAction
    (valarm.py:316).  sUuid is the value uuid.uuid4() has for this object if it is asked for (component.py:78,
    componentrecur.py:145, vunknown.py:30): each object asks at most once between two calls of finalise. *)
Record cstate : Set := mkState {
  sUuid : bytes; sUID : bytes; sMapKey : option bytes; sID : bytes; sStart : option dt; sRid : option dt; sAction : Z }.
(** The constructors: component.py:47-53, componentrecur.py:76-92, valarm.py:316, vtimezone.py:42. *)
Definition newState (uuid : bytes) : cstate := mkState uuid [] None [] None None 1.

(** A component: class, cached state, mProperties, mComponents (componentbase.py:42-45).  The parent link is left
    out: it is the component it is in. *)
Inductive comp : Set := Comp (k : kind) (s : cstate) (ps : props) (subs : list comp).
Definition cKind (c : comp) : kind := let '(Comp k _ _ _) := c in k.
Definition cState (c : comp) : cstate := let '(Comp _ s _ _) := c in s.
Definition cProps (c : comp) : props := let '(Comp _ _ p _) := c in p.
Definition cSubs (c : comp) : list comp := let '(Comp _ _ _ l) := c in l.
(** component.py:43-45. *)
Definition makeComponent (compname uuid : bytes) : comp := Comp (kind_of compname) (newState uuid) [] [].

(** componentbase.py:165-166. *)
Fixpoint add_prop (key : bytes) (p : prop) (ps : props) : props :=
  match ps with
  | [] => [(key, [p])]
  | (k, l) :: r => if beq k key then (k, l ++ [p]) :: r else (k, l) :: add_prop key p r
  end.
Definition addProperty (p : prop) (ps : props) : props := add_prop (upper (pName p)) p ps.
(** componentbase.py:159-160, 168-175 (the names asked for here are upper case already). *)
Definition getProperties (name : bytes) (ps : props) : list prop := match assoc name ps with Some l => l | None => [] end.
Definition hasProperty (name : bytes) (ps : props) : bool := match assoc name ps with Some _ => true | None => false end.
Definition countProperty (name : bytes) (ps : props) : nat := List.length (getProperties name ps).
Definition findFirstProperty (name : bytes) (ps : props) : option prop := hd_error (getProperties name ps).
(** componentbase.py:183-185. *)
Fixpoint removeProperties (name : bytes) (ps : props) : props :=
  match ps with
  | [] => []
  | (k, l) :: r => if beq k name then r else (k, l) :: removeProperties name r
  end.

(** property.py:199-204 and plaintextvalue.py: the classes derived from PlainTextValue are TextValue, BinaryValue,
    CalAddressValue, UnknownValue and URIValue. *)
Definition text_of (v : option value) : option bytes :=
  match v with
  | Some (Single (VText s)) => Some s
  | Some (Single (VPlain _ s)) | Some (Single (VUri s)) => s
  | _ => None
  end.
(** property.py:164-169, 171-176, 178-183. *)
Definition datetime_of (v : option value) : option dt := match v with Some (Single (VDateTime d)) => Some d | _ => None end.
Definition duration_of (v : option value) : option dur := match v with Some (Single (VDuration d)) => Some d | _ => None end.
Definition integer_of (v : option value) : option Z := match v with Some (Single (VInteger n)) => Some n | _ => None end.
(** componentbase.py:463-501. *)
Definition load {A} (get : option value -> option A) (name : bytes) (ps : props) : option A :=
  match findFirstProperty name ps with Some p => get (pValue p) | None => None end.
Definition loadString := load text_of.
Definition loadDateTime := load datetime_of.
Definition loadDuration := load duration_of.
Definition loadInteger := load integer_of.

(** component.py:161-175: mUID. *)
Definition load_uid (s : cstate) (ps : props) : bytes :=
  match loadString (lit "UID") ps with Some u => u | None => sUID s end.
(** componentrecur.py:34-42. *)
Definition mapKey (uid : bytes) (rid : option bytes) : option bytes :=
  match uid with [] => None | _ => Some (lit "u:" ++ uid ++ match rid with Some r => r | None => [] end) end.
(** attrs[name][0].getFirstValue() if the parameter is there (componentrecur.py:283-286, valarm.py:439-440). *)
Definition check_param (name : bytes) (p : option prop) : res unit :=
  match p with
  | None => Ok tt
  | Some p => match assoc name (pParams p) with None => Ok tt | Some l => do _ <- first_value l; Ok tt end
  end.

(** componentrecur.py:231-293.  The caches of DTSTAMP, DTEND, SUMMARY and the recurrence set are left out: nothing
    there can raise and nothing here reads them. *)
Definition recur_finalise (s : cstate) (ps : props) : res cstate :=
  let uid := load_uid s ps in
  let start := loadDateTime (lit "DTSTART") ps in
  if (countProperty (lit "RECURRENCE-ID") ps =? 0)%nat
  then Ok (mkState (sUuid s) uid (mapKey uid None) (sID s) start (sRid s) (sAction s))
  else match loadDateTime (lit "RECURRENCE-ID") ps with
       | None => Raise AttributeError
       | Some d =>
         do _ <- check_param (lit "RANGE") (findFirstProperty (lit "RECURRENCE-ID") ps);
         Ok (mkState (sUuid s) uid (mapKey uid (Some (getText d))) (sID s) start (Some d) (sAction s))
       end.

(** valarm.py:29-36 with definitions.py:303-312, 327-334. *)
Definition action_map : list (bytes * Z) :=
  [(lit "AUDIO", 0); (lit "DISPLAY", 1); (lit "EMAIL", 2); (lit "PROCEDURE", 3); (lit "URI", 5); (lit "NONE", 6)].
(** valarm.py:413-474 on an alarm just made: the trigger is one hour by default (valarm.py:322-323). *)
Definition alarm_finalise (s : cstate) (ps : props) : res cstate :=
  let uid := load_uid s ps in
  let action := match loadString (lit "ACTION") ps with
                | Some t => match assoc t action_map with Some a => a | None => 4 end
                | None => sAction s
                end in
  do trigger <- match loadDateTime (lit "TRIGGER") ps, loadDuration (lit "TRIGGER") ps with
                | Some d, _ => Ok (getText d)
                | None, Some d => do _ <- check_param (lit "RELATED") (findFirstProperty (lit "TRIGGER") ps); Ok (dur_generate d)
                | None, None => Ok (lit "PT1H")
                end;
  Ok (mkState (sUuid s) uid (Some (pystr action ++ lit ":" ++ trigger)) (sID s) (sStart s) (sRid s) action).

(** datetime.py:78-94: DateTime(). *)
Definition epoch : dt := newDateTime 1970 1 1 0 0 0 false TzNone.
(** vtimezoneelement.py:62-66, 98-99: mStart. *)
Definition element_start (c : comp) : dt := match sStart (cState c) with Some d => d | None => epoch end.

Section WithTz.
Variable tzo : tzid -> Z -> Z -> Z -> Z -> Z -> Z -> bool -> bool -> Z.

(** vtimezone.py:78: list.sort by DTSTART, as stable insertion.  Which comparisons list.sort makes does not matter
    unless one raises or dates are mixed with date-times (then `<` is not an order). *)
Fixpoint insert_start (x : comp) (l : list comp) : res (list comp) :=
  match l with
  | [] => Ok [x]
  | y :: r => do b <- dt_lt tzo (element_start y) (element_start x);
              if b then do r' <- insert_start x r; Ok (y :: r') else Ok (x :: l)
  end.
Fixpoint sort_start (l : list comp) : res (list comp) :=
  match l with
  | [] => Ok []
  | x :: r => do r' <- sort_start r; insert_start x r'
  end.

(** finalise of each class: component.py:161-175, the two above, vtimezone.py:71-81, vtimezoneelement.py:62-90,
    vfreebusy.py:74-99, calendar.py:162-173 (the name and the description are left out). *)
Definition finalise (c : comp) : res comp :=
  let '(Comp k s ps subs) := c in
  match k with
  | VCALENDAR => Ok c
  | VEVENT | VTODO | VJOURNAL | AVAILABLE => do s' <- recur_finalise s ps; Ok (Comp k s' ps subs)
  | VALARM => do s' <- alarm_finalise s ps; Ok (Comp k s' ps subs)
  | VTIMEZONE =>
    let id := match loadString (lit "TZID") ps with Some t => t | None => sID s end in
    do subs' <- sort_start subs;
    Ok (Comp k (mkState (sUuid s) (load_uid s ps) (sMapKey s) id (sStart s) (sRid s) (sAction s)) ps subs')
  | STANDARD | DAYLIGHT =>
    let start := match loadDateTime (lit "DTSTART") ps with Some d => Some d | None => sStart s end in
    Ok (Comp k (mkState (sUuid s) (load_uid s ps) (sMapKey s) (sID s) start (sRid s) (sAction s)) ps subs)
  | VFREEBUSY =>
    Ok (Comp k (mkState (sUuid s) (load_uid s ps) (sMapKey s) (sID s) (loadDateTime (lit "DTSTART") ps) (sRid s) (sAction s)) ps subs)
  | _ => Ok (Comp k (mkState (sUuid s) (load_uid s ps) (sMapKey s) (sID s) (sStart s) (sRid s) (sAction s)) ps subs)
  end.

(** addComponent: componentbase.py:126-127, vevent.py:69-74, vtodo.py:140-145, vtimezone.py:60-66,
    vavailability.py:88-93, vvoter.py:47-52.  The index of Calendar.addComponent is in CalendarModel.v. *)
Definition allowed (parent child : kind) : bool :=
  match parent with
  | VEVENT | VTODO => beq (getType child) (lit "VALARM")
  | VTIMEZONE => beq (getType child) (lit "STANDARD") || beq (getType child) (lit "DAYLIGHT")
  | VAVAILABILITY => beq (getType child) (lit "AVAILABLE")
  | VVOTER => beq (getType child) (lit "VOTE")
  | _ => true
  end.
Definition addComponent (parent child : comp) : res comp :=
  let '(Comp k s ps subs) := parent in
  if allowed k (cKind child) then Ok (Comp k s ps (subs ++ [child])) else Raise ValueError.

(** getSortKey: componentbase.py:86-87, component.py:72-82, componentrecur.py:142-146, vtimezone.py:68-69,
    vtimezoneelement.py:92-96, vunknown.py:50-54. *)
Definition getSortKey (c : comp) : bytes :=
  let s := cState c in
  match cKind c with
  | VCALENDAR | STANDARD | DAYLIGHT | UNKNOWN _ => []
  | VTIMEZONE => sID s
  | VEVENT | VTODO | VJOURNAL | AVAILABLE => match sMapKey s with Some m => m | None => sUuid s end
  | _ => match sMapKey s with Some m => m | None => match sUID s with [] => sUuid s | u => u end end
  end.

(** Python 2 ordering of None, integers and strings, and of tuples of them. *)
Inductive pykey : Set := KNone | KInt (n : Z) | KStr (s : bytes).
Definition key_lt (a b : pykey) : bool :=
  match a, b with
  | KNone, KNone => false
  | KNone, _ => true
  | KInt _, KNone => false
  | KInt m, KInt n => m <? n
  | KInt _, KStr _ => true
  | KStr s, KStr t => negb (ble t s)
  | KStr _, _ => false
  end.
Fixpoint keys_lt (a b : list pykey) : bool :=
  match a, b with
  | [], [] => false
  | [], _ :: _ => true
  | _ :: _, [] => false
  | x :: r, y :: s => if key_lt x y then true else if key_lt y x then false else keys_lt r s
  end.
Definition ostr (s : option bytes) : pykey := match s with Some t => KStr t | None => KNone end.
Definition oint (n : option Z) : pykey := match n with Some i => KInt i | None => KNone end.

(** sortedComponentNames: componentbase.py:147-148, calendar.py:175-183. *)
Definition sortedComponentNames (k : kind) : list bytes :=
  match k with
  | VCALENDAR => [lit "VTIMEZONE"; lit "VEVENT"; lit "VTODO"; lit "VJOURNAL"; lit "VFREEBUSY"; lit "VAVAILABILITY"]
  | _ => []
  end.
Definition upper_type (c : comp) : bytes := upper (getType (cKind c)).

(** sortedComponents on anything that carries a component (the components themselves, or pairs of a component and
    its text).  componentbase.py:371-397: `components.remove(component)` at 385 removes this very component, since
    those of the same type before it are gone already; vtimezone.py:38: sortSubComponents is False; vpoll.py:67-80,
    vvoter.py:59-65. *)
Section Sorted.
Context {A : Type}.
Variable of : A -> comp.
Definition by_keys (key : comp -> list pykey) (l : list A) : list A :=
  isort (fun a b => keys_lt (key (of a)) (key (of b))) l.
Fixpoint named_first (names : list bytes) (rest : list A -> list A) (l : list A) : list A :=
  match names with
  | [] => rest l
  | n :: r =>
    let here := filter (fun a => beq (upper_type (of a)) n) l in
    by_keys (fun c => [KStr (getSortKey c)]) here ++
    named_first r rest (filter (fun a => negb (beq (upper_type (of a)) n)) l)
  end.
Definition sortedComponents (k : kind) (l : list A) : list A :=
  match k with
  | VPOLL => by_keys (fun c =>
      if beq (upper_type c) (lit "VVOTER") then [KStr (lit "0"); ostr (loadString (lit "VOTER") (cProps c))]
      else [KStr (upper_type c); oint (loadInteger (lit "POLL-ITEM-ID") (cProps c))]) l
  | VVOTER => by_keys (fun c => [oint (loadInteger (lit "POLL-ITEM-ID") (cProps c))]) l
  | VTIMEZONE => named_first (sortedComponentNames k) (fun l => l) l
  | _ => named_first (sortedComponentNames k) (by_keys (fun c => [KStr (upper_type c); KStr (getSortKey c)])) l
  end.
End Sorted.

(** sortedPropertyKeyOrder: componentbase.py:561-562, calendar.py:185-191, vevent.py:154-161, vtodo.py:343-351,
    vjournal.py:62-67, vfreebusy.py:321-327, vtimezone.py:274-279, vavailability.py:95-101, available.py:81-88, vpoll.py:59-65,
    vvoter.py:54-57, vote.py:43-47, vunknown.py:56-59. *)
Definition sortedPropertyKeyOrder (k : kind) : list bytes :=
  match k with
  | VCALENDAR => [lit "VERSION"; lit "CALSCALE"; lit "METHOD"; lit "PRODID"]
  | VEVENT | AVAILABLE => [lit "UID"; lit "RECURRENCE-ID"; lit "DTSTART"; lit "DURATION"; lit "DTEND"]
  | VTODO => [lit "UID"; lit "RECURRENCE-ID"; lit "DTSTART"; lit "DURATION"; lit "DUE"; lit "COMPLETED"]
  | VJOURNAL => [lit "UID"; lit "RECURRENCE-ID"; lit "DTSTART"]
  | VFREEBUSY | VAVAILABILITY | VPOLL => [lit "UID"; lit "DTSTART"; lit "DURATION"; lit "DTEND"]
  | VTIMEZONE => [lit "TZID"; lit "LAST-MODIFIED"; lit "TZURL"]
  | VVOTER => [lit "VOTER"]
  | VOTE => [lit "POLL-ITEM-ID"; lit "RESPONSE"]
  | UNKNOWN _ => [lit "UID"]
  | STANDARD | DAYLIGHT | VALARM => []
  end.
(** list.remove on a list of strings. *)
Fixpoint remove_key (x : bytes) (l : list bytes) : list bytes :=
  match l with
  | [] => []
  | y :: r => if beq y x then r else y :: remove_key x r
  end.
(** componentbase.py:549-559. *)
Fixpoint keys_in_order (order keys : list bytes) : list bytes :=
  match order with
  | [] => keys
  | s :: r => if existsb (beq s) keys then s :: keys_in_order r (remove_key s keys) else keys_in_order r keys
  end.
Definition sortedPropertyKeys (k : kind) (ps : props) : list bytes :=
  keys_in_order (sortedPropertyKeyOrder k) (sort_by (fun x => x) (map fst ps)).
(** componentbase.py:564-570: the properties in the order they are written. *)
Definition written_props (k : kind) (ps : props) : list prop :=
  flat_map (fun key => getProperties key ps) (sortedPropertyKeys k ps).

(** Writing one after the other: None if one of them does not end (C25), else the first exception, else all texts. *)
Fixpoint write_all (l : list (option (res bytes))) : option (res bytes) :=
  match l with
  | [] => Some (Ok [])
  | None :: _ => None
  | Some (Raise e) :: _ => Some (Raise e)
  | Some (Ok s) :: r => match write_all r with Some (Ok t) => Some (Ok (s ++ t)) | x => x end
  end.
Definition crlf (s : bytes) : option (res bytes) := Some (Ok (s ++ [CR; LF])).

(** componentbase.py:264-282, 399-403 (calendar.py:78-83, 408-420 with NO_TIMEZONES).  The texts of the
    sub-components are put in order instead of being written in that order.  That generate changes the VALUE
    parameters of the properties (PropertyModel.prop_setup) is left out. *)
Fixpoint generate (fl : floats) (c : comp) : option (res bytes) :=
  let '(Comp k s ps subs) := c in
  write_all (crlf (beginDelimiter k) :: map (prop_generate fl) (written_props k ps) ++
             map snd (sortedComponents fst k (map (fun d => (d, generate fl d)) subs)) ++ [crlf (endDelimiter k)]).

(** calendar.py:624-637. *)
Definition validProperty (p : prop) : bool :=
  if beq (pName p) (lit "VERSION")
  then match text_of (pValue p) with Some t => beq t (lit "2.0") | None => false end
  else if beq (pName p) (lit "CALSCALE")
  then match text_of (pValue p) with Some t => beq t (lit "GREGORIAN") | None => false end
  else true.

Variable ctx : pctx.
Variable fl : floats.
(** The value of uuid.uuid4() for each component made. *)
Variable uuids : nat -> bytes.

(** The variables of the loop containerbase.py:112-125: state, result, self, and componentstack with comp and
    compend (the components that are open, the innermost first; compend is the end delimiter of that one, None when
    comp is self). *)
Record pstate : Set := mkParse { inside : bool; found : bool; self : comp; opened : list comp; made : nat }.
Definition put_prop (p : prop) (c : comp) : comp := let '(Comp k s ps subs) := c in Comp k s (addProperty p ps) subs.
Definition blank (st : pstate) : res pstate :=
  if peqb (BLANK_LINES_IN_DATA ctx) PARSER_RAISE then Raise InvalidData else Ok st.

(** containerbase.py:131-201, one round.  The text of the exception is left out. *)
Definition parse_line (line : bytes) (st : pstate) : res pstate :=
  let '(mkParse inside found self opened made) := st in
  if negb inside then
    if beq line (beginDelimiter (cKind self)) then Ok (mkParse true true self opened made)
    else match line with [] => blank st | _ => Raise InvalidData end
  else if startswith line (lit "BEGIN:") then
    Ok (mkParse true found self (makeComponent (skipn 6 line) (uuids made) :: opened) (S made))
  else if beq line (endDelimiter (cKind self)) then
    do self' <- finalise self; Ok (mkParse false found self' opened made)
  else if match opened with c :: _ => beq line (endDelimiter (cKind c)) | [] => false end then
    match opened with
    | [] => Raise IndexError
    | c :: outer =>
      do c' <- finalise c;
      match outer with
      | [] => do self' <- addComponent self c'; Ok (mkParse true found self' [] made)
      | d :: outer' => do d' <- addComponent d c'; Ok (mkParse true found self (d' :: outer') made)
      end
    end
  else match line with
  | [] => blank st
  | _ =>
    do p <- prop_parse ctx fl line;
    match opened with
    | [] => if validProperty p then Ok (mkParse true found (put_prop p self) [] made) else Raise InvalidData
    | c :: outer => Ok (mkParse true found self (put_prop p c :: outer) made)
    end
  end.
(** containerbase.py:127. *)
Fixpoint parse_lines (lines : list bytes) (st : pstate) : res pstate :=
  match lines with
  | [] => Ok st
  | l :: r => do st' <- parse_line l st; parse_lines r st'
  end.
(** containerbase.py:110-125, 203-211: the result and the object afterwards.  The merging of the time zones
    (calendar.py:193-201) is in TzDbModel.v. *)
Definition parse (cal : comp) (text : bytes) : res (bool * comp) :=
  let '(Comp k s _ subs) := cal in
  do st <- parse_lines (read_lines (S (List.length text)) None text) (mkParse false false (Comp k s [] subs) [] 0);
  if inside st then Raise InvalidData
  else if found st && negb (hasProperty (lit "VERSION") (cProps (self st))) then Raise InvalidData
  else Ok (found st, self st).
(** containerbase.py:100-108. *)
Definition parseTextData (text : bytes) : res (option comp) :=
  do r <- parse (Comp VCALENDAR (newState []) [] []) text;
  Ok (if fst r then Some (snd r) else None).

End WithTz.
