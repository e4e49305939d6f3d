(** What the theorems about typed properties are stated with. *)
From Verif Require Import PropertyModel.
From Verif Require Export TextSpec LineSpec DateTimeSpec2 RecurSpec.

(** The zone named by the TZID parameter, if there is one. *)
Inductive tzid_of (ps : params) : option bytes -> Prop :=
| tz_none : lookup (lit "TZID") ps = [] -> tzid_of ps None
| tz_some : forall n z r, lookup (lit "TZID") ps = (n, [z]) :: r -> tzid_of ps (Some z).

(** A date, or a date-time in the zone z (None: floating or UTC). *)
Definition in_zone (z : option bytes) (d : dt) : Prop :=
  mDateOnly d = true \/
  match z with Some z => mTZUTC d = false /\ mTZID d = TzName z | None => mTZID d = TzNone end.

(** The same date, or the same date-time with the same zone. *)
Definition same_when (d e : dt) : Prop :=
  (mYear d, mMonth d, mDay d) = (mYear e, mMonth e, mDay e) /\ mDateOnly d = mDateOnly e /\
  (mDateOnly d = false ->
   (mHours d, mMinutes d, mSeconds d) = (mHours e, mMinutes e, mSeconds e) /\ mTZUTC d = mTZUTC e /\ mTZID d = mTZID e).

(** Durations as written: weeks alone, or days and time. *)
Definition dur_wf (d : dur) : Prop :=
  (dDays d = 0 /\ dHours d = 0 /\ dMinutes d = 0 /\ dSeconds d = 0 /\ 0 <= dWeeks d) \/
  (dWeeks d = 0 /\ 0 <= dDays d /\ 0 <= dHours d /\ 0 <= dMinutes d /\ 0 <= dSeconds d).

(** Period values: date-times without named zone, and an end or a duration that is not negative. *)
Definition period_wf (p : period) : Prop :=
  printable (pStart p) /\ in_zone None (pStart p) /\
  if pUse p then match pDur p with Some d => dur_wf d /\ mForward d = true | None => False end
  else match pEnd p with Some e => printable e /\ in_zone None e | None => False end.
Definition same_period (p q : period) : Prop :=
  same_when (pStart p) (pStart q) /\ pUse p = pUse q /\
  if pUse p then match pDur p, pDur q with Some d, Some e => getTotalSeconds d = getTotalSeconds e | _, _ => False end
  else match pEnd p, pEnd q with Some d, Some e => same_when d e | _, _ => False end.

(** The kinds of value object by value type. *)
Definition made_by (t : vtype) (i : item) : Prop :=
  match t, i with
  | T_BINARY, VPlain PBinary _ | T_CALADDRESS, VPlain PCalAddress _
  | (T_BOOLEAN | T_TIME | T_UNKNOWN), VPlain PUnknown _
  | (T_DATE | T_DATETIME), VDateTime _ | T_DURATION, VDuration _ | T_FLOAT, VFloat _ | T_GEO, VGeo _ _
  | T_INTEGER, VInteger _ | T_PERIOD, VPeriod _ | T_RECUR, VRecur _ | T_REQUEST_STATUS, VStatus _
  | T_TEXT, VText _ | T_URI, VUri _ | T_UTC_OFFSET, VOffset _ => True
  | _, _ => False
  end.

(** Value objects whose text can be read back. *)
Definition item_ok (ctx : pctx) (fl : floats) (z : option bytes) (i : item) : Prop :=
  match i with
  | VText _ | VInteger _ => True
  | VPlain _ s => s <> None
  | VUri None => False
  | VUri (Some s) => if peqb (BACKSLASH_IN_URI_VALUE ctx) PARSER_FIX then ~ In BSLASH s else ~ In LF s
  | VOffset n => Z.abs n < 360000
  | VFloat x => fl_read fl (fl_str fl x) = Some x
  | VGeo x y => fl_read fl (fl_str fl x) = Some x /\ fl_read fl (fl_str fl y) = Some y /\
                ~ In ";"%char (fl_str fl x) /\ ~ In ";"%char (fl_str fl y)
  | VDateTime d => printable d /\ in_zone z d
  | VDuration d => dur_wf d
  | VPeriod p => period_wf p
  | VRecur r => rule_ok r
  | VStatus [code; desc] =>
    INVALID_REQUEST_STATUS_VALUE ctx <> PARSER_RAISE /\ ~ In BSLASH code
  | VStatus [code; desc; rest] =>
    INVALID_REQUEST_STATUS_VALUE ctx <> PARSER_RAISE /\ ~ In BSLASH code /\ ~ ends_with_backslash desc /\ rest <> []
  | VStatus _ => False
  end.

(** The same value. *)
Definition same_item (i j : item) : Prop :=
  match i, j with
  | VDateTime d, VDateTime e => same_when d e
  | VDuration d, VDuration e => getTotalSeconds d = getTotalSeconds e
  | VPeriod p, VPeriod q => same_period p q
  | VRecur r, VRecur s => s = canon r
  | _, _ => i = j
  end.
Definition same_value (v w : value) : Prop :=
  match v, w with
  | Single i, Single j => same_item i j
  | Multi s l, Multi t m => s = t /\ Forall2 same_item l m
  | _, _ => False
  end.

(** The properties by default value type: RFC 5545 sections 3.7 and 3.8 and EXRULE of RFC 2445; ACKNOWLEDGED, the
    VPOLL drafts, and the Apple and Mulberry extensions (the last line of each list). *)
Definition names_with (t : vtype) : list bytes :=
  match t with
  | T_TEXT =>
    [lit "CALSCALE"; lit "METHOD"; lit "PRODID"; lit "VERSION"; lit "CATEGORIES"; lit "CLASS"; lit "COMMENT";
     lit "DESCRIPTION"; lit "LOCATION"; lit "RESOURCES"; lit "STATUS"; lit "SUMMARY"; lit "TRANSP"; lit "TZID";
     lit "TZNAME"; lit "CONTACT"; lit "RELATED-TO"; lit "UID"; lit "ACTION"; lit "REQUEST-STATUS";
     lit "ACCEPT-RESPONSE"; lit "POLL-COMPLETION"; lit "POLL-MODE"; lit "POLL-PROPERTIES"; lit "X-WR-CALNAME";
     lit "X-WR-CALDESC"; lit "X-WR-ALARMUID"; lit "X-MULBERRY-SPEAK-TEXT"; lit "X-MULBERRY-ALARM-STATUS"]
  | T_DATETIME =>
    [lit "COMPLETED"; lit "CREATED"; lit "DTEND"; lit "DTSTAMP"; lit "DTSTART"; lit "DUE"; lit "EXDATE";
     lit "LAST-MODIFIED"; lit "RDATE"; lit "RECURRENCE-ID";
     lit "ACKNOWLEDGED"; lit "X-MULBERRY-LAST-TRIGGER"]
  | T_INTEGER =>
    [lit "PERCENT-COMPLETE"; lit "PRIORITY"; lit "REPEAT"; lit "SEQUENCE";
     lit "POLL-ITEM-ID"; lit "POLL-WINNER"; lit "RESPONSE"]
  | T_URI => [lit "ATTACH"; lit "TZURL"; lit "URL"]
  | T_CALADDRESS => [lit "ATTENDEE"; lit "ORGANIZER"; lit "VOTER"]
  | T_DURATION => [lit "DURATION"; lit "TRIGGER"]
  | T_UTC_OFFSET => [lit "TZOFFSETFROM"; lit "TZOFFSETTO"]
  | T_RECUR => [lit "RRULE"; lit "EXRULE"]
  | T_PERIOD => [lit "FREEBUSY"]
  | T_FLOAT => [lit "GEO"]
  | _ => []
  end.
(** The properties whose value is a list separated by commas. *)
Definition list_names : list bytes :=
  [lit "CATEGORIES"; lit "RESOURCES"; lit "FREEBUSY"; lit "EXDATE"; lit "RDATE"; lit "POLL-PROPERTIES"].
(** The value types a VALUE parameter can name, RFC 5545 section 3.2.20. *)
Inductive value_param : bytes -> vtype -> Prop :=
| vp_binary : value_param (lit "BINARY") T_BINARY
| vp_boolean : value_param (lit "BOOLEAN") T_BOOLEAN
| vp_caladdress : value_param (lit "CAL-ADDRESS") T_CALADDRESS
| vp_date : value_param (lit "DATE") T_DATE
| vp_datetime : value_param (lit "DATE-TIME") T_DATETIME
| vp_duration : value_param (lit "DURATION") T_DURATION
| vp_float : value_param (lit "FLOAT") T_FLOAT
| vp_integer : value_param (lit "INTEGER") T_INTEGER
| vp_period : value_param (lit "PERIOD") T_PERIOD
| vp_recur : value_param (lit "RECUR") T_RECUR
| vp_text : value_param (lit "TEXT") T_TEXT
| vp_time : value_param (lit "TIME") T_TIME
| vp_uri : value_param (lit "URI") T_URI
| vp_offset : value_param (lit "UTC-OFFSET") T_UTC_OFFSET.

(** The type of the values of a property: by the VALUE parameter if it names a type, else the default of the name;
    none for other names. *)
Inductive typed (name : bytes) (ps : params) : vtype -> Prop :=
| ty_param : forall n v l r t, lookup (lit "VALUE") ps = (n, v :: l) :: r -> value_param v t -> typed name ps t
| ty_default : forall t, (forall n v l r t, lookup (lit "VALUE") ps = (n, v :: l) :: r -> ~ value_param v t) ->
    In (upper name) (names_with t) -> typed name ps t
| ty_unknown : (forall n v l r t, lookup (lit "VALUE") ps = (n, v :: l) :: r -> ~ value_param v t) ->
    (forall t, ~ In (upper name) (names_with t)) -> typed name ps T_UNKNOWN.
(** GEO values are pairs of floats, REQUEST-STATUS values have two or three texts. *)
Definition structured (name : bytes) (t : vtype) : vtype :=
  match t with
  | T_FLOAT => if beq (upper name) (lit "GEO") then T_GEO else t
  | T_TEXT => if beq (upper name) (lit "REQUEST-STATUS") then T_REQUEST_STATUS else t
  | _ => t
  end.

(** Values that fit the property: list values for the properties that have them, GEO and REQUEST-STATUS values
    for those two properties and no others, no value of unknown type for a property with a known type, no
    text for a property of unknown type. *)
Definition type_kept (name : bytes) (v : value) : Prop :=
  (match v with Multi _ _ => In (upper name) list_names | Single _ => ~ In (upper name) list_names end) /\
  (upper name = lit "GEO" <-> value_type v = T_GEO) /\
  (upper name = lit "REQUEST-STATUS" <-> value_type v = T_REQUEST_STATUS) /\
  ((exists t, In (upper name) (names_with t)) -> value_type v <> T_UNKNOWN) /\
  ((forall t, ~ In (upper name) (names_with t)) -> value_type v <> T_TEXT).

Definition prop_value_ok (ctx : pctx) (fl : floats) (z : option bytes) (v : value) : Prop :=
  match v with
  | Single i => item_ok ctx fl z i
  | Multi t l => l <> [] /\
    Forall (fun i => made_by t i /\ item_ok ctx fl (match t with T_DATETIME => z | _ => None end) i /\
                     exists s, item_generate fl i = Ok s /\ ~ In ","%char s) l
  end.

(** Properties whose line can be read back. *)
Definition prop_ok (ctx : pctx) (fl : floats) (p : prop) : Prop :=
  name_ok (pName p) /\ params_ok (pParams p) /\
  exists v z, pValue p = Some v /\ tzid_of (pParams p) z /\ type_kept (pName p) v /\ prop_value_ok ctx fl z v.

(** The same property: name, value, and parameters other than VALUE. *)
Definition same_prop (p q : prop) : Prop :=
  pName p = pName q /\
  (forall k, k <> lit "VALUE" -> Forall2 same_param (lookup k (pParams p)) (lookup k (pParams q))) /\
  match pValue p, pValue q with Some v, Some w => same_value v w | _, _ => False end.
