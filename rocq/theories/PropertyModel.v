(** Model of typed iCalendar properties: value.py, multivalue.py and the value classes, property.py,
    icalendar/property.py, parameter.py.  Content lines are taken apart and written by LineModel.v.
    Definitions only. *)
From Verif Require Export LineModel DateTimeModel DateTimeText DurationModel PeriodModel RecurModel.

(** value.py:26-50, the value types an iCalendar property can get. *)
Inductive vtype : Set :=
| T_BINARY | T_BOOLEAN | T_CALADDRESS | T_DATE | T_DATETIME | T_DURATION | T_FLOAT | T_GEO | T_INTEGER | T_PERIOD
| T_RECUR | T_REQUEST_STATUS | T_TEXT | T_TIME | T_UNKNOWN | T_URI | T_UTC_OFFSET.
(** `a == b` on value types. *)
Definition veqb (a b : vtype) : bool :=
  match a, b with
  | T_BINARY, T_BINARY | T_BOOLEAN, T_BOOLEAN | T_CALADDRESS, T_CALADDRESS | T_DATE, T_DATE | T_DATETIME, T_DATETIME
  | T_DURATION, T_DURATION | T_FLOAT, T_FLOAT | T_GEO, T_GEO | T_INTEGER, T_INTEGER | T_PERIOD, T_PERIOD
  | T_RECUR, T_RECUR | T_REQUEST_STATUS, T_REQUEST_STATUS | T_TEXT, T_TEXT | T_TIME, T_TIME | T_UNKNOWN, T_UNKNOWN
  | T_URI, T_URI | T_UTC_OFFSET, T_UTC_OFFSET => true
  | _, _ => false
  end.

(** Python floats are not modelled.  A float object is a token; what float(text), str(x) and x == y do
    is an argument of everything that needs it. *)
Definition pyfloat : Set := Z.
Record floats : Set := mkFloats { fl_read : bytes -> option pyfloat; fl_str : pyfloat -> bytes; fl_eq : pyfloat -> pyfloat -> bool }.

(** The classes that keep their text as it is: binaryvalue.py:24-29, caladdressvalue.py:24-29, unknownvalue.py:24-29. *)
Inductive plain : Set := PBinary | PCalAddress | PUnknown.

(** One value object.  The texts of plain and URI values are None when the content line has no value separator. *)
Inductive item : Set :=
| VText (s : bytes)
| VPlain (k : plain) (s : option bytes)
| VUri (s : option bytes)
| VInteger (n : Z)
| VOffset (n : Z)
| VFloat (x : pyfloat)
| VGeo (a b : pyfloat)
| VDateTime (d : dt)
| VDuration (d : dur)
| VPeriod (p : period)
| VRecur (r : rule)
| VStatus (l : list bytes).
(** mValue: a value object or a MultiValue (multivalue.py:20-25, with its mType). *)
Inductive value : Set := Single (i : item) | Multi (t : vtype) (l : list item).

(** getType: textvalue.py:26, the classes above, urivalue.py:27, integervalue.py:31, utcoffsetvalue.py:32, floatvalue.py:31,
    geovalue.py:41, datetimevalue.py:28-29, valueutils.py:68-69 with durationvalue.py:26, periodvalue.py:26,
    recurrencevalue.py:26, requeststatusvalue.py:41. *)
Definition item_type (i : item) : vtype :=
  match i with
  | VText _ => T_TEXT
  | VPlain PBinary _ => T_BINARY
  | VPlain PCalAddress _ => T_CALADDRESS
  | VPlain PUnknown _ => T_UNKNOWN
  | VUri _ => T_URI
  | VInteger _ => T_INTEGER
  | VOffset _ => T_UTC_OFFSET
  | VFloat _ => T_FLOAT
  | VGeo _ _ => T_GEO
  | VDateTime d => if mDateOnly d then T_DATE else T_DATETIME
  | VDuration _ => T_DURATION
  | VPeriod _ => T_PERIOD
  | VRecur _ => T_RECUR
  | VStatus _ => T_REQUEST_STATUS
  end.
(** multivalue.py:35-36. *)
Definition value_type (v : value) : vtype := match v with Single i => item_type i | Multi t _ => t end.

(** geovalue.py:44-58. *)
Definition geo_parse (fl : floats) (data : bytes) : res item :=
  match split_char ";" data with
  | [a; b] =>
    match fl_read fl a, fl_read fl b with
    | Some x, Some y => Ok (VGeo x y)
    | _, _ =>
      match rev a with
      | [] => Raise IndexError
      | c :: r =>
        if Ascii.eqb c BSLASH then
          match fl_read fl (rev r), fl_read fl b with
          | Some x, Some y => Ok (VGeo x y)
          | _, _ => Raise InvalidData
          end
        else Raise InvalidData
      end
    end
  | _ => Raise InvalidData
  end.

(** icalendar/requeststatusvalue.py:44-74. *)
Definition status_parse (ctx : pctx) (data : bytes) : res item :=
  let raises := peqb (INVALID_REQUEST_STATUS_VALUE ctx) PARSER_RAISE in
  do result <- parseTextList ctx ";" data;
  do parts <-
    match result with
    | [] => Raise ValueError
    | [one] =>
      if raises then Raise ValueError
      else match split1 ";" one with
           | Some (code, desc) => Ok (code, desc, [])
           | None => Ok (one, [], [])
           end
    | [code; desc] => Ok (code, desc, [])
    | [code; desc; rest] => Ok (code, desc, rest)
    | code :: desc :: rest :: _ => if raises then Raise ValueError else Ok (code, desc, rest)
    end;
  let '(code, desc, rest) := parts in
  let fixing := peqb (INVALID_REQUEST_STATUS_VALUE ctx) PARSER_IGNORE || peqb (INVALID_REQUEST_STATUS_VALUE ctx) PARSER_FIX in
  do code <- (if cin BSLASH code && fixing then Ok (filter (fun c => negb (Ascii.eqb c BSLASH)) code)
              else if raises then Raise ValueError else Ok code);
  Ok (VStatus (match rest with [] => [code; desc] | _ => [code; desc; rest] end)).

(** Value.createFromType(t).parse(data): value.py:74-80 and the parse methods plaintextvalue.py:30-32, textvalue.py:29-31,
    urivalue.py:30-37, integervalue.py:34-35, utcoffsetvalue.py:35-65, floatvalue.py:34-35, datetimevalue.py:31-32 (the
    variant is "ical"), valueutils.py:74-75.  No class is registered for BOOLEAN and TIME: an UnknownValue is made.  With
    data = None (no value separator) the other classes raise TypeError or AttributeError (one of them is shown here; the
    only caller, parseText, turns every exception into InvalidProperty). *)
Definition item_parse (ctx : pctx) (fl : floats) (t : vtype) (data : option bytes) : res item :=
  match t, data with
  | T_BINARY, _ => Ok (VPlain PBinary data)
  | T_CALADDRESS, _ => Ok (VPlain PCalAddress data)
  | (T_UNKNOWN | T_BOOLEAN | T_TIME), _ => Ok (VPlain PUnknown data)
  | T_URI, None => if peqb (BACKSLASH_IN_URI_VALUE ctx) PARSER_FIX then Raise AttributeError else Ok (VUri None)
  | T_URI, Some s =>
    if peqb (BACKSLASH_IN_URI_VALUE ctx) PARSER_FIX then do x <- decodeTextValue ctx s; Ok (VUri (Some x))
    else Ok (VUri (Some s))
  | _, None => Raise TypeError
  | T_TEXT, Some s => do x <- decodeTextValue ctx s; Ok (VText x)
  | T_INTEGER, Some s => do n <- pyint s; Ok (VInteger n)
  | T_UTC_OFFSET, Some s => match utcoffset_parse false s 0 with (n, Ok _) => Ok (VOffset n) | (_, Raise e) => Raise e end
  | T_FLOAT, Some s => match fl_read fl s with Some x => Ok (VFloat x) | None => Raise ValueError end
  | T_GEO, Some s => geo_parse fl s
  | (T_DATE | T_DATETIME), Some s => do d <- dt_parseText ctx false s; Ok (VDateTime d)
  | T_DURATION, Some s => do d <- dur_parseText ctx s; Ok (VDuration d)
  | T_PERIOD, Some s => do p <- period_parseText ctx false s; Ok (VPeriod p)
  | T_RECUR, Some s => do r <- rule_parse ctx s; Ok (VRecur r)
  | T_REQUEST_STATUS, Some s => status_parse ctx s
  end.

(** multivalue.py:58-68: split at every comma. *)
Definition multi_parse (ctx : pctx) (fl : floats) (t : vtype) (data : option bytes) : res value :=
  match data with
  | None => Raise TypeError
  | Some s => do l <- map_r (fun tok => item_parse ctx fl t (Some tok)) (split_char "," s); Ok (Multi t l)
  end.

(** str.replace("\n", "\\n"), urivalue.py:48. *)
Definition escape_lf (s : bytes) : bytes := flat_map (fun c => if Ascii.eqb c LF then lit "\n" else [c]) s.

(** The generate methods: plaintextvalue.py:35-40 (writing None raises TypeError, which is swallowed), textvalue.py:34-39,
    urivalue.py:40-52 (`in None` raises TypeError), integervalue.py:38-42, utcoffsetvalue.py:68-87, floatvalue.py:38-42,
    geovalue.py:61-62, valueutils.py:77-78, requeststatusvalue.py:77-78. *)
Definition item_generate (fl : floats) (i : item) : res bytes :=
  match i with
  | VText s => Ok (escapeTextValue s)
  | VPlain _ s => Ok (match s with Some x => x | None => [] end)
  | VUri (Some s) => Ok (escape_lf s)
  | VUri None => Raise TypeError
  | VInteger n => Ok (pystr n)
  | VOffset n => Ok (utcoffset_generate false n)
  | VFloat x => Ok (fl_str fl x)
  | VGeo a b => Ok (fl_str fl a ++ lit ";" ++ fl_str fl b)
  | VDateTime d => Ok (getText d)
  | VDuration d => Ok (dur_generate d)
  | VPeriod p => Ok (period_generate p)
  | VRecur r => Ok (rule_generate r)
  | VStatus l => Ok (generateTextList ";" (match l with [code; desc; []] => [code; desc] | _ => l end))
  end.

(** multivalue.py:70-80: an exception ends the list without an error. *)
Fixpoint multi_generate (fl : floats) (first : bool) (l : list item) : bytes :=
  match l with
  | [] => []
  | i :: r =>
    (if first then [] else lit ",") ++
    match item_generate fl i with
    | Ok s => s ++ multi_generate fl false r
    | Raise _ => []
    end
  end.
Definition value_generate (fl : floats) (v : value) : res bytes :=
  match v with
  | Single i => item_generate fl i
  | Multi _ l => Ok (multi_generate fl true l)
  end.

(** A table look-up. *)
Fixpoint assoc {A} (key : bytes) (l : list (bytes * A)) : option A :=
  match l with
  | [] => None
  | (k, v) :: r => if beq k key then Some v else assoc key r
  end.

(** icalendar/property.py:36-126. *)
Definition default_types : list (bytes * vtype) :=
  [(lit "CALSCALE", T_TEXT); (lit "METHOD", T_TEXT); (lit "PRODID", T_TEXT); (lit "VERSION", T_TEXT);
   (lit "ATTACH", T_URI); (lit "CATEGORIES", T_TEXT); (lit "CLASS", T_TEXT); (lit "COMMENT", T_TEXT);
   (lit "DESCRIPTION", T_TEXT); (lit "GEO", T_FLOAT); (lit "LOCATION", T_TEXT); (lit "PERCENT-COMPLETE", T_INTEGER);
   (lit "PRIORITY", T_INTEGER); (lit "RESOURCES", T_TEXT); (lit "STATUS", T_TEXT); (lit "SUMMARY", T_TEXT);
   (lit "COMPLETED", T_DATETIME); (lit "DTEND", T_DATETIME); (lit "DUE", T_DATETIME); (lit "DTSTART", T_DATETIME);
   (lit "DURATION", T_DURATION); (lit "FREEBUSY", T_PERIOD); (lit "TRANSP", T_TEXT);
   (lit "TZID", T_TEXT); (lit "TZNAME", T_TEXT); (lit "TZOFFSETFROM", T_UTC_OFFSET); (lit "TZOFFSETTO", T_UTC_OFFSET);
   (lit "TZURL", T_URI);
   (lit "ATTENDEE", T_CALADDRESS); (lit "CONTACT", T_TEXT); (lit "ORGANIZER", T_CALADDRESS);
   (lit "RECURRENCE-ID", T_DATETIME); (lit "RELATED-TO", T_TEXT); (lit "URL", T_URI); (lit "UID", T_TEXT);
   (lit "EXDATE", T_DATETIME); (lit "EXRULE", T_RECUR); (lit "RDATE", T_DATETIME); (lit "RRULE", T_RECUR);
   (lit "ACTION", T_TEXT); (lit "REPEAT", T_INTEGER); (lit "TRIGGER", T_DURATION);
   (lit "CREATED", T_DATETIME); (lit "DTSTAMP", T_DATETIME); (lit "LAST-MODIFIED", T_DATETIME); (lit "SEQUENCE", T_INTEGER);
   (lit "REQUEST-STATUS", T_TEXT); (lit "ACKNOWLEDGED", T_DATETIME);
   (lit "ACCEPT-RESPONSE", T_TEXT); (lit "POLL-COMPLETION", T_TEXT); (lit "POLL-ITEM-ID", T_INTEGER);
   (lit "POLL-MODE", T_TEXT); (lit "POLL-PROPERTIES", T_TEXT); (lit "POLL-WINNER", T_INTEGER);
   (lit "RESPONSE", T_INTEGER); (lit "VOTER", T_CALADDRESS);
   (lit "X-WR-CALNAME", T_TEXT); (lit "X-WR-CALDESC", T_TEXT); (lit "X-WR-ALARMUID", T_TEXT);
   (lit "X-MULBERRY-SPEAK-TEXT", T_TEXT); (lit "X-MULBERRY-LAST-TRIGGER", T_DATETIME);
   (lit "X-MULBERRY-ALARM-STATUS", T_TEXT)].
(** icalendar/property.py:128-145, sValueTypeMap. *)
Definition value_types : list (bytes * vtype) :=
  [(lit "BINARY", T_BINARY); (lit "BOOLEAN", T_BOOLEAN); (lit "CAL-ADDRESS", T_CALADDRESS); (lit "DATE", T_DATE);
   (lit "DATE-TIME", T_DATETIME); (lit "DURATION", T_DURATION); (lit "FLOAT", T_FLOAT); (lit "INTEGER", T_INTEGER);
   (lit "PERIOD", T_PERIOD); (lit "RECUR", T_RECUR); (lit "TEXT", T_TEXT); (lit "TIME", T_TIME); (lit "URI", T_URI);
   (lit "UTC-OFFSET", T_UTC_OFFSET)].
(** icalendar/property.py:147-166, sTypeValueMap. *)
Definition type_name (t : vtype) : option bytes :=
  match t with
  | T_BINARY => Some (lit "BINARY") | T_BOOLEAN => Some (lit "BOOLEAN") | T_CALADDRESS => Some (lit "CAL-ADDRESS")
  | T_DATE => Some (lit "DATE") | T_DATETIME => Some (lit "DATE-TIME") | T_DURATION => Some (lit "DURATION")
  | T_FLOAT => Some (lit "FLOAT") | T_GEO => Some (lit "FLOAT") | T_INTEGER => Some (lit "INTEGER")
  | T_PERIOD => Some (lit "PERIOD") | T_RECUR => Some (lit "RECUR") | T_TEXT => Some (lit "TEXT")
  | T_REQUEST_STATUS => Some (lit "TEXT") | T_TIME => Some (lit "TIME") | T_URI => Some (lit "URI")
  | T_UTC_OFFSET => Some (lit "UTC-OFFSET") | T_UNKNOWN => None
  end.
(** icalendar/property.py:168-175, sMultiValues. *)
Definition multi_names : list bytes :=
  [lit "CATEGORIES"; lit "RESOURCES"; lit "FREEBUSY"; lit "EXDATE"; lit "RDATE"; lit "POLL-PROPERTIES"].
Definition is_multi (name : bytes) : bool := existsb (beq (upper name)) multi_names.
(** icalendar/property.py:177-180, sSpecialVariants. *)
Definition specials : list (bytes * vtype) := [(lit "GEO", T_GEO); (lit "REQUEST-STATUS", T_REQUEST_STATUS)].

(** property.py:85-89: a Property object (mValue is None until it is set). *)
Record prop : Set := mkProp { pName : bytes; pParams : params; pValue : option value }.

(** getParameterValue on a parameter that is there: property.py:131-132 and parameter.py:61-62. *)
Definition first_value (l : list param) : res bytes :=
  match l with
  | (_, v :: _) :: _ => Ok v
  | _ => Raise IndexError
  end.

(** property.py:504-519. *)
Definition determineValueType (name : bytes) (ps : params) : res vtype :=
  let dflt := match assoc (upper name) default_types with Some t => t | None => T_UNKNOWN end in
  do t <- match assoc (lit "VALUE") ps with
          | None => Ok dflt
          | Some l => do v <- first_value l; Ok (match assoc v value_types with Some t => t | None => dflt end)
          end;
  Ok (match assoc (upper name) specials with
      | Some s => if veqb t dflt then s else t
      | None => t
      end).

(** icalendar/property.py:273-278: getValue().setTimezoneID(tzid). *)
Definition zone_item (tz : bytes) (i : item) : item :=
  match i with VDateTime d => VDateTime (setTimezoneID d (TzName tz)) | _ => i end.
(** icalendar/property.py:260-278. *)
Definition postCreateValue (t : vtype) (ps : params) (v : value) : res value :=
  if veqb t T_TIME || veqb t T_DATETIME then
    match assoc (lit "TZID") ps with
    | None => Ok v
    | Some l =>
      do tz <- first_value l;
      Ok (match v with Single i => Single (zone_item tz i) | Multi m l => Multi m (map (zone_item tz) l) end)
    end
  else Ok v.

(** property.py:257-270: the value of a content line. *)
Definition line_value (ctx : pctx) (fl : floats) (name : bytes) (ps : params) (txt : option bytes) : res value :=
  do t <- determineValueType name ps;
  do v <- (if is_multi name then multi_parse ctx fl t txt else do i <- item_parse ctx fl t txt; Ok (Single i));
  postCreateValue t ps v.

(** property.py:221-275.  The parameter loop ends within as many rounds as there are characters (C26). *)
Definition prop_parse (ctx : pctx) (fl : floats) (data : bytes) : res prop :=
  match ical_parseLine (List.length data) data with
  | None => Raise RuntimeError
  | Some (Raise _) => Raise InvalidProperty
  | Some (Ok l) =>
    match line_value ctx fl (lName l) (lParams l) (lValue l) with
    | Ok v => Ok (mkProp (lName l) (lParams l) (Some v))
    | Raise _ => Raise InvalidProperty
    end
  end.

(** del mParameters[key]. *)
Fixpoint del_param (key : bytes) (ps : params) : params :=
  match ps with
  | [] => []
  | (k, l) :: r => if beq k key then del_param key r else (k, l) :: del_param key r
  end.

(** property.py:575-594 (sAlwaysValueTypes is empty unless registerDefaultValue is called): mParameters afterwards. *)
Definition setupValueParameter (name : bytes) (ps : params) (v : option value) : params :=
  let ps := del_param (lit "VALUE") ps in
  match v with
  | None => ps
  | Some v =>
    let dflt := assoc (upper name) default_types in
    let actual := match assoc (upper name) specials with Some _ => dflt | None => Some (value_type v) end in
    let differs := match dflt, actual with
                   | Some d, Some a => negb (veqb d a)
                   | None, _ => true
                   | Some _, None => true
                   end in
    if differs then
      match actual with
      | Some a =>
        match type_name a with
        | Some n => if match dflt with Some _ => true | None => negb (veqb a T_TEXT) end
                    then add_param (lit "VALUE") (lit "VALUE", [n]) ps else ps
        | None => ps
        end
      | None => ps
      end
    else ps
  end.

(** The property after generate (line 339 changes its parameters). *)
Definition prop_setup (p : prop) : prop := mkProp (pName p) (setupValueParameter (pName p) (pParams p) (pValue p)) (pValue p).

(** property.py:337-360: the unfolded line.  `if self.mValue` is true for every value object. *)
Definition prop_line (fl : floats) (p : prop) : res bytes :=
  let ps := setupValueParameter (pName p) (pParams p) (pValue p) in
  do v <- match pValue p with None => Ok None | Some v => do s <- value_generate fl v; Ok (Some s) end;
  Ok (gen_line (mkLine None (pName p) ps v)).
(** property.py:337-390: what generate writes (None: the folding loop does not end, C25). *)
Definition prop_generate (fl : floats) (p : prop) : option (res bytes) :=
  match prop_line fl p with
  | Raise e => Some (Raise e)
  | Ok l => fold_line (S (List.length l)) l
  end.

Section Eq.
Variable tzo : tzid -> Z -> Z -> Z -> Z -> Z -> Z -> bool -> bool -> Z.
Variable fl : floats.

(** Python's == on lists whose elements are compared by [eq]: lengths first, then element by element. *)
Fixpoint elements_eq {A} (eq : A -> A -> res bool) (a b : list A) : res bool :=
  match a, b with
  | x :: r, y :: s => do c <- eq x y; if c then elements_eq eq r s else Ok false
  | _, _ => Ok true
  end.
Definition list_eq {A} (eq : A -> A -> res bool) (a b : list A) : res bool :=
  if Nat.eqb (List.length a) (List.length b) then elements_eq eq a b else Ok false.

(** == on texts that can be None. *)
Definition text_eq (a b : option bytes) : bool :=
  match a, b with Some x, Some y => beq x y | None, None => true | _, _ => false end.

(** value.py:62-65 on two value objects: same type and equal values (datetime.py, duration.py:53-54, period.py:58-59,
    recurrence.py:200-216 compare the wrapped objects). *)
Definition item_eq (a b : item) : res bool :=
  if veqb (item_type a) (item_type b) then
    match a, b with
    | VText x, VText y => Ok (beq x y)
    | VPlain _ x, VPlain _ y => Ok (text_eq x y)
    | VUri x, VUri y => Ok (text_eq x y)
    | VInteger x, VInteger y => Ok (x =? y)
    | VOffset x, VOffset y => Ok (x =? y)
    | VFloat x, VFloat y => Ok (fl_eq fl x y)
    | VGeo x1 x2, VGeo y1 y2 => Ok (fl_eq fl x1 y1 && fl_eq fl x2 y2)
    | VDateTime x, VDateTime y => dt_eq tzo x y
    | VDuration x, VDuration y => Ok (getTotalSeconds x =? getTotalSeconds y)
    | VPeriod x, VPeriod y => period_eq tzo x y
    | VRecur x, VRecur y => rule_equals tzo x y
    | VStatus x, VStatus y => list_eq (fun u w => Ok (beq u w)) x y
    | _, _ => Ok false
    end
  else Ok false.
(** value.py:62-65 when MultiValue is involved (multivalue.py:41-42: getValue is the list). *)
Definition value_eq (a b : value) : res bool :=
  match a, b with
  | Single x, Single y => item_eq x y
  | Multi s x, Multi t y => if veqb s t then list_eq item_eq x y else Ok false
  | _, _ => Ok false
  end.

(** parameter.py:50-53. *)
Definition param_eq (p q : param) : res bool :=
  if beq (upper (fst p)) (upper (fst q)) then list_eq (fun u w => Ok (beq u w)) (snd p) (snd q) else Ok false.
(** == on the dicts mParameters: as many keys, and every key of the first has an equal list in the second. *)
Fixpoint keys_eq (ps qs : params) : res bool :=
  match ps with
  | [] => Ok true
  | (k, l) :: r =>
    match assoc k qs with
    | None => Ok false
    | Some l' => do c <- list_eq param_eq l l'; if c then keys_eq r qs else Ok false
    end
  end.
Definition params_eq (ps qs : params) : res bool :=
  if Nat.eqb (List.length ps) (List.length qs) then keys_eq ps qs else Ok false.

(** icalendar/property.py:248-251; without a value mValue is None. *)
Definition prop_eq (p q : prop) : res bool :=
  if beq (pName p) (pName q) then
    do v <- match pValue p, pValue q with
            | Some a, Some b => value_eq a b
            | None, None => Ok true
            | _, _ => Ok false
            end;
    if v then params_eq (pParams p) (pParams q) else Ok false
  else Ok false.
End Eq.
