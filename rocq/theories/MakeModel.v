(** Model of making a property from a Python value: icalendar/property.py:187-232, 280-351, property.py:596-626.  Line
    numbers are those of icalendar/property.py unless another file is named.  Definitions only. *)
From Verif Require Export EditModel.

(** The values that __init__ tells apart (194-231).  A unicode object is encoded first (201-203) and then is a str.  Lists
    are those with elements of one kind; PyOther is a value that no branch takes, as a float. *)
Inductive pyvalue : Set :=
| PyNone | PyStr (s : bytes) | PyDateTime (d : dt) | PyDuration (d : dur) | PyRecur (r : rule) | PyPeriod (p : period) | PyInt (n : Z)
| PyTexts (l : list bytes) | PyDates (l : list dt) | PyPeriods (l : list period) | PyOffset (n : Z) | PyOther.

(** The object that Value.createFromType(t) makes (value.py:74-80), after setValue(s) if it is a PlainTextValue (property.py:605-608).
    The others keep their first value: integervalue.py:26, utcoffsetvalue.py:27, floatvalue.py:26, geovalue.py:33, valueutils.py:66 with
    datetime.py:78-94, duration.py:22-37, period.py:26-42 and recurrence.py:99-100, requeststatusvalue.py:33.  0.0 is an
    argument as floats are not modelled. *)
Definition text_item (zero : pyfloat) (t : vtype) (s : bytes) : item :=
  match t with
  | T_TEXT => VText s
  | T_BINARY => VPlain PBinary (Some s)
  | T_CALADDRESS => VPlain PCalAddress (Some s)
  | T_UNKNOWN | T_BOOLEAN | T_TIME => VPlain PUnknown (Some s)
  | T_URI => VUri (Some s)
  | T_INTEGER => VInteger 0
  | T_UTC_OFFSET => VOffset 0
  | T_FLOAT => VFloat zero
  | T_GEO => VGeo zero zero
  | T_DATE | T_DATETIME => VDateTime newDefault
  | T_DURATION => VDuration (newDuration 0 0 0 0 0)
  | T_PERIOD => VPeriod newPeriod
  | T_RECUR => VRecur rule_init
  | T_REQUEST_STATUS => VStatus [lit "2.0"; lit "Success"]
  end.
(** The value with the parameter that names its type: property.py:598-602 and the other _init_attr_value methods. *)
Definition with_value (name : bytes) (v : value) : prop := mkProp name (setupValueParameter name [] (Some v)) (Some v).
(** 199 and property.py:604-611. *)
Definition text_prop (zero : pyfloat) (name : bytes) (vt : option vtype) (s : bytes) : prop :=
  let t := match vt with Some t => t | None => match assoc (upper name) default_types with Some t => t | None => T_UNKNOWN end end in
  with_value name (Single (text_item zero t s)).
(** 302-321.  With a numeric zone the parameter would hold a number, as in date_prop. *)
Definition dates_prop (name : bytes) (l : list dt) : prop :=
  let date_only := match l with d :: _ => mDateOnly d | [] => false end in
  let v := Multi (if date_only then T_DATE else T_DATETIME) (map VDateTime l) in
  let ps := setupValueParameter name [] (Some v) in
  mkProp name (match l with
               | d :: _ => if negb (mDateOnly d) && local d
                           then add_param (lit "TZID") (lit "TZID", [match mTZID d with TzName n => n | _ => [] end]) ps else ps
               | [] => ps
               end) (Some v).

(** 187-231: Property(name, value, valuetype).  A list of texts for another property raises at dtl[0].isDateOnly() (304); dates
    and periods are not put into a REQUEST-STATUS here. *)
Definition make (zero : pyfloat) (name : bytes) (v : pyvalue) (vt : option vtype) : res prop :=
  match v with
  | PyNone | PyOther => Ok (mkProp name [] None)
  | PyStr s => Ok (text_prop zero name vt s)
  | PyDateTime d => Ok (date_prop name d)
  | PyDuration d => Ok (duration_prop name d)
  | PyRecur r => Ok (recur_prop name r)
  | PyPeriod p => Ok (with_value name (Single (VPeriod p)))
  | PyInt n => Ok (with_value name (Single (VInteger n)))
  | PyTexts l =>
    if beq (upper name) (lit "REQUEST-STATUS") then Ok (with_value name (Single (VStatus l)))
    else match l with [] => Ok (dates_prop name []) | _ => Raise AttributeError end
  | PyDates l => Ok (dates_prop name l)
  | PyPeriods l => match l with [] => Ok (dates_prop name []) | _ => Ok (with_value name (Multi T_PERIOD (map VPeriod l))) end
  | PyOffset n => Ok (with_value name (Single (VOffset n)))
  end.
