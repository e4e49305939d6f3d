(** Property.setValue: property.py:552-573, multivalue.py:50-56, with the setValue of the value classes. *)
From Verif Require Export PyBase LineModel PropertyModel MakeModel.

(** The value object that createFromType(t) makes, after setValue(v): plaintextvalue.py:55-56, integervalue.py:57-58,
    utcoffsetvalue.py:112-113, valueutils.py:93-94.  None: the object holds a value that its class is not meant for (there
    is no check), which is not modelled further; so for FLOAT as floats are not values of MakeModel. *)
Definition set_item (t : vtype) (v : pyvalue) : option item :=
  match t, v with
  | T_TEXT, PyStr s => Some (VText s)
  | T_BINARY, PyStr s => Some (VPlain PBinary (Some s))
  | T_CALADDRESS, PyStr s => Some (VPlain PCalAddress (Some s))
  | (T_UNKNOWN | T_BOOLEAN | T_TIME), PyStr s => Some (VPlain PUnknown (Some s))
  | T_URI, PyStr s => Some (VUri (Some s))
  | T_INTEGER, PyInt n => Some (VInteger n)
  | T_UTC_OFFSET, PyInt n => Some (VOffset n)
  | (T_DATE | T_DATETIME), PyDateTime d => Some (VDateTime d)
  | T_DURATION, PyDuration d => Some (VDuration d)
  | T_PERIOD, PyPeriod p => Some (VPeriod p)
  | T_RECUR, PyRecur r => Some (VRecur r)
  | _, _ => None
  end.
Fixpoint set_items (t : vtype) (l : list pyvalue) : option (list item) :=
  match l with
  | [] => Some []
  | v :: l => match set_item t v, set_items t l with Some i, Some m => Some (i :: m) | _, _ => None end
  end.

(** for v in value, multivalue.py:52: the elements of a list, the characters of a str; None for values that cannot be iterated over. *)
Definition elements (v : pyvalue) : option (list pyvalue) :=
  match v with
  | PyStr s => Some (map (fun c => PyStr [c]) s)
  | PyTexts l => Some (map PyStr l)
  | PyDates l => Some (map PyDateTime l)
  | PyPeriods l => Some (map PyPeriod l)
  | _ => None
  end.

(** property.py:557-561: the type of the new value. *)
Definition set_type (name : bytes) (ps : params) : res vtype :=
  let dflt := match assoc (upper name) default_types with Some t => t | None => T_TEXT end in
  match assoc (lit "VALUE") ps with
  | None => Ok dflt
  | Some l => do v <- first_value l; Ok (match assoc v value_types with Some t => t | None => dflt end)
  end.

(** The date objects given are kept and not copied (valueutils.py:94), so what _postCreateValue does to them
    (icalendar/property.py:273-278) is seen by the caller: what the value given has become. *)
Definition left_with (v : pyvalue) (w : value) : pyvalue :=
  match v, w with
  | PyDateTime _, Single (VDateTime e) => PyDateTime e
  | PyDates _, Multi _ l => PyDates (flat_map (fun i => match i with VDateTime e => [e] | _ => [] end) l)
  | _, _ => v
  end.

(** What a call leaves: the property and the value given; or the exception with the property; or a property with a value
    its class is not meant for. *)
Inductive setting : Set :=
| SetTo (p : prop) (v : pyvalue)
| Failed (p : prop) (e : exn)
| Mistyped.

(** property.py:552-573. *)
Definition setValue (p : prop) (v : pyvalue) : setting :=
  let has w := mkProp (pName p) (pParams p) w in
  match set_type (pName p) (pParams p) with
  | Raise e => Failed (has None) e
  | Ok t =>
    let post w := match postCreateValue t (pParams p) w with
                  | Ok w' => SetTo (has (Some w')) (left_with v w')
                  | Raise e => Failed (has (Some w)) e
                  end in
    if is_multi (pName p) then
      match v with
      | PyOther => Mistyped
      | _ => match elements v with
             | None => Failed (has (Some (Multi t []))) TypeError
             | Some l => match set_items t l with Some m => post (Multi t m) | None => Mistyped end
             end
      end
    else match set_item t v with Some i => post (Single i) | None => Mistyped end
  end.
