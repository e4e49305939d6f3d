(** Model of making a property from a Python value with a registered name: icalendar/property.py:187-232, 280-351, property.py:596-626 with the tables of
    registerDefaultValue.  Line numbers are those of icalendar/property.py unless another file is named.  Definitions only. *)
From Verif Require Export MakeModel RegisterModel.

Section Registry.
Variable g : registry.
(** As MakeModel.with_value: property.py:598-602 and the other _init_attr_value methods. *)
Definition rm_value (name : bytes) (v : value) : prop := mkProp name (reg_setup g name [] (Some v)) (Some v).
(** As MakeModel.text_prop: 199 and property.py:604-611. *)
Definition rm_text (zero : pyfloat) (name : bytes) (vt : option vtype) (s : bytes) : prop :=
  let t := match vt with Some t => t | None => match assoc (upper name) (gTypes g) with Some t => t | None => T_UNKNOWN end end in
  rm_value name (Single (text_item zero t s)).
(** The TZID parameter: 296-300, 316-321, with a numeric zone as in DeriveModel.date_prop. *)
Definition rm_zone (d : dt) (ps : params) : params :=
  if negb (mDateOnly d) && local d then add_param (lit "TZID") (lit "TZID", [match mTZID d with TzName n => n | _ => [] end]) ps else ps.
(** As DeriveModel.date_prop: 288-300. *)
Definition rm_date (name : bytes) (d : dt) : prop :=
  let v := Some (Single (VDateTime d)) in mkProp name (rm_zone d (reg_setup g name [] v)) v.
(** As MakeModel.dates_prop: 302-321. *)
Definition rm_dates (name : bytes) (l : list dt) : prop :=
  let date_only := match l with d :: _ => mDateOnly d | [] => false end in
  let v := Multi (if date_only then T_DATE else T_DATETIME) (map VDateTime l) in
  let ps := reg_setup g name [] (Some v) in
  mkProp name (match l with d :: _ => rm_zone d ps | [] => ps end) (Some v).
(** As MakeModel.make: 187-231. *)
Definition reg_make (zero : pyfloat) (name : bytes) (v : pyvalue) (vt : option vtype) : res prop :=
  match v with
  | PyNone | PyOther => Ok (mkProp name [] None)
  | PyStr s => Ok (rm_text zero name vt s)
  | PyDateTime d => Ok (rm_date name d)
  | PyDuration d => Ok (rm_value name (Single (VDuration d)))
  | PyRecur r => Ok (rm_value name (Single (VRecur r)))
  | PyPeriod p => Ok (rm_value name (Single (VPeriod p)))
  | PyInt n => Ok (rm_value name (Single (VInteger n)))
  | PyTexts l =>
    if beq (upper name) (lit "REQUEST-STATUS") then Ok (rm_value name (Single (VStatus l)))
    else match l with [] => Ok (rm_dates name []) | _ => Raise AttributeError end
  | PyDates l => Ok (rm_dates name l)
  | PyPeriods l => match l with [] => Ok (rm_dates name []) | _ => Ok (rm_value name (Multi T_PERIOD (map VPeriod l))) end
  | PyOffset n => Ok (rm_value name (Single (VOffset n)))
  end.
End Registry.
