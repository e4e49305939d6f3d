(** What C84 says: values that are set. *)
From Verif Require Export SetValueModel MakeSpec.

(** Single values of a type, in a property whose TZID parameter is z, that can be written and read. *)
Definition fits_one (ctx : pctx) (z : option bytes) (t : vtype) (v : pyvalue) : Prop :=
  match t, v with
  | (T_TEXT | T_BINARY | T_CALADDRESS), PyStr _ | T_INTEGER, PyInt _ => True
  | T_URI, PyStr s => if peqb (BACKSLASH_IN_URI_VALUE ctx) PARSER_FIX then ~ In BSLASH s else ~ In LF s
  | T_UTC_OFFSET, PyInt n => Z.abs n < 360000
  | T_DATE, PyDateTime d => printable d /\ mDateOnly d = true
  | T_DATETIME, PyDateTime d => printable d /\ (z = None -> in_zone None d)
  | T_DURATION, PyDuration d => dur_wf d
  | T_PERIOD, PyPeriod p => period_wf p
  | T_RECUR, PyRecur r => rule_ok r
  | _, _ => False
  end.
(** Lists of such values: not empty, and texts without commas. *)
Definition fits_list (ctx : pctx) (z : option bytes) (t : vtype) (v : pyvalue) : Prop :=
  match t, v with
  | T_TEXT, PyTexts l => l <> [] /\ Forall (fun s => ~ In ","%char s) l
  | (T_DATE | T_DATETIME), PyDates l => l <> [] /\ Forall (fun d => fits_one ctx z t (PyDateTime d)) l
  | T_PERIOD, PyPeriods l => l <> [] /\ Forall (fun p => fits_one ctx z t (PyPeriod p)) l
  | _, _ => False
  end.
(** A value for a property: of the type that the VALUE parameter or the name gives. *)
Definition fits (ctx : pctx) (z : option bytes) (p : prop) (v : pyvalue) : Prop :=
  ~ structured_name (pName p) /\
  exists t, typed (pName p) (pParams p) t /\ (t = T_TEXT -> known_name (pName p)) /\
    (listed (pName p) /\ fits_list ctx z t v \/ ~ listed (pName p) /\ fits_one ctx z t v).

(** The date d with the zone z put in place of its own, if there is one. *)
Definition rezoned (z : option bytes) (d e : dt) : Prop :=
  (mYear d, mMonth d, mDay d) = (mYear e, mMonth e, mDay e) /\ mDateOnly d = mDateOnly e /\
  (mDateOnly d = false ->
   (mHours d, mMinutes d, mSeconds d) = (mHours e, mMinutes e, mSeconds e) /\
   match z with
   | Some n => mTZUTC e = false /\ mTZID e = TzName n
   | None => mTZUTC e = mTZUTC d /\ mTZID e = mTZID d
   end).
(** The value given, with dates in the zone of the property. *)
Definition took (z : option bytes) (v : pyvalue) (w : value) : Prop :=
  match v, w with
  | PyStr s, Single (VText s') | PyStr s, Single (VPlain _ (Some s')) | PyStr s, Single (VUri (Some s')) => s' = s
  | PyInt n, Single (VInteger m) | PyInt n, Single (VOffset m) => m = n
  | PyDateTime d, Single (VDateTime e) => rezoned z d e
  | PyDuration d, Single (VDuration e) => e = d
  | PyRecur r, Single (VRecur r') => r' = r
  | PyPeriod p, Single (VPeriod q) => q = p
  | PyTexts l, Multi _ m => m = map VText l
  | PyDates l, Multi _ m => Forall2 (fun d i => exists e, i = VDateTime e /\ rezoned z d e) l m
  | PyPeriods l, Multi _ m => m = map VPeriod l
  | _, _ => False
  end.
(** A value that is not a list, and of which no list can be made. *)
Definition no_list (v : pyvalue) : Prop :=
  match v with PyNone | PyDateTime _ | PyDuration _ | PyRecur _ | PyPeriod _ | PyInt _ | PyOffset _ => True | _ => False end.
