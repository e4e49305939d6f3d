(** What C65 says: properties made from values. *)
From Verif Require Export MakeModel PropertySpec.

(** The zone that the text of a date needs a TZID for. *)
Definition zone_of (d : dt) : option bytes := if mDateOnly d then None else match mTZID d with TzName z => Some z | _ => None end.
(** A date, or a date-time that is floating, in UTC, or in a zone with a name that can be written. *)
Definition placed (d : dt) : Prop := printable d /\ in_zone (zone_of d) d /\ match zone_of d with Some z => z <> [] /\ value_ok z | None => True end.

Definition listed (name : bytes) : Prop := In (upper name) list_names.
(** A name with a default type, RFC 5545. *)
Definition known_name (name : bytes) : Prop := exists t, In (upper name) (names_with t).
Definition structured_name (name : bytes) : Prop := upper name = lit "GEO" \/ upper name = lit "REQUEST-STATUS".

(** The types of values that are texts: which names a str can be given with them. *)
Definition text_type (ctx : pctx) (name s : bytes) (t : vtype) : Prop :=
  match t with
  | T_TEXT => known_name name
  | T_CALADDRESS | T_BINARY => True
  | T_URI => if peqb (BACKSLASH_IN_URI_VALUE ctx) PARSER_FIX then ~ In BSLASH s else ~ In LF s
  | T_UNKNOWN => ~ known_name name
  | _ => False
  end.

(** The value suits the property. *)
Definition suits (ctx : pctx) (name : bytes) (v : pyvalue) (vt : option vtype) : Prop :=
  name_ok name /\
  match v with
  | PyNone | PyOther => False
  | PyTexts [code; desc] => upper name = lit "REQUEST-STATUS" /\ INVALID_REQUEST_STATUS_VALUE ctx <> PARSER_RAISE /\ ~ In BSLASH code
  | PyTexts [code; desc; rest] => upper name = lit "REQUEST-STATUS" /\
    INVALID_REQUEST_STATUS_VALUE ctx <> PARSER_RAISE /\ ~ In BSLASH code /\ ~ ends_with_backslash desc /\ rest <> []
  | PyTexts _ => False
  | PyDates [] | PyPeriods [] => False
  | PyDates (d :: l) => listed name /\ placed d /\
    Forall (fun e => printable e /\ mDateOnly e = mDateOnly d /\ in_zone (zone_of d) e) l
  | PyPeriods l => listed name /\ Forall period_wf l
  | PyStr s => ~ listed name /\ ~ structured_name name /\
    exists t, text_type ctx name s t /\
      match vt with Some t' => t = t' | None => In (upper name) (names_with t) \/ t = T_UNKNOWN end
  | PyDateTime d => ~ listed name /\ ~ structured_name name /\ placed d
  | PyDuration d => ~ listed name /\ ~ structured_name name /\ dur_wf d
  | PyRecur r => ~ listed name /\ ~ structured_name name /\ rule_ok r
  | PyPeriod p => ~ listed name /\ ~ structured_name name /\ period_wf p
  | PyInt _ => ~ listed name /\ ~ structured_name name
  | PyOffset n => ~ listed name /\ ~ structured_name name /\ Z.abs n < 360000
  end.

(** The value that was given. *)
Definition gives (v : pyvalue) (w : value) : Prop :=
  match v, w with
  | PyStr s, Single (VText s') | PyStr s, Single (VPlain _ (Some s')) | PyStr s, Single (VUri (Some s')) => s' = s
  | PyDateTime d, Single (VDateTime e) => same_when d e
  | PyDuration d, Single (VDuration e) => getTotalSeconds d = getTotalSeconds e
  | PyRecur r, Single (VRecur r') => r' = canon r
  | PyPeriod p, Single (VPeriod q) => same_period p q
  | PyInt n, Single (VInteger m) | PyOffset n, Single (VOffset m) => m = n
  | PyTexts l, Single (VStatus l') => l' = l
  | PyDates l, Multi _ m => Forall2 (fun d i => exists e, i = VDateTime e /\ same_when d e) l m
  | PyPeriods l, Multi _ m => Forall2 (fun p i => exists q, i = VPeriod q /\ same_period p q) l m
  | _, _ => False
  end.
