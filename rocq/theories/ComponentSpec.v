(** What the theorems about component trees are stated with. *)
From Verif Require Import ComponentModel.
From Verif Require Export PropertySpec.

(** The same content: type, the properties of each name in their order, and the sub-components in some order. *)
Inductive same_tree : comp -> comp -> Prop :=
| same_comp : forall k s s' ps ps' subs subs' l,
    (forall name, Forall2 same_prop (getProperties name ps) (getProperties name ps')) ->
    Permutation l subs -> Forall2 same_tree l subs' ->
    same_tree (Comp k s ps subs) (Comp k s' ps' subs').

(** Text in UTF-8 on one line that does not start with a blank. *)
Definition one_line (s : bytes) : Prop :=
  loose_line s /\ exists chars, Forall utf8_char chars /\ List.concat chars = s.

(** A dictionary of properties that can be written and read: every key once, with the properties of that name in any
    letter case; and no name that makes a line BEGIN or END. *)
Definition props_ok (ctx : pctx) (fl : floats) (ps : props) : Prop :=
  NoDup (map fst ps) /\
  Forall (fun kl => fst kl <> lit "BEGIN" /\ fst kl <> lit "END" /\ snd kl <> [] /\
            Forall (fun p => upper (pName p) = fst kl /\ prop_ok ctx fl p /\
                             exists line, prop_line fl p = Ok line /\ one_line line) (snd kl)) ps.

(** The registered component types. *)
Definition known_types : list bytes :=
  [lit "VEVENT"; lit "VTODO"; lit "VJOURNAL"; lit "VFREEBUSY"; lit "VTIMEZONE"; lit "STANDARD"; lit "DAYLIGHT";
   lit "VALARM"; lit "VAVAILABILITY"; lit "AVAILABLE"; lit "VPOLL"; lit "VVOTER"; lit "VOTE"].
(** Component classes inside a calendar, and the types an unknown component may have: text on a line, that is not a
    known name (nor UNKNOWN, which is read as an unknown component without type). *)
Definition kind_ok (k : kind) : Prop :=
  match k with
  | VCALENDAR => False
  | UNKNOWN t => ~ In t known_types /\ t <> lit "UNKNOWN" /\ t <> lit "VCALENDAR" /\ ~ In CR t /\ ~ In LF t
  | _ => True
  end.
(** Which components may be put in which: alarms in events and to-dos, observances in time zones, and so on. *)
Definition nesting_ok (parent child : kind) : Prop :=
  match parent with
  | VEVENT | VTODO => child = VALARM
  | VTIMEZONE => child = STANDARD \/ child = DAYLIGHT
  | VAVAILABILITY => child = AVAILABLE
  | VVOTER => child = VOTE
  | _ => True
  end.
(** What finalise wants of the properties: RECURRENCE-ID is a date or date-time, and an observance starts at a local
    time. *)
Definition cached_ok (k : kind) (ps : props) : Prop :=
  match k with
  | VEVENT | VTODO | VJOURNAL | AVAILABLE =>
    match getProperties (lit "RECURRENCE-ID") ps with
    | [] => True
    | p :: _ => exists d, pValue p = Some (Single (VDateTime d))
    end
  | STANDARD | DAYLIGHT =>
    match getProperties (lit "DTSTART") ps with
    | [] => True
    | p :: _ => forall d, pValue p = Some (Single (VDateTime d)) -> floating d = true /\ mDateOnly d = false
    end
  | _ => True
  end.

(** Components below the top level that can be written and read. *)
Inductive tree_ok (ctx : pctx) (fl : floats) : comp -> Prop :=
| tree_intro : forall k s ps subs,
    kind_ok k -> props_ok ctx fl ps -> cached_ok k ps ->
    Forall (fun c => nesting_ok k (cKind c)) subs -> Forall (tree_ok ctx fl) subs ->
    tree_ok ctx fl (Comp k s ps subs).
(** VERSION and CALSCALE of a calendar. *)
Definition calendar_prop_ok (p : prop) : Prop :=
  (pName p = lit "VERSION" -> pValue p = Some (Single (VText (lit "2.0")))) /\
  (pName p = lit "CALSCALE" -> pValue p = Some (Single (VText (lit "GREGORIAN")))).
(** A calendar that can be written and read. *)
Definition calendar_ok (ctx : pctx) (fl : floats) (c : comp) : Prop :=
  cKind c = VCALENDAR /\ props_ok ctx fl (cProps c) /\ getProperties (lit "VERSION") (cProps c) <> [] /\
  Forall calendar_prop_ok (List.concat (map snd (cProps c))) /\ Forall (tree_ok ctx fl) (cSubs c).

(** Every component in the tree is as its finalise left it. *)
Inductive finalised (tzo : tzid -> Z -> Z -> Z -> Z -> Z -> Z -> bool -> bool -> Z) : comp -> Prop :=
| finalised_intro : forall c, finalise tzo c = Ok c -> Forall (finalised tzo) (cSubs c) -> finalised tzo c.
(** The first property of that name has a text that is not empty. *)
Definition has_text (name : bytes) (ps : props) : Prop :=
  exists p t r, getProperties name ps = p :: r /\ pValue p = Some (Single (VText t)) /\ t <> [].
(** The sort key comes from the properties, not from a uuid or from the fields of the object: a UID, for time zones a
    TZID, for observances a DTSTART, for alarms an ACTION and a TRIGGER. *)
Definition has_key (c : comp) : Prop :=
  match cKind c with
  | VEVENT | VTODO | VJOURNAL | AVAILABLE => has_text (lit "UID") (cProps c)
  | VFREEBUSY | VAVAILABILITY | VPOLL | VVOTER | VOTE => has_text (lit "UID") (cProps c) /\ sMapKey (cState c) = None
  | VTIMEZONE => has_text (lit "TZID") (cProps c)
  | VALARM => has_text (lit "ACTION") (cProps c) /\
    exists p r, getProperties (lit "TRIGGER") (cProps c) = p :: r /\
      ((exists d, pValue p = Some (Single (VDateTime d))) \/ (exists d, pValue p = Some (Single (VDuration d))))
  | STANDARD | DAYLIGHT =>
    exists p r d, getProperties (lit "DTSTART") (cProps c) = p :: r /\ pValue p = Some (Single (VDateTime d))
  | _ => True
  end.
Inductive keyed : comp -> Prop :=
| keyed_intro : forall c,
    (match cKind c with VPOLL | VVOTER => True | _ => Forall has_key (cSubs c) end) ->
    Forall keyed (cSubs c) -> keyed c.

(** ** Orders (C41). *)

(** Byte strings in lexicographic order. *)
Inductive text_lt : bytes -> bytes -> Prop :=
| tl_nil : forall d s, text_lt [] (d :: s)
| tl_head : forall c r d s, (nat_of_ascii c < nat_of_ascii d)%nat -> text_lt (c :: r) (d :: s)
| tl_tail : forall c r s, text_lt r s -> text_lt (c :: r) (c :: s).
(** Nothing before numbers before texts. *)
Inductive val_lt : pykey -> pykey -> Prop :=
| vl_int : forall n, val_lt KNone (KInt n)
| vl_str : forall s, val_lt KNone (KStr s)
| vl_ints : forall m n, m < n -> val_lt (KInt m) (KInt n)
| vl_int_str : forall n s, val_lt (KInt n) (KStr s)
| vl_strs : forall s t, text_lt s t -> val_lt (KStr s) (KStr t).
(** Tuples: the first place where they differ decides. *)
Inductive rank_lt : list pykey -> list pykey -> Prop :=
| rl_nil : forall y s, rank_lt [] (y :: s)
| rl_head : forall x r y s, val_lt x y -> rank_lt (x :: r) (y :: s)
| rl_tail : forall x r s, rank_lt r s -> rank_lt (x :: r) (x :: s).
(** The position of a type in the list of a calendar; all others come after them. *)
Fixpoint place (names : list bytes) (t : bytes) : Z :=
  match names with [] => 0 | n :: r => if beq t n then 0 else 1 + place r t end.
Definition calendar_order : list bytes :=
  [lit "VTIMEZONE"; lit "VEVENT"; lit "VTODO"; lit "VJOURNAL"; lit "VFREEBUSY"; lit "VAVAILABILITY"].
(** What the components in a component of class k are sorted by.  A poll has the voters first (under 0) by VOTER, then the others
    by POLL-ITEM-ID; time zones are not sorted. *)
Definition rank (k : kind) (c : comp) : list pykey :=
  match k with
  | VTIMEZONE => []
  | VPOLL =>
    if beq (upper_type c) (lit "VVOTER") then [KStr (lit "0"); ostr (loadString (lit "VOTER") (cProps c))]
    else [KStr (upper_type c); oint (loadInteger (lit "POLL-ITEM-ID") (cProps c))]
  | VVOTER => [oint (loadInteger (lit "POLL-ITEM-ID") (cProps c))]
  | VCALENDAR => [KInt (place calendar_order (upper_type c)); KStr (upper_type c); KStr (getSortKey c)]
  | _ => [KStr (upper_type c); KStr (getSortKey c)]
  end.

(** The names that are written first, by component type. *)
Definition first_names (k : kind) : list bytes :=
  match k with
  | VCALENDAR => [lit "VERSION"; lit "CALSCALE"; lit "METHOD"; lit "PRODID"]
  | VEVENT | AVAILABLE => [lit "UID"; lit "RECURRENCE-ID"; lit "DTSTART"; lit "DURATION"; lit "DTEND"]
  | VTODO => [lit "UID"; lit "RECURRENCE-ID"; lit "DTSTART"; lit "DURATION"; lit "DUE"; lit "COMPLETED"]
  | VJOURNAL => [lit "UID"; lit "RECURRENCE-ID"; lit "DTSTART"]
  | VFREEBUSY | VAVAILABILITY | VPOLL => [lit "UID"; lit "DTSTART"; lit "DURATION"; lit "DTEND"]
  | VTIMEZONE => [lit "TZID"; lit "LAST-MODIFIED"; lit "TZURL"]
  | VVOTER => [lit "VOTER"]
  | VOTE => [lit "POLL-ITEM-ID"; lit "RESPONSE"]
  | UNKNOWN _ => [lit "UID"]
  | STANDARD | DAYLIGHT | VALARM => []
  end.
(** l is the sublist of the names in big that satisfy P, in their order. *)
Inductive picked (P : bytes -> Prop) : list bytes -> list bytes -> Prop :=
| pick_nil : picked P [] []
| pick_in : forall n big l, P n -> picked P big l -> picked P (n :: big) (n :: l)
| pick_out : forall n big l, ~ P n -> picked P big l -> picked P (n :: big) l.

(** ** The lines that are accepted (C40). *)

(** The type of the component that BEGIN:name makes. *)
Definition type_named (n : bytes) : bytes := if beq n (lit "UNKNOWN") then [] else n.
Definition is_begin (l : bytes) : Prop := exists n, l = lit "BEGIN:" ++ n.
Definition set_props (c : comp) (ps : props) : comp := let '(Comp k s _ subs) := c in Comp k s ps subs.

Section Grammar.
Variable tzo : tzid -> Z -> Z -> Z -> Z -> Z -> Z -> bool -> bool -> Z.
Variable ctx : pctx.
Variable fl : floats.
Variable uuids : nat -> bytes.

(** A line that is taken for the property p in a component that END:t closes (None: the calendar itself). *)
Definition prop_line_in (t : option bytes) (l : bytes) (p : prop) : Prop :=
  ~ is_begin l /\ l <> lit "END:VCALENDAR" /\ (forall n, t = Some n -> l <> lit "END:" ++ n) /\ l <> [] /\
  prop_parse ctx fl l = Ok p /\ (t = None -> validProperty p = true).

(** What can stand in a component: properties, blank lines, and complete components.
    [body t n c b m d]: reading b into the open component c gives d; n and m number the components made. *)
Inductive body : option bytes -> nat -> comp -> list bytes -> nat -> comp -> Prop :=
| body_nil : forall t n c, body t n c [] n c
| body_blank : forall t n c r m d, BLANK_LINES_IN_DATA ctx <> PARSER_RAISE -> body t n c r m d -> body t n c ([] :: r) m d
| body_prop : forall t n c l p r m d, prop_line_in t l p -> body t n (set_props c (addProperty p (cProps c))) r m d ->
    body t n c (l :: r) m d
| body_comp : forall t n c name b n1 e e' c1 r m d, type_named name <> lit "VCALENDAR" ->
    body (Some (type_named name)) (S n) (makeComponent name (uuids n)) b n1 e ->
    finalise tzo e = Ok e' -> addComponent c e' = Ok c1 -> body t n1 c1 r m d ->
    body t n c ((lit "BEGIN:" ++ name) :: b ++ (lit "END:" ++ type_named name) :: r) m d.
(** The same, cut off anywhere: the components that are still open at the end do not count. *)
Inductive cut_body : option bytes -> nat -> comp -> list bytes -> comp -> Prop :=
| cut_done : forall t n c b m d, body t n c b m d -> cut_body t n c b d
| cut_open : forall t n c b m d name r e, body t n c b m d ->
    cut_body (Some (type_named name)) (S m) (makeComponent name (uuids m)) r e ->
    cut_body t n c (b ++ (lit "BEGIN:" ++ name) :: r) d.
(** A file of calendars: the lines between BEGIN:VCALENDAR and END:VCALENDAR, put together. *)
Inductive file_of : list bytes -> list bytes -> Prop :=
| file_nil : file_of [] []
| file_blank : forall r i, BLANK_LINES_IN_DATA ctx <> PARSER_RAISE -> file_of r i -> file_of ([] :: r) i
| file_cal : forall s r i, Forall (fun l => l <> lit "END:VCALENDAR") s -> file_of r i ->
    file_of (lit "BEGIN:VCALENDAR" :: s ++ lit "END:VCALENDAR" :: r) (s ++ i).
End Grammar.
