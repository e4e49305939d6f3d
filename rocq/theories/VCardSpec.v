(** What the theorems about vCards are stated with. *)
From Verif Require Import VCardModel.
From Verif Require Export ComponentSpec.

(** The properties by default value type: RFC 2426 section 3 and RFC 2425. *)
Definition vcard_names (t : ctype) : list bytes :=
  match t with
  | CT T_TEXT =>
    [lit "NAME"; lit "PROFILE"; lit "FN"; lit "N"; lit "NICKNAME"; lit "ADR"; lit "LABEL"; lit "TEL"; lit "EMAIL"; lit "MAILER";
     lit "TITLE"; lit "ROLE"; lit "ORG"; lit "CATEGORIES"; lit "NOTE"; lit "PRODID"; lit "SORT-STRING"; lit "UID"; lit "VERSION"; lit "CLASS"]
  | CT T_BINARY => [lit "PHOTO"; lit "LOGO"; lit "SOUND"; lit "KEY"]
  | CT T_URI => [lit "SOURCE"; lit "URL"]
  | CT T_DATE => [lit "BDAY"]
  | CT T_DATETIME => [lit "REV"]
  | CT T_UTC_OFFSET => [lit "TZ"]
  | CT T_FLOAT => [lit "GEO"]
  | CT_VCARD => [lit "AGENT"]
  | _ => []
  end.
(** The value types a VALUE parameter can name. *)
Inductive vcard_param : bytes -> ctype -> Prop :=
| cp_binary : vcard_param (lit "BINARY") (CT T_BINARY)
| cp_boolean : vcard_param (lit "BOOLEAN") (CT T_BOOLEAN)
| cp_date : vcard_param (lit "DATE") (CT T_DATE)
| cp_datetime : vcard_param (lit "DATE-TIME") (CT T_DATETIME)
| cp_float : vcard_param (lit "FLOAT") (CT T_FLOAT)
| cp_integer : vcard_param (lit "INTEGER") (CT T_INTEGER)
| cp_text : vcard_param (lit "TEXT") (CT T_TEXT)
| cp_time : vcard_param (lit "TIME") (CT T_TIME)
| cp_uri : vcard_param (lit "URI") (CT T_URI)
| cp_offset : vcard_param (lit "UTCOFFSET") (CT T_UTC_OFFSET)
| cp_vcard : vcard_param (lit "VCARD") CT_VCARD.

(** The type of the values of a property: by the VALUE parameter if it names a type, else the default of the name; none for other names. *)
Inductive vcard_typed (name : bytes) (ps : params) : ctype -> Prop :=
| ct_param : forall n v l r t, lookup (lit "VALUE") ps = (n, v :: l) :: r -> vcard_param v t -> vcard_typed name ps t
| ct_default : forall t, (forall n v l r t, lookup (lit "VALUE") ps = (n, v :: l) :: r -> ~ vcard_param v t) ->
    In (upper name) (vcard_names t) -> vcard_typed name ps t
| ct_unknown : (forall n v l r t, lookup (lit "VALUE") ps = (n, v :: l) :: r -> ~ vcard_param v t) ->
    (forall t, ~ In (upper name) (vcard_names t)) -> vcard_typed name ps (CT T_UNKNOWN).
(** GEO values are pairs of floats; ADR, N and ORG values are made of texts. *)
Definition vcard_structured (name : bytes) (t : ctype) : ctype :=
  match t with
  | CT T_FLOAT => if beq (upper name) (lit "GEO") then CT T_GEO else t
  | CT T_TEXT =>
    if beq (upper name) (lit "ADR") then CT_ADR else if beq (upper name) (lit "N") then CT_N
    else if beq (upper name) (lit "ORG") then CT_ORG else t
  | _ => t
  end.
(** The properties whose value is a list separated by commas. *)
Definition vcard_lists : list bytes := [lit "NICKNAME"; lit "CATEGORIES"].

(** The kinds of value object by value type. *)
Definition vcard_made (t : ctype) (i : citem) : Prop :=
  match t, i with
  | CT_ADR, CAdr _ | CT_N, CName _ | CT_ORG, COrg _ | CT_VCARD, CItem (VPlain PUnknown _) => True
  | CT t, CItem i => made_by t i
  | _, _ => False
  end.

(** A date, or a date-time that is floating, in UTC, or at an offset of whole minutes. *)
Definition vcard_when (d : dt) : Prop :=
  mDateOnly d = true \/ mTZID d = TzNone \/ (mTZUTC d = false /\ exists n, mTZID d = TzInt n /\ off_ok n).
(** The parts of a name or an address: texts or lists of texts, of which only the last may end with a backslash. *)
Definition parts_ok (n : nat) (l : list nested) : Prop :=
  List.length l = n /\ Forall (fun x => ~ ends_with_backslash x) (but_last (leaves l)).
(** Value objects whose text can be read back: no UTC offsets. *)
Definition citem_ok (ctx : pctx) (fl : floats) (i : citem) : Prop :=
  match i with
  | CItem i =>
    match i with
    | VPlain PCalAddress _ => False
    | VText _ | VInteger _ | VPlain _ _ | VUri _ | VFloat _ | VGeo _ _ => item_ok ctx fl None i
    | VDateTime d => printable d /\ vcard_when d
    | _ => False
    end
  | CAdr l => parts_ok 7 l
  | CName l => parts_ok 5 l
  | COrg l => l <> [] /\ Forall (fun x => ~ ends_with_backslash x) (but_last l)
  end.
(** The same value; a part that is a list of one text is that text. *)
Definition same_citem (i j : citem) : Prop :=
  match i, j with
  | CItem i, CItem j => same_item i j
  | CAdr l, CAdr m => m = map normal l
  | CName l, CName m => m = map normal l
  | _, _ => i = j
  end.
Definition same_cvalue (v w : cvalue) : Prop :=
  match v, w with
  | CSingle i, CSingle j => same_citem i j
  | CMulti s l, CMulti t m => s = t /\ Forall2 same_citem l m
  | _, _ => False
  end.

(** Values that fit the property: list values for the properties that have them; GEO, ADR, N and ORG values for those properties and no
    others; no value of unknown type for a property with a known type except AGENT; no text for a property of unknown type. *)
Definition vcard_type_kept (name : bytes) (v : cvalue) : Prop :=
  (match v with CMulti _ _ => In (upper name) vcard_lists | CSingle _ => ~ In (upper name) vcard_lists end) /\
  (upper name = lit "GEO" <-> cvalue_type v = CT T_GEO) /\ (upper name = lit "ADR" <-> cvalue_type v = CT_ADR) /\
  (upper name = lit "N" <-> cvalue_type v = CT_N) /\ (upper name = lit "ORG" <-> cvalue_type v = CT_ORG) /\
  ((exists t, t <> CT_VCARD /\ In (upper name) (vcard_names t)) -> cvalue_type v <> CT T_UNKNOWN) /\
  ((forall t, ~ In (upper name) (vcard_names t)) -> cvalue_type v <> CT T_TEXT).
Definition cvalue_ok (ctx : pctx) (fl : floats) (v : cvalue) : Prop :=
  match v with
  | CSingle i => citem_ok ctx fl i
  | CMulti t l => (exists n, vcard_param n t) /\ l <> [] /\
    Forall (fun i => vcard_made t i /\ citem_ok ctx fl i /\ exists s, citem_generate fl i = Ok s /\ ~ In ","%char s) l
  end.
(** Properties whose line can be read back. *)
Definition cprop_ok (ctx : pctx) (fl : floats) (p : cprop) : Prop :=
  name_ok (cpName p) /\ group_ok (cpGroup p) (cpName p) /\ params_ok (cpParams p) /\
  Forall (fun kl => Forall (fun p => ~ In ":"%char (fst p) /\ ~ In ";"%char (fst p)) (snd kl)) (cpParams p) /\
  exists v, cpValue p = Some v /\ vcard_type_kept (cpName p) v /\ cvalue_ok ctx fl v.
(** The same property: group, name, value, and parameters other than VALUE. *)
Definition same_cprop (p q : cprop) : Prop :=
  cpGroup p = cpGroup q /\ cpName p = cpName q /\
  (forall k, k <> lit "VALUE" -> Forall2 same_param (lookup k (cpParams p)) (lookup k (cpParams q))) /\
  match cpValue p, cpValue q with Some v, Some w => same_cvalue v w | _, _ => False end.

(** A card that can be written and read: every key once, with the properties of that name in any letter case; there is a VERSION, it is 3.0,
    and no property reads END:VCARD. *)
Definition card_ok (ctx : pctx) (fl : floats) (c : cprops) : Prop :=
  NoDup (map fst c) /\ In (lit "VERSION") (map fst c) /\
  Forall (fun kl => snd kl <> [] /\
            Forall (fun p => upper (cpName p) = fst kl /\ cprop_ok ctx fl p /\
                             (cpName p = lit "VERSION" -> cpValue p = Some (CSingle (CItem (VText (lit "3.0"))))) /\
                             exists line, cprop_line fl p = Ok line /\ one_line line /\ line <> lit "END:VCARD") (snd kl)) c.
(** The same properties of each name in the same order. *)
Definition same_card (c d : cprops) : Prop := forall name, Forall2 same_cprop (card_get name c) (card_get name d).

(** The order of the lines: VERSION, PRODID, UID, then the others in the order of the bytes of their names. *)
Definition vcard_rank (name : bytes) : nat :=
  if beq name (lit "VERSION") then 0 else if beq name (lit "PRODID") then 1 else if beq name (lit "UID") then 2 else 3.
Definition vcard_before (a b : cprop) : Prop :=
  let x := upper (cpName a) in let y := upper (cpName b) in
  x = y \/ (vcard_rank x < vcard_rank y)%nat \/ (vcard_rank x = vcard_rank y /\ text_lt x y).

(** The unfolded lines of a text: C25. *)
Definition lines_in (text : bytes) : list bytes := read_lines (S (List.length text)) None text.

(** ** What is accepted *)
(** The properties of a card between BEGIN and END: blank lines, unless the policy is to raise, and property lines; a VERSION property is 3.0. *)
Inductive card_body (ctx : pctx) (fl : floats) : list bytes -> list cprop -> Prop :=
| body_nil : card_body ctx fl [] []
| body_blank : forall lines l, BLANK_LINES_IN_DATA ctx <> PARSER_RAISE -> card_body ctx fl lines l -> card_body ctx fl ([] :: lines) l
| body_prop : forall line p lines l, line <> [] -> line <> lit "END:VCARD" -> cprop_parse ctx fl line = Some (Ok p) ->
    (cpName p = lit "VERSION" -> ctext_of (cpValue p) = Some (lit "3.0")) ->
    card_body ctx fl lines l -> card_body ctx fl (line :: lines) (p :: l).
(** The properties of some name, in their order. *)
Definition of_name (name : bytes) (l : list cprop) : list cprop := filter (fun p => beq (upper (cpName p)) name) l.
Definition holds (c : cprops) (l : list cprop) : Prop := forall name, card_get name c = of_name name l.
(** A sequence of cards, with blank lines between them unless the policy is to raise. *)
Inductive cards_in (ctx : pctx) (fl : floats) : list bytes -> list (list cprop) -> Prop :=
| in_nil : cards_in ctx fl [] []
| in_blank : forall lines ls, BLANK_LINES_IN_DATA ctx <> PARSER_RAISE -> cards_in ctx fl lines ls -> cards_in ctx fl ([] :: lines) ls
| in_card : forall body l lines ls, card_body ctx fl body l -> cards_in ctx fl lines ls ->
    cards_in ctx fl (lit "BEGIN:VCARD" :: body ++ lit "END:VCARD" :: lines) (l :: ls).
Definition has_version (l : list cprop) : Prop := of_name (lit "VERSION") l <> [].

(** ** Names *)
(** The words of a text: what is between the blanks. *)
Fixpoint words_from (w : bytes) (s : bytes) : list bytes :=
  match s with
  | [] => match w with [] => [] | _ => [w] end
  | c :: r => if Ascii.eqb c SPC then match w with [] => words_from [] r | _ => w :: words_from [] r end else words_from (w ++ [c]) r
  end.
Definition words (s : bytes) : list bytes := words_from [] s.
Definition part_words (x : nested) : list bytes := match x with NStr s => words s | NTup l => flat_map words l end.
(** Texts without blanks at the ends or next to each other. *)
Definition tidy (s : bytes) : Prop := s <> [] /\ join_char SPC (words s) = s.
Definition part_tidy (x : nested) : Prop := match x with NStr s => s = [] \/ tidy s | NTup l => Forall tidy l end.
(** Values as they are read when parts that are too many are cut off or refused: five parts of a name, seven of an address. *)
Definition cuts (ctx : pctx) : Prop := INVALID_ADR_N_VALUES ctx = PARSER_FIX \/ INVALID_ADR_N_VALUES ctx = PARSER_RAISE.
