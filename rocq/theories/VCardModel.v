(** Model of vCards: /repo/src/pycalendar/vcard/card.py, property.py, adr.py, n.py, adrvalue.py, nvalue.py, orgvalue.py, with property.py,
    containerbase.py and componentbase.py.  Line numbers are those of vcard/property.py unless another file is named.  Definitions only.

    Simplifications.  A Card has no sub-components (sComponentType is None, card.py:33: reading never makes one).  The text of an exception is
    left out, also where making it (`str(prop)`, card.py:148, containerbase.py:197) could raise another one. *)
From Verif Require Export PropertyModel ComponentModel.

(** value.py:26-50: the value types that only vCards have, and the others. *)
Inductive ctype : Set := CT (t : vtype) | CT_ADR | CT_N | CT_ORG | CT_VCARD.
Definition ctype_eqb (a b : ctype) : bool :=
  match a, b with
  | CT s, CT t => veqb s t
  | CT_ADR, CT_ADR | CT_N, CT_N | CT_ORG, CT_ORG | CT_VCARD, CT_VCARD => true
  | _, _ => false
  end.
(** One value object.  The text of an ORG value with one part is a str in the code and a list of one text here. *)
Inductive citem : Set := CItem (i : item) | CAdr (l : list nested) | CName (l : list nested) | COrg (l : list bytes).
Inductive cvalue : Set := CSingle (i : citem) | CMulti (t : ctype) (l : list citem).
(** getType: valueutils.py:68-69 with adrvalue.py:27, nvalue.py:27; orgvalue.py:34-35. *)
Definition citem_type (i : citem) : ctype :=
  match i with CItem i => CT (item_type i) | CAdr _ => CT_ADR | CName _ => CT_N | COrg _ => CT_ORG end.
Definition cvalue_type (v : cvalue) : ctype := match v with CSingle i => citem_type i | CMulti t _ => t end.

(** Value.createFromType(t).parse(data, "vcard"): as PropertyModel.item_parse, but dates (datetimevalue.py:31-32) and offsets
    (utcoffsetvalue.py:35-65) in the full ISO format; adr.py:96-97, n.py:95-96, orgvalue.py:37-38.  No class is registered for VCARD. *)
Definition citem_parse (ctx : pctx) (fl : floats) (t : ctype) (data : option bytes) : res citem :=
  match t, data with
  | CT_VCARD, _ => Ok (CItem (VPlain PUnknown data))
  | (CT_ADR | CT_N | CT_ORG), None => Raise TypeError
  | CT_ADR, Some s => do l <- parseDoubleNestedList ctx s 7; Ok (CAdr l)
  | CT_N, Some s => do l <- parseDoubleNestedList ctx s 5; Ok (CName l)
  | CT_ORG, Some s => do l <- parseTextList ctx ";" s; Ok (COrg l)
  | CT T_UTC_OFFSET, Some s =>
    match utcoffset_parse true s 0 with (n, Ok _) => Ok (CItem (VOffset n)) | (_, Raise e) => Raise e end
  | CT (T_DATE | T_DATETIME), Some s => do d <- dt_parseText ctx true s; Ok (CItem (VDateTime d))
  | CT t, _ => do i <- item_parse ctx fl t data; Ok (CItem i)
  end.
(** multivalue.py:58-68. *)
Definition cmulti_parse (ctx : pctx) (fl : floats) (t : ctype) (data : option bytes) : res cvalue :=
  match data with
  | None => Raise TypeError
  | Some s => do l <- map_r (fun tok => citem_parse ctx fl t (Some tok)) (split_char "," s); Ok (CMulti t l)
  end.
(** The generate methods: as PropertyModel.item_generate (an offset is written without colons: utcoffsetvalue.py:68-87);
    adr.py:99-100, n.py:98-99, orgvalue.py:40-41. *)
Definition citem_generate (fl : floats) (i : citem) : res bytes :=
  match i with
  | CItem i => item_generate fl i
  | CAdr l | CName l => Ok (generateDoubleNestedList l)
  | COrg l => Ok (generateTextList ";" l)
  end.
(** multivalue.py:70-80. *)
Fixpoint cmulti_generate (fl : floats) (first : bool) (l : list citem) : bytes :=
  match l with
  | [] => []
  | i :: r =>
    (if first then [] else lit ",") ++
    match citem_generate fl i with
    | Ok s => s ++ cmulti_generate fl false r
    | Raise _ => []
    end
  end.
Definition cvalue_generate (fl : floats) (v : cvalue) : res bytes :=
  match v with
  | CSingle i => citem_generate fl i
  | CMulti _ l => Ok (cmulti_generate fl true l)
  end.

(** 40-90: sDefaultValueTypeMap. *)
Definition cdefault_types : list (bytes * ctype) :=
  [(lit "SOURCE", CT T_URI); (lit "NAME", CT T_TEXT); (lit "PROFILE", CT T_TEXT);
   (lit "FN", CT T_TEXT); (lit "N", CT T_TEXT); (lit "NICKNAME", CT T_TEXT); (lit "PHOTO", CT T_BINARY); (lit "BDAY", CT T_DATE);
   (lit "ADR", CT T_TEXT); (lit "LABEL", CT T_TEXT);
   (lit "TEL", CT T_TEXT); (lit "EMAIL", CT T_TEXT); (lit "MAILER", CT T_TEXT);
   (lit "TZ", CT T_UTC_OFFSET); (lit "GEO", CT T_FLOAT);
   (lit "TITLE", CT T_TEXT); (lit "ROLE", CT T_TEXT); (lit "LOGO", CT T_BINARY); (lit "AGENT", CT_VCARD); (lit "ORG", CT T_TEXT);
   (lit "CATEGORIES", CT T_TEXT); (lit "NOTE", CT T_TEXT); (lit "PRODID", CT T_TEXT); (lit "REV", CT T_DATETIME);
   (lit "SORT-STRING", CT T_TEXT); (lit "SOUND", CT T_BINARY); (lit "UID", CT T_TEXT); (lit "URL", CT T_URI); (lit "VERSION", CT T_TEXT);
   (lit "CLASS", CT T_TEXT); (lit "KEY", CT T_BINARY)].
(** 92-104: sValueTypeMap, with vcard/definitions.py:71-81. *)
Definition cvalue_types : list (bytes * ctype) :=
  [(lit "BINARY", CT T_BINARY); (lit "BOOLEAN", CT T_BOOLEAN); (lit "DATE", CT T_DATE); (lit "DATE-TIME", CT T_DATETIME);
   (lit "FLOAT", CT T_FLOAT); (lit "INTEGER", CT T_INTEGER); (lit "TEXT", CT T_TEXT); (lit "TIME", CT T_TIME); (lit "URI", CT T_URI);
   (lit "UTCOFFSET", CT T_UTC_OFFSET); (lit "VCARD", CT_VCARD)].
(** 106-122: sTypeValueMap. *)
Definition ctype_name (t : ctype) : option bytes :=
  match t with
  | CT_ADR | CT_N | CT_ORG => Some (lit "TEXT")
  | CT_VCARD => Some (lit "VCARD")
  | CT T_BINARY => Some (lit "BINARY") | CT T_BOOLEAN => Some (lit "BOOLEAN") | CT T_DATE => Some (lit "DATE")
  | CT T_DATETIME => Some (lit "DATE-TIME") | CT T_FLOAT => Some (lit "FLOAT") | CT T_GEO => Some (lit "FLOAT")
  | CT T_INTEGER => Some (lit "INTEGER") | CT T_TEXT => Some (lit "TEXT") | CT T_TIME => Some (lit "TIME")
  | CT T_URI => Some (lit "URI") | CT T_UTC_OFFSET => Some (lit "UTCOFFSET")
  | CT _ => None
  end.
(** 124-127: sMultiValues. *)
Definition cis_multi (name : bytes) : bool := existsb (beq (upper name)) [lit "NICKNAME"; lit "CATEGORIES"].
(** 129-134: sSpecialVariants. *)
Definition cspecials : list (bytes * ctype) :=
  [(lit "ADR", CT_ADR); (lit "GEO", CT T_GEO); (lit "N", CT_N); (lit "ORG", CT_ORG)].

(** 143-147, property.py:85-89: a Property object (mValue is None until it is set). *)
Record cprop : Set := mkCProp { cpGroup : option bytes; cpName : bytes; cpParams : params; cpValue : option cvalue }.

(** property.py:504-519. *)
Definition cdetermine (name : bytes) (ps : params) : res ctype :=
  let dflt := match assoc (upper name) cdefault_types with Some t => t | None => CT T_UNKNOWN end in
  do t <- match assoc (lit "VALUE") ps with
          | None => Ok dflt
          | Some l => do v <- first_value l; Ok (match assoc v cvalue_types with Some t => t | None => dflt end)
          end;
  Ok (match assoc (upper name) cspecials with
      | Some s => if ctype_eqb t dflt then s else t
      | None => t
      end).
(** property.py:257-270. *)
Definition cline_value (ctx : pctx) (fl : floats) (name : bytes) (ps : params) (txt : option bytes) : res cvalue :=
  do t <- cdetermine name ps;
  if cis_multi name then cmulti_parse ctx fl t txt else do i <- citem_parse ctx fl t txt; Ok (CSingle i).
(** property.py:221-275.  None: the parameter loop does not end (C26: within as many rounds as there are characters, or never). *)
Definition cprop_parse (ctx : pctx) (fl : floats) (data : bytes) : option (res cprop) :=
  match vcard_parseLine ctx (List.length data) data with
  | None => None
  | Some (Raise _) => Some (Raise InvalidProperty)
  | Some (Ok l) =>
    Some (match cline_value ctx fl (lName l) (lParams l) (lValue l) with
          | Ok v => Ok (mkCProp (lGroup l) (lName l) (lParams l) (Some v))
          | Raise _ => Raise InvalidProperty
          end)
  end.

(** property.py:575-594: mParameters afterwards. *)
Definition csetup (name : bytes) (ps : params) (v : option cvalue) : params :=
  let ps := del_param (lit "VALUE") ps in
  match v with
  | None => ps
  | Some v =>
    let dflt := assoc (upper name) cdefault_types in
    let actual := match assoc (upper name) cspecials with Some _ => dflt | None => Some (cvalue_type v) end in
    let differs := match dflt, actual with
                   | Some d, Some a => negb (ctype_eqb d a)
                   | None, _ => true
                   | Some _, None => true
                   end in
    if differs then
      match actual with
      | Some a =>
        match ctype_name a with
        | Some n => if match dflt with Some _ => true | None => negb (ctype_eqb a (CT T_TEXT)) end
                    then add_param (lit "VALUE") (lit "VALUE", [n]) ps else ps
        | None => ps
        end
      | None => ps
      end
    else ps
  end.
(** property.py:337-360: the unfolded line. *)
Definition cprop_line (fl : floats) (p : cprop) : res bytes :=
  let ps := csetup (cpName p) (cpParams p) (cpValue p) in
  do v <- match cpValue p with None => Ok None | Some v => do s <- cvalue_generate fl v; Ok (Some s) end;
  Ok (gen_line (mkLine (cpGroup p) (cpName p) ps v)).
(** 290-300: the value in lines of 72 characters, each after a line break and a blank. *)
Fixpoint photo_lines (fuel : nat) (value : bytes) : bytes :=
  match fuel with
  | O => []
  | S f =>
    CR :: LF :: SPC ::
    (if (72 <? List.length value)%nat then firstn 72 value ++ photo_lines f (skipn 72 value) else value)
  end.
(** 268-304, property.py:337-390: what generate writes (None: the folding loop does not end, C25). *)
Definition cprop_generate (fl : floats) (p : cprop) : option (res bytes) :=
  let photo := beq (upper (cpName p)) (lit "PHOTO") in
  match cpValue p with
  | None => if photo then Some (Raise AttributeError)
            else match cprop_line fl p with Raise e => Some (Raise e) | Ok l => fold_line (S (List.length l)) l end
  | Some v =>
    if photo && ctype_eqb (cvalue_type v) (CT T_BINARY) then
      Some (do value <- cvalue_generate fl v;
            let head := gen_line (mkLine (cpGroup p) (cpName p) (csetup (cpName p) (cpParams p) (cpValue p)) None) in
            Ok (head ++ photo_lines (S (List.length value)) value ++ [CR; LF]))
    else match cprop_line fl p with Raise e => Some (Raise e) | Ok l => fold_line (S (List.length l)) l end
  end.

(** mProperties (componentbase.py:45), and addProperty, getProperties, hasProperty: componentbase.py:159-169. *)
Definition cprops : Set := list (bytes * list cprop).
Fixpoint cadd (key : bytes) (p : cprop) (ps : cprops) : cprops :=
  match ps with
  | [] => [(key, [p])]
  | (k, l) :: r => if beq k key then (k, l ++ [p]) :: r else (k, l) :: cadd key p r
  end.
Definition card_addProperty (p : cprop) (ps : cprops) : cprops := cadd (upper (cpName p)) p ps.
Definition card_get (name : bytes) (ps : cprops) : list cprop := match assoc name ps with Some l => l | None => [] end.
Definition card_has (name : bytes) (ps : cprops) : bool := match assoc name ps with Some _ => true | None => false end.
(** card.py:63-68: sortedPropertyKeyOrder. *)
Definition card_order : list bytes := [lit "VERSION"; lit "PRODID"; lit "UID"].
(** componentbase.py:549-570: the properties in the order they are written. *)
Definition card_written (ps : cprops) : list cprop :=
  flat_map (fun key => card_get key ps) (keys_in_order card_order (sort_by (fun x => x) (map fst ps))).
(** componentbase.py:264-282, card.py:60-61. *)
Definition card_generate (fl : floats) (ps : cprops) : option (res bytes) :=
  write_all (crlf (lit "BEGIN:VCARD") :: map (cprop_generate fl) (card_written ps) ++ [crlf (lit "END:VCARD")]).

(** The value as getValue() of a PlainTextValue has it (property.py:190-204, plaintextvalue.py:52-53). *)
Definition ctext_of (v : option cvalue) : option bytes :=
  match v with
  | Some (CSingle (CItem (VText s))) => Some s
  | Some (CSingle (CItem (VPlain _ s))) | Some (CSingle (CItem (VUri s))) => s
  | _ => None
  end.
(** card.py:176-183: validProperty. *)
Definition card_valid (p : cprop) : bool :=
  if beq (cpName p) (lit "VERSION")
  then match ctext_of (cpValue p) with Some t => beq t (lit "3.0") | None => false end
  else true.

(** card.py:172-174: the default properties.  The two arguments given are group and name (143). *)
Definition sProdID : bytes := lit "-//calendarserver.org//PyCalendar v1//EN".
Definition card_default : cprops :=
  card_addProperty (mkCProp (Some (lit "VERSION")) (lit "3.0") [] None)
    (card_addProperty (mkCProp (Some (lit "PRODID")) sProdID [] None) []).

Section Read.
Variable ctx : pctx.
Variable fl : floats.

Definition cblank {A} (st : A) : option (res A) :=
  Some (if peqb (BLANK_LINES_IN_DATA ctx) PARSER_RAISE then Raise InvalidData else Ok st).
(** containerbase.py:127-201 for a Card (no components): state, result, mProperties. *)
Definition card_line (line : bytes) (st : bool * bool * cprops) : option (res (bool * bool * cprops)) :=
  let '(inside, found, ps) := st in
  if negb inside then
    if beq line (lit "BEGIN:VCARD") then Some (Ok (true, true, ps))
    else match line with [] => cblank st | _ => Some (Raise InvalidData) end
  else if beq line (lit "END:VCARD") then Some (Ok (false, found, ps))
  else match line with
       | [] => cblank st
       | _ =>
         match cprop_parse ctx fl line with
         | None => None
         | Some (Raise e) => Some (Raise e)
         | Some (Ok p) => Some (if card_valid p then Ok (inside, found, card_addProperty p ps) else Raise InvalidData)
         end
       end.
Fixpoint card_lines (lines : list bytes) (st : bool * bool * cprops) : option (res (bool * bool * cprops)) :=
  match lines with
  | [] => Some (Ok st)
  | l :: r => match card_line l st with Some (Ok st') => card_lines r st' | x => x end
  end.
(** containerbase.py:100-211: Card.parseText(data); the result is None if there is no card (inner option).
    None outside: it does not end. *)
Definition card_parse (text : bytes) : option (res (option cprops)) :=
  match card_lines (read_lines (S (List.length text)) None text) (false, false, []) with
  | None => None
  | Some (Raise e) => Some (Raise e)
  | Some (Ok (inside, found, ps)) =>
    Some (if inside then Raise InvalidData
          else if found && negb (card_has (lit "VERSION") ps) then Raise InvalidData
          else Ok (if found then Some ps else None))
  end.

(** card.py:96-150: state, results, properties of the current card. *)
Definition cards_line (line : bytes) (st : bool * list cprops * cprops) : option (res (bool * list cprops * cprops)) :=
  let '(inside, results, ps) := st in
  if negb inside then
    if beq line (lit "BEGIN:VCARD") then Some (Ok (true, results, ps))
    else match line with [] => cblank st | _ => Some (Raise InvalidData) end
  else if beq line (lit "END:VCARD") then
    Some (if card_has (lit "VERSION") ps then Ok (false, results ++ [ps], []) else Raise InvalidData)
  else match line with
       | [] => cblank st
       | _ =>
         match cprop_parse ctx fl line with
         | None => None
         | Some (Raise e) => Some (Raise e)
         | Some (Ok p) => Some (if card_valid p then Ok (inside, results, card_addProperty p ps) else Raise InvalidData)
         end
       end.
Fixpoint cards_lines (lines : list bytes) (st : bool * list cprops * cprops) : option (res (bool * list cprops * cprops)) :=
  match lines with
  | [] => Some (Ok st)
  | l :: r => match cards_line l st with Some (Ok st') => cards_lines r st' | x => x end
  end.
(** card.py:79-156: Card.parseMultipleTextData(ins). *)
Definition cards_parse (text : bytes) : option (res (list cprops)) :=
  match cards_lines (read_lines (S (List.length text)) None text) (false, [], []) with
  | None => None
  | Some (Raise e) => Some (Raise e)
  | Some (Ok (inside, results, _)) => Some (if inside then Raise InvalidData else Ok results)
  end.
End Read.

(** ** Values *)

(** n.py:82-93: getFullName. *)
Definition nested_text (x : nested) : bytes := match x with NStr s => s | NTup l => join_char SPC l end.
Definition getFullName (l : list nested) : res bytes :=
  match l with
  | last :: first :: middle :: prefix :: suffix :: _ =>
    Ok (join_char SPC (filter (fun s => match s with [] => false | _ => true end) (map nested_text [prefix; first; middle; last; suffix])))
  | _ => Raise IndexError
  end.
(** adr.py:42-43, n.py:40-41: duplicate passes the parts to the constructor, which takes at most 7 and 5. *)
Definition pad (n : nat) (l : list nested) : list nested := l ++ repeat (NStr []) (n - List.length l).
Definition new_parts (n : nat) (l : list nested) : res (list nested) := if (n <? List.length l)%nat then Raise TypeError else Ok (pad n l).
Definition citem_duplicate (i : citem) : res citem :=
  match i with
  | CAdr l => do l' <- new_parts 7 l; Ok (CAdr l')
  | CName l => do l' <- new_parts 5 l; Ok (CName l')
  | _ => Ok i
  end.
(** 180-186, parameter.py:39-42, multivalue.py:30-33. *)
Definition cprop_duplicate (p : cprop) : res cprop :=
  do v <- match cpValue p with
          | None => Raise AttributeError
          | Some (CSingle i) => do j <- citem_duplicate i; Ok (CSingle j)
          | Some (CMulti t l) => do m <- map_r citem_duplicate l; Ok (CMulti t m)
          end;
  Ok (mkCProp (cpGroup p) (cpName p) (cpParams p) (Some v)).

Section Eq.
Variable tzo : tzid -> Z -> Z -> Z -> Z -> Z -> Z -> bool -> bool -> Z.
Variable fl : floats.
(** == on a str or a tuple. *)
Definition nested_eqb (a b : nested) : bool :=
  match a, b with
  | NStr s, NStr t => beq s t
  | NTup l, NTup m => Nat.eqb (List.length l) (List.length m) && forallb (fun p => beq (fst p) (snd p)) (combine l m)
  | _, _ => false
  end.
Definition parts_eqb (l m : list nested) : bool :=
  Nat.eqb (List.length l) (List.length m) && forallb (fun p => nested_eqb (fst p) (snd p)) (combine l m).
(** value.py:62-65 with adr.py:51-52, n.py:49-50; the values of ORG are a str or a tuple. *)
Definition citem_eq (a b : citem) : res bool :=
  match a, b with
  | CItem x, CItem y => item_eq tzo fl x y
  | CAdr l, CAdr m | CName l, CName m => Ok (parts_eqb l m)
  | COrg l, COrg m => Ok (parts_eqb (map NStr l) (map NStr m))
  | _, _ => Ok false
  end.
Definition cvalue_eq (a b : cvalue) : res bool :=
  match a, b with
  | CSingle x, CSingle y => citem_eq x y
  | CMulti s x, CMulti t y => if ctype_eqb s t then list_eq citem_eq x y else Ok false
  | _, _ => Ok false
  end.
(** 196-204: the groups are not compared (`self.mGroup == self.mGroup`). *)
Definition cprop_eq (p q : cprop) : res bool :=
  if beq (cpName p) (cpName q) then
    do v <- match cpValue p, cpValue q with
            | Some a, Some b => cvalue_eq a b
            | None, None => Ok true
            | _, _ => Ok false
            end;
    if v then params_eq (cpParams p) (cpParams q) else Ok false
  else Ok false.
End Eq.

(** 143-178: the kinds of value that __init__ tells apart (a list is of texts). *)
Inductive cgiven : Set :=
| GNone | GInt (n : Z) | GText (s : bytes) | GDate (d : dt) | GAdr (l : list nested) | GName (l : list nested) | GList (l : list bytes) | GOffset (n : Z).
Definition cwith (group : option bytes) (name : bytes) (v : cvalue) : cprop := mkCProp group name (csetup name [] (Some v)) (Some v).
(** value.py:74-80 and property.py:604-611, as MakeModel.text_item; the types that a vCard property name or a caller gives. *)
Definition ctext_item (zero : pyfloat) (t : ctype) (s : bytes) : citem :=
  match t with
  | CT T_TEXT => CItem (VText s)
  | CT T_BINARY => CItem (VPlain PBinary (Some s))
  | CT T_URI => CItem (VUri (Some s))
  | CT T_INTEGER => CItem (VInteger 0)
  | CT T_UTC_OFFSET => CItem (VOffset 0)
  | CT T_FLOAT => CItem (VFloat zero)
  | CT (T_DATE | T_DATETIME) => CItem (VDateTime newDefault)
  | _ => CItem (VPlain PUnknown (Some s))
  end.
(** 143-178: Property(group, name, value).  _init_attr_value_geo and _init_attr_value_text_list do not exist. *)
Definition cmake (zero : pyfloat) (group : option bytes) (name : bytes) (v : cgiven) : res cprop :=
  match v with
  | GNone => Ok (mkCProp group name [] None)
  | GInt n => Ok (cwith group name (CSingle (CItem (VInteger n))))
  | GText s => Ok (cwith group name (CSingle (ctext_item zero (match assoc (upper name) cdefault_types with Some t => t | None => CT T_TEXT end) s)))
  | GDate d => Ok (cwith group name (CSingle (CItem (VDateTime d))))
  | GAdr l => Ok (cwith group name (CSingle (CAdr l)))
  | GName l => Ok (cwith group name (CSingle (CName l)))
  | GList l => if beq (upper name) (lit "ORG") then Ok (cwith group name (CSingle (COrg l))) else Raise AttributeError
  | GOffset n => Ok (cwith group name (CSingle (CItem (VOffset n))))
  end.
