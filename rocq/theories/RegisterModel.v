(** Properties with registered names: property.py:36-83 and what of 221-275, 337-360, 504-594 reads the two tables.  The tables are class attributes.  Not
    modelled: the table of types of the vCard class.  JSON: RegJsonModel; the constructor: RegMakeModel; setValue: RegSetModel.
    Definitions only. *)
From Verif Require Export PyBase ParserCtx PropertyModel.

(** property.py:42, 46 (icalendar/property.py:36): sDefaultValueTypeMap of the iCalendar class, and sAlwaysValueTypes, which is in PropertyBase and so shared by
    all classes. *)
Record registry : Set := mkReg { gTypes : list (bytes * vtype); gAlways : list bytes }.
(** The tables when the modules have been loaded: icalendar/property.py:36-126, property.py:46. *)
Definition loaded : registry := mkReg default_types [].
(** The class on which registerDefaultValue is called. *)
Inductive klass : Set := ICalendar | VCard.
Record registration : Set := mkCall { cKlass : klass; cName : bytes; cType : vtype; cAlways : bool }.
(** property.py:68-83. *)
Definition registerDefaultValue (g : registry) (c : registration) : registry :=
  mkReg (match cKlass c with
         | ICalendar => match assoc (cName c) (gTypes g) with Some _ => gTypes g | None => gTypes g ++ [(cName c, cType c)] end
         | VCard => gTypes g
         end)
        (if cAlways c then cName c :: gAlways g else gAlways g).
(** One call after the other. *)
Definition after_calls (calls : list registration) : registry := fold_left registerDefaultValue calls loaded.

Section Registry.
Variable g : registry.
(** property.py:504-519, as PropertyModel.determineValueType. *)
Definition reg_type (name : bytes) (ps : params) : res vtype :=
  let dflt := match assoc (upper name) (gTypes g) with Some t => t | None => T_UNKNOWN end in
  do t <- match assoc (lit "VALUE") ps with
          | None => Ok dflt
          | Some l => do v <- first_value l; Ok (match assoc v value_types with Some t => t | None => dflt end)
          end;
  Ok (match assoc (upper name) specials with
      | Some s => if veqb t dflt then s else t
      | None => t
      end).
(** property.py:257-270, as PropertyModel.line_value. *)
Definition reg_value (ctx : pctx) (fl : floats) (name : bytes) (ps : params) (txt : option bytes) : res value :=
  do t <- reg_type name ps;
  do v <- (if is_multi name then multi_parse ctx fl t txt else do i <- item_parse ctx fl t txt; Ok (Single i));
  postCreateValue t ps v.
(** property.py:221-275, as PropertyModel.prop_parse. *)
Definition reg_parse (ctx : pctx) (fl : floats) (data : bytes) : res prop :=
  match ical_parseLine (List.length data) data with
  | None => Raise RuntimeError
  | Some (Raise _) => Raise InvalidProperty
  | Some (Ok l) =>
    match reg_value ctx fl (lName l) (lParams l) (lValue l) with
    | Ok v => Ok (mkProp (lName l) (lParams l) (Some v))
    | Raise _ => Raise InvalidProperty
    end
  end.
(** property.py:575-594: mParameters afterwards. *)
Definition reg_setup (name : bytes) (ps : params) (v : option value) : params :=
  let ps := del_param (lit "VALUE") ps in
  match v with
  | None => ps
  | Some v =>
    let dflt := assoc (upper name) (gTypes g) in
    let actual := match assoc (upper name) specials with Some _ => dflt | None => Some (value_type v) end in
    let differs := match dflt, actual with
                   | Some d, Some a => negb (veqb d a)
                   | None, _ => true
                   | Some _, None => true
                   end in
    if differs || existsb (beq (upper name)) (gAlways g) then
      match actual with
      | Some a =>
        match type_name a with
        | Some n => if match dflt with Some _ => true | None => negb (veqb a T_TEXT) end
                    then add_param (lit "VALUE") (lit "VALUE", [n]) ps else ps
        | None => ps
        end
      | None => ps
      end
    else ps
  end.
(** property.py:337-360, as PropertyModel.prop_line: the unfolded line. *)
Definition reg_line (fl : floats) (p : prop) : res bytes :=
  let ps := reg_setup (pName p) (pParams p) (pValue p) in
  do v <- match pValue p with None => Ok None | Some v => do s <- value_generate fl v; Ok (Some s) end;
  Ok (gen_line (mkLine None (pName p) ps v)).
End Registry.
