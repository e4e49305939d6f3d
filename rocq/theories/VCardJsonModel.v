(** Model of the JSON form of vCards: /repo/src/pycalendar/property.py:420-502, vcard/adr.py:102-106, vcard/n.py:101-105, vcard/orgvalue.py:43-47,
    vcard/card.py:158-170, componentbase.py:320-356, containerbase.py:213-222.  JSON is that of JsonModel.v, cards are those of VCardModel.v.
    Definitions only.

    Simplification: an ORG value with one part is taken to be a str, as reading text makes it (orgvalue.py:37-38); reading JSON and the constructor
    make a tuple or a list of one text, which is written as that. *)
From Verif Require Export JsonModel VCardModel.

(** ** Writing *)
(** json.dumps of a str or a tuple. *)
Definition nested_json (x : nested) : json := match x with NStr s => JText s | NTup l => JArr (map JText l) end.
(** writeJSONValue: valueutils.py:87-88 with adr.py:105-106, n.py:104-105; orgvalue.py:46-47 (list() of a str has its characters). *)
Definition citem_json (i : citem) : res json :=
  match i with
  | CItem i => item_json i
  | CAdr l | CName l => Ok (JArr (map nested_json l))
  | COrg [s] => Ok (JArr (map (fun c => JText [c]) s))
  | COrg l => Ok (JArr (map JText l))
  end.
(** _jsonMap[type], value.py:67-71: ADR, N and ORG are registered with None (adrvalue.py:29, nvalue.py:29, orgvalue.py:55), VCARD is not registered. *)
Definition ctype_json (t : ctype) : res json :=
  match t with
  | CT t => match json_name t with Some n => Ok (JText n) | None => Raise KeyError end
  | CT_ADR | CT_N | CT_ORG => Ok JNull
  | CT_VCARD => Raise KeyError
  end.
(** value.py:103-105, multivalue.py:92-94: what is appended to the property. *)
Definition cvalue_json (v : cvalue) : res (list json) :=
  do n <- ctype_json (cvalue_type v);
  do l <- match v with CSingle i => do j <- citem_json i; Ok [j] | CMulti _ l => map_r citem_json l end;
  Ok (n :: l).
(** property.py:474-477 and 486-502 with novalue = False. *)
Definition cprop_writeJSON (p : cprop) : res json :=
  do v <- match cpValue p with None => Ok [] | Some v => cvalue_json v end;
  Ok (JArr (JText (lower (cpName p)) :: JObj (params_json (cpParams p)) :: v)).
(** componentbase.py:346-356, card.py:60-61. *)
Definition card_writeJSON (ps : cprops) : res json :=
  do pl <- map_r cprop_writeJSON (card_written ps);
  Ok (JArr [JText (lit "vcard"); JArr pl; JArr []]).

(** ** Reading *)
Section Read.
Variable ctx : pctx.
Variable fl : floats.
Variable nm : jnums.

(** `map(lambda x: x.encode("utf-8"), jobject)`: adr.py:102-103, n.py:101-102, orgvalue.py:43-44. *)
Definition texts_of (j : json) : res (list bytes) :=
  match j with
  | JArr l => map_r jencode l
  | JText s => if is_ascii s then Ok (map (fun c => [c]) s) else Raise RuntimeError
  | JObj m => Ok (map fst m)
  | _ => Raise TypeError
  end.
(** Value.createFromType(t).parseJSONValue(j): value.py:73-80, valueutils.py:84-85; no class is registered for VCARD. *)
Definition citem_parseJSON (t : ctype) (j : json) : res citem :=
  match t with
  | CT t => do i <- item_parseJSON ctx fl nm t j; Ok (CItem i)
  | CT_VCARD => do s <- jencode j; Ok (CItem (VPlain PUnknown (Some s)))
  | CT_ADR => do l <- texts_of j; Ok (CAdr (map NStr l))
  | CT_N => do l <- texts_of j; Ok (CName (map NStr l))
  | CT_ORG => do l <- texts_of j; Ok (COrg l)
  end.
(** property.py:432-469, as JsonModel.prop_read: the group stays None (vcard/property.py:147), and _postCreateValue does nothing. *)
Definition cprop_read (j : json) : res cprop :=
  match j with
  | JArr (jname :: jparams :: jtype :: values) =>
    do n <- jencode jname;
    let name := upper n in
    do ps <- params_parseJSON nm jparams;
    do tn <- match jtype with JText s => Ok s | _ => Raise AttributeError end;
    do tu <- uupper tn;
    let value_type := match assoc tu cvalue_types with Some t => t | None => CT T_UNKNOWN end in
    let default_type := match assoc (upper name) cdefault_types with Some t => t | None => CT T_UNKNOWN end in
    let ps := if ctype_eqb default_type value_type then ps else add_param (lit "VALUE") (lit "VALUE", [upper tn]) ps in
    do t <- cdetermine name ps;
    do v <- (if cis_multi name then do l <- map_r (citem_parseJSON t) values; Ok (CMulti t l)
             else match values with
                  | j :: _ => do i <- citem_parseJSON t j; Ok (CSingle i)
                  | [] => Raise IndexError
                  end);
    Ok (mkCProp None name ps (Some v))
  | _ => Raise TypeError
  end.
(** property.py:422-472. *)
Definition cprop_parseJSON (j : json) : res cprop :=
  match cprop_read j with
  | Raise RuntimeError => Raise RuntimeError
  | Raise _ => Raise InvalidProperty
  | x => x
  end.
(** componentbase.py:336-337. *)
Definition card_props (jprops : json) : res cprops :=
  do l <- elements jprops;
  fold_left (fun r j => do ps <- r; do p <- cprop_parseJSON j; Ok (card_addProperty p ps)) l (Ok []).
(** componentbase.py:321-344 on a new Card: jobject[0] is not looked at; for a sub-component sComponentType is None, which has no parseJSON. *)
Definition card_parseJSON (j : json) : res cprops :=
  guarded
  match j with
  | JArr (_ :: jprops :: rest) =>
    do ps <- card_props jprops;
    match rest with
    | [] => Raise IndexError
    | jsubs :: _ => do l <- elements jsubs; match l with [] => Ok ps | _ => Raise AttributeError end
    end
  | JText s => Raise (text_component s)
  | _ => Raise TypeError
  end.
(** card.py:158-170 after json.loads. *)
Definition cards_parseJSON (j : json) : res (list cprops) := do l <- elements j; map_r card_parseJSON l.
End Read.
