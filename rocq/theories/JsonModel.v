(** Model of the JSON (jCal) form of properties and component trees: property.py:422-502, parameter.py:117-118, the
    parseJSONValue and writeJSONValue methods of the value classes, componentbase.py:321-356, containerbase.py:214-222.
    Values and trees are those of PropertyModel.v and ComponentModel.v.
    Definitions only. *)
From Verif Require Export ComponentModel.
From Verif Require Export ValidateModel.

(** What json.loads returns and json.dumps takes (neither is modelled): None, booleans, strings, integers, floats, lists, and
    dictionaries as the list of their items in the order in which items() gives them.  A string is its UTF-8 text: json.loads
    makes unicode objects, and `.encode("utf-8")` gives that text; on writing json.dumps decodes it.  Characters outside ASCII
    matter in upper(), int(), float() and str() of a unicode object; where one of these meets such a character the model stops with
    RuntimeError, which means "outside the model". *)
Inductive json : Set :=
| JNull | JBool (b : bool) | JText (s : bytes) | JNum (n : Z) | JFloat (x : pyfloat) | JArr (l : list json)
| JObj (m : list (bytes * json)).

(** Floats again: int(x) (None: it raises), float(n) (None: it raises), and whether x is true. *)
Record jnums : Set := mkNums { fl_int : pyfloat -> option Z; fl_of : Z -> option pyfloat; fl_true : pyfloat -> bool }.

Definition is_ascii (s : bytes) : bool := forallb (fun c => let '(Ascii _ _ _ _ _ _ _ b) := c in negb b) s.
(** unicode.upper(). *)
Definition uupper (s : bytes) : res bytes := if is_ascii s then Ok (upper s) else Raise RuntimeError.
(** `x.encode("utf-8")`. *)
Definition jencode (j : json) : res bytes := match j with JText s => Ok s | _ => Raise AttributeError end.
(** str(x); it raises UnicodeEncodeError, a ValueError, on a character outside ASCII.  The text of a list or dictionary is
    only shown as its brackets: no parser of a value accepts it. *)
Definition jstr (fl : floats) (j : json) : res bytes :=
  match j with
  | JNull => Ok (lit "None")
  | JBool b => Ok (if b then lit "True" else lit "False")
  | JText s => if is_ascii s then Ok s else Raise ValueError
  | JNum n => Ok (pystr n)
  | JFloat x => Ok (fl_str fl x)
  | JArr _ => Ok (lit "[]")
  | JObj _ => Ok (lit "{}")
  end.
(** "%s" % x, which keeps characters outside ASCII (not followed further). *)
Definition jfmt (fl : floats) (j : json) : res bytes :=
  match j with JText s => if is_ascii s then Ok s else Raise RuntimeError | _ => jstr fl j end.

(** ** Writing. *)

(** value.py:67-71 with the registerType calls: _jsonMap, by xmldefinitions.py:25-37 and icalendar/xmldefinitions.py.  BOOLEAN and
    TIME are not registered. *)
Definition json_name (t : vtype) : option bytes :=
  match t with
  | T_BINARY => Some (lit "binary") | T_CALADDRESS => Some (lit "cal-address") | T_DATE => Some (lit "date")
  | T_DATETIME => Some (lit "date-time") | T_DURATION => Some (lit "duration") | T_FLOAT => Some (lit "float")
  | T_GEO => Some (lit "float") | T_INTEGER => Some (lit "integer") | T_PERIOD => Some (lit "period")
  | T_RECUR => Some (lit "recur") | T_REQUEST_STATUS => Some (lit "text") | T_TEXT => Some (lit "text")
  | T_UNKNOWN => Some (lit "unknown") | T_URI => Some (lit "uri") | T_UTC_OFFSET => Some (lit "utc-offset")
  | T_BOOLEAN | T_TIME => None
  end.
(** A member of the dictionary of a recurrence rule (recurrence.py:706-755). *)
Definition member_json (nv : bytes * jval) : bytes * json :=
  (fst nv, match snd nv with
           | JStr s => JText s
           | JInt n => JNum n
           | JInts l => JArr (map JNum l)
           | JStrs l => JArr (map JText l)
           end).
(** writeJSONValue: plaintextvalue.py:49-50, integervalue.py:51-52, utcoffsetvalue.py:102-107, floatvalue.py:51-52,
    geovalue.py:76-77, datetime.py:1025-1026, duration.py:261-262, period.py:125-134, recurrence.py:706-755,
    requeststatusvalue.py:96-100. *)
Definition item_json (i : item) : res json :=
  match i with
  | VText s => Ok (JText s)
  | VPlain _ s | VUri s => Ok (match s with Some x => JText x | None => JNull end)
  | VInteger n => Ok (JNum n)
  | VOffset n => Ok (JText (utcoffset_generate true n))
  | VFloat x => Ok (JFloat x)
  | VGeo a b => Ok (JArr [JFloat a; JFloat b])
  | VDateTime d => Ok (JText (getXMLText d))
  | VDuration d => Ok (JText (dur_generate d))
  | VPeriod p => do t <- period_json p; Ok (JArr [JText (fst t); JText (snd t)])
  | VRecur r => do m <- rule_json r; Ok (JObj (map member_json m))
  | VStatus l =>
    match l with
    | code :: desc :: rest => Ok (JArr (map JText (code :: desc :: match rest with [x] => [x] | _ => [] end)))
    | _ => Raise IndexError
    end
  end.
(** value.py:103-105, multivalue.py:92-94: what is appended to the property. *)
Definition value_json (v : value) : res (list json) :=
  match json_name (value_type v) with
  | None => Raise KeyError
  | Some n =>
    do l <- match v with Single i => do j <- item_json i; Ok [j] | Multi _ l => map_r item_json l end;
    Ok (JText n :: l)
  end.

(** jobject[key] = value on a dictionary. *)
Fixpoint jset (key : bytes) (v : json) (m : list (bytes * json)) : list (bytes * json) :=
  match m with
  | [] => [(key, v)]
  | (k, w) :: r => if beq k key then (k, v) :: r else (k, w) :: jset key v r
  end.
(** parameter.py:117-118. *)
Definition param_json (m : list (bytes * json)) (p : param) : list (bytes * json) :=
  jset (lower (fst p)) (match snd p with [v] => JText v | l => JArr (map JText l) end) m.
(** property.py:494-498. *)
Definition params_json (ps : params) : list (bytes * json) :=
  fold_left param_json
    (filter (fun p => negb (beq (lower (fst p)) (lit "value"))) (flat_map snd (sort_by fst ps))) [].
(** property.py:474-477 and 486-502 with novalue = False. *)
Definition prop_writeJSON (p : prop) : res json :=
  do v <- match pValue p with None => Ok [] | Some v => value_json v end;
  Ok (JArr (JText (lower (pName p)) :: JObj (params_json (pParams p)) :: v)).

(** All of them, or the first exception. *)
Fixpoint all_json (l : list (res json)) : res (list json) :=
  match l with
  | [] => Ok []
  | x :: r => do j <- x; do t <- all_json r; Ok (j :: t)
  end.
(** componentbase.py:346-356, 436-441, 615-622 (calendar.py:440-445 with NO_TIMEZONES).  As in ComponentModel.generate the
    sub-components are written first and then put in order. *)
Fixpoint writeJSON (c : comp) : res json :=
  let '(Comp k s ps subs) := c in
  do pl <- map_r prop_writeJSON (written_props k ps);
  do cl <- all_json (map snd (sortedComponents fst k (map (fun d => (d, writeJSON d)) subs)));
  Ok (JArr [JText (lower (getType k)); JArr pl; JArr cl]).

(** ** Reading. *)
Section Read.
Variable ctx : pctx.
Variable fl : floats.
Variable nm : jnums.

(** int(x): integervalue.py:48-49. *)
Definition jint (j : json) : res Z :=
  match j with
  | JText s => if is_ascii s then pyint s else Raise RuntimeError
  | JNum n => Ok n
  | JBool b => Ok (if b then 1 else 0)
  | JFloat x => match fl_int nm x with Some n => Ok n | None => Raise ValueError end
  | _ => Raise TypeError
  end.
(** float(x): floatvalue.py:48-49. *)
Definition jfloat (j : json) : res pyfloat :=
  let of n := match fl_of nm n with Some x => Ok x | None => Raise ValueError end in
  match j with
  | JText s => if is_ascii s then match fl_read fl s with Some x => Ok x | None => Raise ValueError end else Raise RuntimeError
  | JNum n => of n
  | JBool b => of (if b then 1 else 0)
  | JFloat x => Ok x
  | _ => Raise TypeError
  end.
(** A member of the dictionary of a recurrence rule, recurrence.py:693-703: the value of a list name that is not a string or an int is
    iterated over (an integer that is a long is not told apart here). *)
Definition member_of (nv : bytes * json) : res (bytes * jval) :=
  let (name, j) := nv in
  if is_ascii name then
    match j with
    | JText s => if is_ascii s then Ok (name, JStr s) else Raise RuntimeError
    | JNum n => Ok (name, JInt n)
    | _ =>
      if existsb (beq name) json_list_names then
        match j with
        | JArr l => do t <- map_r (jstr fl) l; Ok (name, JStrs t)
        | JObj m => do t <- map_r (fun e => jstr fl (JText (fst e))) m; Ok (name, JStrs t)
        | JBool _ => do t <- jstr fl j; Ok (name, JStr t)
        | _ => Raise TypeError
        end
      else if beq name (lit "until") then Raise AttributeError
      else do t <- jstr fl j; Ok (name, JStr t)
    end
  else Raise RuntimeError.
(** requeststatusvalue.py:93-94: map over a list, the characters of a string, or the keys of a dictionary. *)
Definition status_json (j : json) : res item :=
  match j with
  | JArr l => do t <- map_r jencode l; Ok (VStatus t)
  | JText s => if is_ascii s then Ok (VStatus (map (fun c => [c]) s)) else Raise RuntimeError
  | JObj m => Ok (VStatus (map fst m))
  | _ => Raise TypeError
  end.
(** Value.createFromType(t).parseJSONValue(j): value.py:74-80, plaintextvalue.py:46-47, the above, utcoffsetvalue.py:99-100,
    geovalue.py:73-74 (takes anything; only a list of two floats is in the model), datetime.py:1022-1023, duration.py:258-259,
    period.py:118-123, recurrence.py:686-704. *)
Definition item_parseJSON (t : vtype) (j : json) : res item :=
  match t with
  | T_BINARY => do s <- jencode j; Ok (VPlain PBinary (Some s))
  | T_CALADDRESS => do s <- jencode j; Ok (VPlain PCalAddress (Some s))
  | T_UNKNOWN | T_BOOLEAN | T_TIME => do s <- jencode j; Ok (VPlain PUnknown (Some s))
  | T_URI => do s <- jencode j; Ok (VUri (Some s))
  | T_TEXT => do s <- jencode j; Ok (VText s)
  | T_INTEGER => do n <- jint j; Ok (VInteger n)
  | T_UTC_OFFSET =>
    do s <- jstr fl j;
    match utcoffset_parse true s 0 with (n, Ok _) => Ok (VOffset n) | (_, Raise e) => Raise e end
  | T_FLOAT => do x <- jfloat j; Ok (VFloat x)
  | T_GEO => match j with JArr [JFloat a; JFloat b] => Ok (VGeo a b) | _ => Raise RuntimeError end
  | T_DATE | T_DATETIME => do s <- jstr fl j; do d <- dt_parseText ctx true s; Ok (VDateTime d)
  | T_DURATION => do s <- jstr fl j; do d <- dur_parseText ctx s; Ok (VDuration d)
  | T_PERIOD =>
    do both <- match j with
               | JArr [a; b] => do x <- jfmt fl a; do y <- jfmt fl b; Ok (x, y)
               | JObj [a; b] => do x <- jfmt fl (JText (fst a)); do y <- jfmt fl (JText (fst b)); Ok (x, y)
               | JText [a; b] => Ok ([a], [b])
               | _ => Raise TypeError
               end;
    match period_parseJSON ctx both newPeriod with (p, Ok _) => Ok (VPeriod p) | (_, Raise e) => Raise e end
  | T_RECUR =>
    match j with
    | JObj m => do l <- map_r member_of m; do r <- rule_parseJSON ctx l; Ok (VRecur r)
    | _ => Raise AttributeError
    end
  | T_REQUEST_STATUS => status_json j
  end.

(** `if jobject[1]`. *)
Definition truthy (j : json) : bool :=
  match j with
  | JNull => false
  | JBool b => b
  | JText s => match s with [] => false | _ => true end
  | JNum n => negb (n =? 0)
  | JFloat x => fl_true nm x
  | JArr l => match l with [] => false | _ => true end
  | JObj m => match m with [] => false | _ => true end
  end.
(** property.py:438-444. *)
Definition params_parseJSON (j : json) : res params :=
  if truthy j then
    match j with
    | JObj m =>
      fold_left (fun r e => do ps <- r; do name <- uupper (fst e); do v <- jencode (snd e); Ok (add_param name (name, [v]) ps)) m (Ok [])
    | _ => Raise AttributeError
    end
  else Ok [].
(** property.py:432-469, jobject a list; on anything else one of the subscripts or attributes raises. *)
Definition prop_read (j : json) : res prop :=
  match j with
  | JArr (jname :: jparams :: jtype :: values) =>
    do n <- jencode jname;
    let name := upper n in
    do ps <- params_parseJSON jparams;
    do tn <- match jtype with JText s => Ok s | _ => Raise AttributeError end;
    do tu <- uupper tn;
    let value_type := match assoc tu value_types with Some t => t | None => T_UNKNOWN end in
    let default_type := match assoc (upper name) default_types with Some t => t | None => T_UNKNOWN end in
    let ps := if veqb default_type value_type then ps else add_param (lit "VALUE") (lit "VALUE", [upper tn]) ps in
    do t <- determineValueType name ps;
    do v <- (if is_multi name then do l <- map_r (item_parseJSON t) values; Ok (Multi t l)
             else match values with
                  | j :: _ => do i <- item_parseJSON t j; Ok (Single i)
                  | [] => Raise IndexError
                  end);
    do v <- postCreateValue t ps v;
    Ok (mkProp name ps (Some v))
  | _ => Raise TypeError
  end.
(** property.py:422-472. *)
Definition prop_parseJSON (j : json) : res prop :=
  match prop_read j with
  | Raise RuntimeError => Raise RuntimeError
  | Raise _ => Raise InvalidProperty
  | x => x
  end.

(** exceptions.py:18-40: isinstance(e, ErrorBase). *)
Definition error_base (e : exn) : bool :=
  match e with InvalidData | InvalidComponent | InvalidProperty | ValidationError => true | _ => false end.
(** componentbase.py:341-344. *)
Definition guarded {A} (r : res A) : res A :=
  match r with
  | Raise e => if error_base e then Raise e else match e with RuntimeError => Raise e | _ => Raise InvalidComponent end
  | x => x
  end.
(** What a for loop runs over: the elements, the characters, or the keys. *)
Definition elements (j : json) : res (list json) :=
  match j with
  | JArr l => Ok l
  | JText s => Ok (map (fun c => JText [c]) s)
  | JObj m => Ok (map (fun e => JText (fst e)) m)
  | _ => Raise TypeError
  end.
(** Component.parseJSON on a string, reached from the characters or keys above: jobject[1] is missing, or is a character,
    which is no property. *)
Definition text_component (s : bytes) : exn := match s with _ :: _ :: _ => InvalidProperty | _ => InvalidComponent end.

Variable tzo : tzid -> Z -> Z -> Z -> Z -> Z -> Z -> bool -> bool -> Z.
Variable uuids : nat -> bytes.

(** componentbase.py:336-337: jobject[1]. *)
Definition read_props (jprops : json) (c : comp) : res comp :=
  do l <- elements jprops;
  fold_left (fun r j => do c <- r; do p <- prop_parseJSON j; Ok (put_prop p c)) l (Ok c).
(** componentbase.py:321-344 with comp = None; n counts the components made.  A name that is not a string has no upper(). *)
Fixpoint comp_parseJSON (j : json) (n : nat) {struct j} : res (comp * nat) :=
  guarded
  match j with
  | JArr (JText name :: jprops :: JArr subs :: _) =>
    do cname <- uupper name;
    do c <- read_props jprops (makeComponent cname (uuids n));
    do cn <- (fix go (l : list json) (c : comp) (n : nat) : res (comp * nat) :=
                match l with
                | [] => Ok (c, n)
                | s :: r => do dn <- comp_parseJSON s n; do c' <- addComponent c (fst dn); go r c' (snd dn)
                end) subs c (S n);
    do c' <- finalise tzo (fst cn);
    Ok (c', snd cn)
  | JArr (JText name :: jprops :: rest) =>
    do cname <- uupper name;
    do c <- read_props jprops (makeComponent cname (uuids n));
    match rest with
    | [] => Raise IndexError
    | jsubs :: _ =>
      do l <- elements jsubs;
      match l with
      | JText s :: _ => Raise (text_component s)
      | _ => do c' <- finalise tzo c; Ok (c', S n)
      end
    end
  | JText s => Raise (text_component s)
  | _ => Raise TypeError
  end.
(** The loop over the sub-components (the inner fix above). *)
Fixpoint subs_parseJSON (l : list json) (c : comp) (n : nat) : res (comp * nat) :=
  match l with
  | [] => Ok (c, n)
  | s :: r => do dn <- comp_parseJSON s n; do c' <- addComponent c (fst dn); subs_parseJSON r c' (snd dn)
  end.
(** containerbase.py:214-222 after json.loads, with componentbase.py:321-344 on a new calendar: jobject[0] is not looked at. *)
Definition parseJSONData (j : json) : res comp :=
  guarded
  match j with
  | JArr (_ :: jprops :: rest) =>
    do c <- read_props jprops (Comp VCALENDAR (newState []) [] []);
    match rest with
    | [] => Raise IndexError
    | jsubs :: _ => do l <- elements jsubs; do cn <- subs_parseJSON l c 0; finalise tzo (fst cn)
    end
  | JText s => Raise (text_component s)
  | _ => Raise TypeError
  end.
End Read.
