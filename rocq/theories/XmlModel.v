(** Model of the XML (xCal) form of properties and component trees: the writeXML methods of the value classes, parameter.py:110-115,
    property.py:392-419, componentbase.py:299-319, 415-436, 587-613, icalendar/calendar.py:422-433 and xmlutils.py.
    Values and trees are those of PropertyModel.v and ComponentModel.v.  Definitions only. *)
From Verif Require Export FilterModel.

(** An element of xml.etree: tag, text, children, tail (None is the empty text).  The text of an element that is written is None, a
    string, or (geovalue.py:67-71) a float.  Every tag has the one namespace, which is left out (xmlutils.py:20-21: makeTag writes the
    name in lower case). *)
Inductive xtext : Set := XNone | XStr (s : bytes) | XFloat (x : pyfloat).
Inductive xml : Set := Elem (tag : bytes) (text : xtext) (kids : list xml) (tail : bytes).
(** XML.SubElement(node, makeTag(namespace, name)) with this text and these children. *)
Definition element (name : bytes) (text : xtext) (kids : list xml) : xml := Elem (lower name) text kids [].
Definition leaf (name s : bytes) : xml := element name (XStr s) [].

(** value.py:67-71 with the registerType calls: _xmlMap; None for REQUEST-STATUS (icalendar/requeststatusvalue.py:108). *)
Definition xml_name (t : vtype) : option bytes :=
  match t with
  | T_GEO => Some (lit "geo") | T_REQUEST_STATUS => None
  | t => json_name t
  end.
(** value.py:110-111: getXMLNode with this text and these children; `None.lower()` raises.  The types of items are all registered. *)
Definition xml_node (t : vtype) (text : xtext) (kids : list xml) : res xml :=
  match xml_name t with Some n => Ok (element n text kids) | None => Raise AttributeError end.

(** datetime.py:1012-1020. *)
Definition date_xml (d : dt) : xml := leaf (if mDateOnly d then lit "date" else lit "date-time") (getXMLText d).
(** icalendar/recurrence.py:680-684. *)
Definition list_xml (name : bytes) (l : option (list Z)) : list xml :=
  match l with None => [] | Some l => map (fun n => leaf name (pystr n)) l end.
(** icalendar/recurrence.py:638-678: the children of the element recur. *)
Definition rule_xml (r : rule) : res (list xml) :=
  do u <- (if rUseCount r then Ok [leaf (lit "count") (pystr (rCount r))]
           else if rUseUntil r then
             match rUntil r with
             | Some d => Ok [element (lit "until") XNone [date_xml d]]
             | None => Raise AttributeError
             end
           else Ok []);
  Ok (leaf (lit "freq") (freq_text (rFreq r)) :: u ++
    (if 1 <? rInterval r then [leaf (lit "interval") (pystr (rInterval r))] else []) ++
    list_xml (lit "bysecond") (rBySeconds r) ++
    list_xml (lit "byminute") (rByMinutes r) ++
    list_xml (lit "byhour") (rByHours r) ++
    (match rByDay r with None => [] | Some l => map (fun d => leaf (lit "byday") (byday_text d)) l end) ++
    list_xml (lit "bymonthday") (rByMonthDay r) ++
    list_xml (lit "byyearday") (rByYearDay r) ++
    list_xml (lit "byweekno") (rByWeekNo r) ++
    list_xml (lit "bymonth") (rByMonth r) ++
    list_xml (lit "bysetpos") (rBySetPos r) ++
    (if negb (rWeekstart r =? 1)
     then [leaf (lit "wkst") (match weekday_text (rWeekstart r) with [] => lit "MO" | t => t end)] else [])).

Section WithFloats.
Variable fl : floats.
(** writeXML of a value: plaintextvalue.py:42-44, integervalue.py:44-46, floatvalue.py:44-46, utcoffsetvalue.py:89-97,
    geovalue.py:64-71, datetimevalue.py:34-35, icalendar/recurrencevalue.py:28-29, icalendar/requeststatusvalue.py:80-91.
    For durations and periods valueutils.py:80-82 calls writeXML of the duration or period without its arguments, which raises. *)
Definition item_xml (i : item) : res xml :=
  match i with
  | VText s => xml_node (item_type i) (XStr s) []
  | VPlain _ s | VUri s => xml_node (item_type i) (match s with Some x => XStr x | None => XNone end) []
  | VInteger n => xml_node (item_type i) (XStr (pystr n)) []
  | VFloat x => xml_node (item_type i) (XStr (fl_str fl x)) []
  | VOffset n => xml_node (item_type i) (XStr (utcoffset_xml n)) []
  | VGeo a b => xml_node (item_type i) XNone [element (lit "latitude") (XFloat a) []; element (lit "longitude") (XFloat b) []]
  | VDateTime d => Ok (date_xml d)
  | VDuration _ | VPeriod _ => Raise TypeError
  | VRecur r => do l <- rule_xml r; Ok (element (lit "recur") XNone l)
  | VStatus l => xml_node (item_type i) XNone []
  end.
(** multivalue.py:82-84. *)
Definition value_xml (v : value) : res (list xml) :=
  match v with Single i => do x <- item_xml i; Ok [x] | Multi _ l => map_r item_xml l end.
(** parameter.py:110-115. *)
Definition param_xml (p : param) : xml := element (fst p) XNone (map (leaf (lit "text")) (snd p)).
(** property.py:410-415. *)
Definition params_xml (ps : params) : list xml :=
  match ps with
  | [] => []
  | _ => [element (lit "parameters") XNone
            (map param_xml (filter (fun p => negb (beq (lower (fst p)) (lit "value"))) (flat_map snd (sort_by fst ps))))]
  end.
(** property.py:405-419. *)
Definition generateValueXML (novalue : bool) (p : prop) : res xml :=
  do v <- match pValue p with
          | Some v => if novalue then Ok [] else value_xml v
          | None => Ok []
          end;
  Ok (element (pName p) XNone (params_xml (pParams p) ++ v)).
(** property.py:392-395. *)
Definition prop_writeXML (p : prop) : res xml := generateValueXML false p.
(** property.py:397-402: what is added. *)
Definition prop_writeXMLFiltered (f : ofilter) (p : prop) : res (list xml) :=
  match testPropertyValue f (upper (pName p)) with
  | (true, novalue) => do x <- generateValueXML (match novalue with Some true => true | _ => false end) p; Ok [x]
  | (false, _) => Ok []
  end.

(** All of them, or the first exception. *)
Fixpoint all_xml (l : list (res xml)) : res (list xml) :=
  match l with
  | [] => Ok []
  | x :: r => do j <- x; do t <- all_xml r; Ok (j :: t)
  end.
(** componentbase.py:299-308, 415-422, 587-596.  As in ComponentModel.generate the sub-components are written first and then put in order. *)
Fixpoint writeXML (c : comp) : res xml :=
  let '(Comp k s ps subs) := c in
  do pl <- map_r prop_writeXML (written_props k ps);
  do cl <- all_xml (map snd (sortedComponents fst k (map (fun d => (d, writeXML d)) subs)));
  Ok (element (getType k) XNone
        (element (lit "properties") XNone pl :: match subs with [] => [] | _ => [element (lit "components") XNone cl] end)).
(** componentbase.py:598-613. *)
Definition writePropertiesFilteredXML (f : ofilter) (k : kind) (ps : props) : res (list xml) :=
  if isAllProperties f then map_r prop_writeXML (written_props k ps)
  else if hasPropertyFilters f then do l <- map_r (prop_writeXMLFiltered f) (written_props k ps); Ok (List.concat l) else Ok [].
(** componentbase.py:424-436.  self.writeXML writes the component itself; that of a calendar (icalendar/calendar.py:426) takes other
    arguments.  There is no method sortedcomponents. *)
Definition writeComponentsFilteredXML (f : ofilter) (c : comp) : res (list xml) :=
  match cSubs c with
  | [] => Ok []
  | _ =>
    do l <- (if isAllSubComponents f then match cKind c with VCALENDAR => Raise TypeError | _ => do x <- writeXML c; Ok [x] end
             else if hasSubComponentFilters f then Raise AttributeError else Ok []);
    Ok [element (lit "components") XNone l]
  end.
(** componentbase.py:310-318. *)
Definition writeXMLFiltered (f : ofilter) (c : comp) : res xml :=
  do pl <- writePropertiesFilteredXML f (cKind c) (cProps c);
  do cl <- writeComponentsFilteredXML f c;
  Ok (element (getType (cKind c)) XNone (element (lit "properties") XNone pl :: cl)).

(** xmlutils.py:33-34: a new line with two spaces for each level. *)
Definition new_line (level : nat) : bytes := LF :: repeat SPC (2 * level).
(** node.tail = t. *)
Definition put_tail (t : bytes) (x : xml) : xml := let '(Elem tag text kids _) := x in Elem tag text kids t.
(** xmlutils.py:31-41: _indentNode.  A float has no method strip. *)
Fixpoint indentNode (level : nat) (x : xml) : res xml :=
  let '(Elem tag text kids tail) := x in
  let deeper := match kids with
                | [] => Ok x
                | _ =>
                  do l <- (fix go (l : list xml) : res (list xml) :=
                             match l with
                             | [] => Ok []
                             | k :: r =>
                               do k <- indentNode (S level) k;
                               do t <- go r;
                               Ok (put_tail (new_line (match r with [] => level | _ => S level end)) k :: t)
                             end) kids;
                  Ok (Elem tag (XStr (new_line (S level))) l tail)
                end in
  match text with
  | XNone => deeper
  | XStr s => if existsb (fun c => negb (is_space c)) s then Ok x else deeper
  | XFloat _ => Raise AttributeError
  end.

(** _escape_cdata of xml.etree. *)
Definition escape (s : bytes) : bytes :=
  flat_map (fun c => if Ascii.eqb c "&" then lit "&amp;" else if Ascii.eqb c "<" then lit "&lt;"
                     else if Ascii.eqb c ">" then lit "&gt;" else [c]) s.
(** The encoding is ASCII; a string with another character raises UnicodeDecodeError, a ValueError. *)
Definition cdata (s : bytes) : res bytes := if is_ascii s then Ok (escape s) else Raise ValueError.
(** Text other than a string is an error too (TypeError); indentNode has let none through. *)
Definition text_of (t : xtext) : res bytes := match t with XNone => Ok [] | XStr s => Ok s | XFloat _ => Raise TypeError end.
(** tostring of xml.etree (Python 2.7): the namespace gets the prefix ns0 and is declared in the outermost element, here by atts. *)
Fixpoint xml_string (atts : bytes) (x : xml) : res bytes :=
  let '(Elem tag text kids tail) := x in
  do s <- text_of text;
  do name <- (if is_ascii tag then Ok (lit "ns0:" ++ tag) else Raise ValueError);
  do inside <- match s, kids with
               | [], [] => Ok (lit " />")
               | _, _ =>
                 do a <- cdata s;
                 do b <- (fix go (l : list xml) : res bytes :=
                            match l with [] => Ok [] | k :: r => do a <- xml_string [] k; do b <- go r; Ok (a ++ b) end) kids;
                 Ok (lit ">" ++ a ++ b ++ lit "</" ++ name ++ lit ">")
               end;
  do t <- cdata tail;
  Ok (lit "<" ++ name ++ atts ++ inside ++ t).
(** xmlutils.py:26 and the declaration of the namespace. *)
Definition declaration : bytes :=
  lit "<?xml version=" ++ [DQUOTE] ++ lit "1.0" ++ [DQUOTE] ++ lit " encoding=" ++ [DQUOTE] ++ lit "utf-8" ++ [DQUOTE] ++ lit "?>" ++ [LF].
Definition xmlns : bytes := lit " xmlns:ns0=" ++ [DQUOTE] ++ lit "urn:ietf:params:xml:ns:icalendar-2.0" ++ [DQUOTE].
(** xmlutils.py:24-47. *)
Definition toString (root : xml) : res bytes :=
  do root <- indentNode 0 root;
  do s <- xml_string xmlns root;
  Ok (declaration ++ s ++ [LF]).
(** icalendar/calendar.py:422-433 with NO_TIMEZONES. *)
Definition getTextXML (c : comp) : res bytes :=
  do x <- writeXML c;
  toString (element (lit "icalendar") XNone [x]).
End WithFloats.
