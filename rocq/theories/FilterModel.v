(** Model of filtered output: outputfilter.py, and the Filtered methods of componentbase.py and property.py for text and JSON.
    Definitions only. *)
From Verif Require Export JsonModel.

(** outputfilter.py:19-24.  The dictionaries are lists in order of insertion; no_value is a boolean. *)
Inductive ofilter : Set := OFilter (mType : bytes) (mAllSubComponents : bool) (mSubComponents : option (list (bytes * ofilter)))
  (mAllProperties : bool) (mProperties : option (list (bytes * bool))).
Definition newFilter (type : bytes) : ofilter := OFilter type false None false None.
(** outputfilter.py:26-31. *)
Definition fType (f : ofilter) : bytes := let '(OFilter t _ _ _ _) := f in t.
Definition testComponent (f : ofilter) (oftype : bytes) : bool := beq (fType f) oftype.
(** outputfilter.py:33-38. *)
Definition isAllSubComponents (f : ofilter) : bool := let '(OFilter _ a _ _ _) := f in a.
Definition setAllSubComponents (f : ofilter) : ofilter := let '(OFilter t _ _ p q) := f in OFilter t true None p q.
(** d[key] = value. *)
Fixpoint dict_set {A} (key : bytes) (v : A) (m : list (bytes * A)) : list (bytes * A) :=
  match m with
  | [] => [(key, v)]
  | (k, w) :: r => if beq k key then (k, v) :: r else (k, w) :: dict_set key v r
  end.
(** outputfilter.py:40-44. *)
Definition addSubComponent (g f : ofilter) : ofilter :=
  let '(OFilter t a s p q) := f in OFilter t a (Some (dict_set (fType g) g (match s with Some m => m | None => [] end))) p q.
(** outputfilter.py:47-58. *)
Definition fSubs (f : ofilter) : option (list (bytes * ofilter)) := let '(OFilter _ _ s _ _) := f in s.
Definition testSubComponent (f : ofilter) (oftype : bytes) : bool :=
  isAllSubComponents f || match fSubs f with Some m => match assoc oftype m with Some _ => true | None => false end | None => false end.
Definition hasSubComponentFilters (f : ofilter) : bool := match fSubs f with Some _ => true | None => false end.
Definition getSubComponentFilter (f : ofilter) (type : bytes) : option ofilter :=
  match fSubs f with Some m => assoc type m | None => None end.
(** outputfilter.py:60-74. *)
Definition isAllProperties (f : ofilter) : bool := let '(OFilter _ _ _ p _) := f in p.
Definition setAllProperties (f : ofilter) : ofilter := let '(OFilter t a s _ _) := f in OFilter t a s true None.
Definition fProps (f : ofilter) : option (list (bytes * bool)) := let '(OFilter _ _ _ _ q) := f in q.
Definition filterProperty (name : bytes) (no_value : bool) (f : ofilter) : ofilter :=
  let '(OFilter t a s p q) := f in OFilter t a s p (Some (dict_set name no_value (match q with Some m => m | None => [] end))).
Definition hasPropertyFilters (f : ofilter) : bool := match fProps f with Some _ => true | None => false end.
(** outputfilter.py:78-88: the second is None where it says None. *)
Definition testPropertyValue (f : ofilter) (name : bytes) : bool * option bool :=
  if isAllProperties f then (true, Some false)
  else match fProps f with
       | None => (false, Some false)
       | Some m => match assoc name m with Some b => (true, Some b) | None => (false, None) end
       end.

(** property.py:337-390 with novalue. *)
Definition line_novalue (fl : floats) (novalue : bool) (p : prop) : res bytes :=
  if novalue then Ok (gen_line (mkLine None (pName p) (setupValueParameter (pName p) (pParams p) (pValue p)) None)) else prop_line fl p.
Definition generateValue (fl : floats) (novalue : bool) (p : prop) : option (res bytes) :=
  match line_novalue fl novalue p with
  | Raise e => Some (Raise e)
  | Ok l => fold_line (S (List.length l)) l
  end.
(** property.py:329-334. *)
Definition prop_generateFiltered (fl : floats) (f : ofilter) (p : prop) : option (res bytes) :=
  match testPropertyValue f (upper (pName p)) with
  | (true, novalue) => generateValue fl (match novalue with Some true => true | _ => false end) p
  | (false, _) => Some (Ok [])
  end.
(** componentbase.py:573-587. *)
Definition writePropertiesFiltered (fl : floats) (f : ofilter) (k : kind) (ps : props) : list (option (res bytes)) :=
  if isAllProperties f then map (prop_generate fl) (written_props k ps)
  else if hasPropertyFilters f then map (prop_generateFiltered fl f) (written_props k ps) else [].
(** componentbase.py:405-413: there is no method sortedcomponents (the name is sortedComponents). *)
Definition writeComponentsFiltered (fl : floats) (f : ofilter) (k : kind) (subs : list comp) : list (option (res bytes)) :=
  if isAllSubComponents f then map snd (sortedComponents fst k (map (fun d => (d, generate fl d)) subs))
  else if hasSubComponentFilters f then [Some (Raise AttributeError)] else [].
(** componentbase.py:284-297.  What is in the stream when an exception is raised is left out. *)
Definition generateFiltered (fl : floats) (f : ofilter) (c : comp) : option (res bytes) :=
  let '(Comp k s ps subs) := c in
  write_all (crlf (beginDelimiter k) :: writePropertiesFiltered fl f k ps ++ writeComponentsFiltered fl f k subs ++ [crlf (endDelimiter k)]).

(** property.py:486-502 with novalue. *)
Definition generateValueJSON (novalue : bool) (p : prop) : res json :=
  if novalue then Ok (JArr [JText (lower (pName p)); JObj (params_json (pParams p))]) else prop_writeJSON p.
(** property.py:479-484 (what is appended). *)
Definition prop_writeJSONFiltered (f : ofilter) (p : prop) : res (list json) :=
  match testPropertyValue f (upper (pName p)) with
  | (true, novalue) => do j <- generateValueJSON (match novalue with Some true => true | _ => false end) p; Ok [j]
  | (false, _) => Ok []
  end.
(** componentbase.py:624-637. *)
Definition writePropertiesFilteredJSON (f : ofilter) (k : kind) (ps : props) : res (list json) :=
  if isAllProperties f then map_r prop_writeJSON (written_props k ps)
  else if hasPropertyFilters f then do l <- map_r (prop_writeJSONFiltered f) (written_props k ps); Ok (List.concat l) else Ok [].
(** componentbase.py:443-454: all sub-components are written with self.writeJSON, which writes the component itself. *)
Definition writeComponentsFilteredJSON (f : ofilter) (c : comp) : res (list json) :=
  match cSubs c with
  | [] => Ok []
  | _ =>
    if isAllSubComponents f then do j <- writeJSON c; Ok [j]
    else if hasSubComponentFilters f then Raise AttributeError else Ok []
  end.
(** componentbase.py:358-369. *)
Definition writeJSONFiltered (f : ofilter) (c : comp) : res json :=
  do pl <- writePropertiesFilteredJSON f (cKind c) (cProps c);
  do cl <- writeComponentsFilteredJSON f c;
  Ok (JArr [JText (lower (getType (cKind c))); JArr pl; JArr cl]).
