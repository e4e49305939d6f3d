(** Model of hash() of values and properties, of sets, and of == of vCards: value.py, multivalue.py, parameter.py, icalendar/property.py, vcard/property.py,
    vcard/adr.py, vcard/n.py, componentbase.py.  Definitions only.

    hash() of a tuple, a text, a number or None is a function of what it holds: a key says what that is, and two objects with the same key have the same hash.
    An object whose __hash__ returns hash(x) has the key of x. *)
From Verif Require Export VCardModel CalendarModel.

Definition rule_tuple : Set :=
  (freq * bool * Z * bool * option Z * Z * (option (list Z) * option (list Z) * option (list Z) * option (list (Z * Z))) *
   (option (list Z) * option (list Z) * option (list Z) * option (list Z) * option (list Z)) * Z)%type.
Inductive hkey : Set := HNone | HText (s : bytes) | HInt (n : Z) | HRule (t : rule_tuple) | HTup (l : list hkey).

(** value.py:26-50: the numbers of the value types. *)
Definition type_number (t : ctype) : Z :=
  match t with
  | CT_ADR => 0 | CT T_BINARY => 1 | CT T_BOOLEAN => 2 | CT T_CALADDRESS => 3 | CT T_DATE => 4 | CT T_DATETIME => 5 | CT T_DURATION => 6 | CT T_FLOAT => 7
  | CT T_GEO => 8 | CT T_INTEGER => 9 | CT_N => 10 | CT_ORG => 11 | CT T_PERIOD => 12 | CT T_RECUR => 13 | CT T_REQUEST_STATUS => 14 | CT T_TEXT => 15
  | CT T_TIME => 16 | CT T_UNKNOWN => 17 | CT T_URI => 18 | CT T_UTC_OFFSET => 19 | CT_VCARD => 20
  end.
Definition text_key (s : option bytes) : hkey := match s with Some s => HText s | None => HNone end.
(** parameter.py:44-45. *)
Definition param_key (p : param) : hkey := HTup [HText (upper (fst p)); HTup (map HText (snd p))].
(** icalendar/property.py:244, vcard/property.py:192. *)
Definition params_key (ps : params) : hkey := HTup (map (fun kl => HTup (map param_key (snd kl))) (sort_by fst ps)).
(** The parts of a name or an address: vcard/n.py:43-44, vcard/adr.py:45-46. *)
Definition nested_key (x : nested) : hkey := match x with NStr s => HText s | NTup l => HTup (map HText l) end.

Section WithTz.
Variable tzo : tzid -> Z -> Z -> Z -> Z -> Z -> Z -> bool -> bool -> Z.
(** hash() of a float. *)
Variable fhash : pyfloat -> Z.

(** value.py:56-57 with datetime.py:118-119, duration.py:51-52, period.py:50-51, recurrence.py:172-190; geovalue.py:35-36, requeststatusvalue.py:35-36. *)
Definition item_key (i : item) : res hkey :=
  let typed k := HTup [HInt (type_number (CT (item_type i))); k] in
  match i with
  | VText s => Ok (typed (HText s))
  | VPlain _ s | VUri s => Ok (typed (text_key s))
  | VInteger n | VOffset n => Ok (typed (HInt n))
  | VFloat x => Ok (typed (HInt (fhash x)))
  | VGeo a b => Ok (HTup [HInt (fhash a); HInt (fhash b)])
  | VDateTime d => do h <- dt_hash tzo d; Ok (typed (HInt h))
  | VDuration d => Ok (typed (HInt (getTotalSeconds d)))
  | VPeriod p => do h <- period_hash tzo p; Ok (typed (HTup [HInt (fst h); HInt (snd h)]))
  | VRecur r => do h <- rule_hash tzo r; Ok (typed (HRule h))
  | VStatus l => Ok (HTup (map HText l))
  end.
(** multivalue.py:27-28. *)
Definition value_key (v : value) : res hkey :=
  match v with Single i => item_key i | Multi _ l => do ks <- map_r item_key l; Ok (HTup ks) end.
(** icalendar/property.py:241-246. *)
Definition prop_key (p : prop) : res hkey :=
  do v <- match pValue p with None => Ok HNone | Some v => value_key v end;
  Ok (HTup [HText (pName p); params_key (pParams p); v]).
(** value.py:56-57 with adrvalue.py, nvalue.py and orgvalue.py; one text of ORG is a str (utils.py:280). *)
Definition citem_key (i : citem) : res hkey :=
  let typed k := HTup [HInt (type_number (citem_type i)); k] in
  match i with
  | CItem i => item_key i
  | CAdr l | CName l => Ok (typed (HTup (map nested_key l)))
  | COrg [s] => Ok (typed (HText s))
  | COrg l => Ok (typed (HTup (map HText l)))
  end.
Definition cvalue_key (v : cvalue) : res hkey :=
  match v with CSingle i => citem_key i | CMulti _ l => do ks <- map_r citem_key l; Ok (HTup ks) end.
(** vcard/property.py:188-194. *)
Definition cprop_key (p : cprop) : res hkey :=
  do v <- match cpValue p with None => Ok HNone | Some v => cvalue_key v end;
  Ok (HTup [text_key (cpGroup p); HText (cpName p); params_key (cpParams p); v]).
End WithTz.

(** Python sets of objects: every element with its hash; one is in a set if an element with the same hash is ==. *)
Section Sets.
Context {A : Type}.
Variable hash : A -> res Z.
Variable eq : A -> A -> res bool.
Fixpoint is_in (h : Z) (x : A) (l : list (Z * A)) : res bool :=
  match l with
  | [] => Ok false
  | (h', y) :: r => if h' =? h then do b <- eq y x; if b then Ok true else is_in h x r else is_in h x r
  end.
(** set.update. *)
Fixpoint updated (acc : list (Z * A)) (l : list A) : res (list (Z * A)) :=
  match l with
  | [] => Ok acc
  | x :: r => do h <- hash x; do b <- is_in h x acc; updated (if b then acc else acc ++ [(h, x)]) r
  end.
Fixpoint subset (l s : list (Z * A)) : res bool :=
  match l with
  | [] => Ok true
  | (h, x) :: r => do b <- is_in h x s; if b then subset r s else Ok false
  end.
(** == of sets: as many elements, and those of the first in the second. *)
Definition set_eq (l m : list A) : res bool :=
  do s <- updated [] l;
  do t <- updated [] m;
  if Nat.eqb (List.length s) (List.length t) then subset s t else Ok false.
End Sets.

Section Cards.
Variable tzo : tzid -> Z -> Z -> Z -> Z -> Z -> Z -> bool -> bool -> Z.
Variable fl : floats.
Variable fhash : pyfloat -> Z.
(** The hash of what has a key. *)
Variable H : hkey -> Z.
Definition prop_hash (p : prop) : res Z := do k <- prop_key tzo fhash p; Ok (H k).
Definition cprop_hash (p : cprop) : res Z := do k <- cprop_key tzo fhash p; Ok (H k).
(** componentbase.py:72-75, 150-157: == of two Cards; neither has components. *)
Definition card_eq (c d : cprops) : res bool := set_eq cprop_hash (cprop_eq tzo fl) (List.concat (map snd c)) (List.concat (map snd d)).
End Cards.
