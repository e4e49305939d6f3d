(** What the theorems about the JSON form are stated with. *)
From Verif Require Import JsonModel.
From Verif Require Export ComponentSpec.

(** What JSON text keeps of a tree: everything but the order of the members of an object. *)
Inductive reordered : json -> json -> Prop :=
| re_null : reordered JNull JNull
| re_bool : forall b, reordered (JBool b) (JBool b)
| re_text : forall s, reordered (JText s) (JText s)
| re_num : forall n, reordered (JNum n) (JNum n)
| re_float : forall x, reordered (JFloat x) (JFloat x)
| re_arr : forall l m, Forall2 reordered l m -> reordered (JArr l) (JArr m)
| re_obj : forall a b c, Forall2 (fun x y => fst x = fst y /\ reordered (snd x) (snd y)) a b -> Permutation b c ->
    reordered (JObj a) (JObj c).

Definition ascii_text (s : bytes) : Prop := Forall (fun c => (nat_of_ascii c < 128)%nat) s.

(** Parameters that JSON can hold: one of each name, with one value; VALUE parameters may be anything. *)
Definition params_json_ok (ps : params) : Prop :=
  NoDup (map fst ps) /\
  Forall (fun kl => Forall (fun p => upper (fst p) = fst kl) (snd kl) /\
    (fst kl <> lit "VALUE" -> exists n v, snd kl = [(n, [v])] /\ ascii_text n)) ps.

(** Values that can be written and read back. *)
Definition item_json_ok (z : option bytes) (i : item) : Prop :=
  match i with
  | VText _ | VInteger _ | VFloat _ | VGeo _ _ => True
  | VPlain _ s | VUri s => s <> None
  | VOffset n => Z.abs n < 360000
  | VDateTime d => printable d /\ in_zone z d
  | VDuration d => dur_wf d
  | VPeriod p => period_wf p
  | VRecur r => rule_ok r
  | VStatus l => List.length l = 2%nat \/ List.length l = 3%nat
  end.
(** Values that fit the property: list values for the properties that have them, no value of unknown type for a property with a
    known type, pairs of floats only in GEO and no single float there, status lists only in REQUEST-STATUS and no single text
    there, no lists of BOOLEAN or TIME values. *)
Definition type_json_ok (name : bytes) (v : value) : Prop :=
  (match v with
   | Multi t _ => In (upper name) list_names /\ t <> T_BOOLEAN /\ t <> T_TIME
   | Single _ => ~ In (upper name) list_names
   end) /\
  (value_type v = T_GEO -> upper name = lit "GEO") /\
  (value_type v = T_REQUEST_STATUS -> upper name = lit "REQUEST-STATUS") /\
  (upper name = lit "GEO" -> value_type v <> T_FLOAT) /\
  (upper name = lit "REQUEST-STATUS" -> value_type v <> T_TEXT) /\
  ((exists t, In (upper name) (names_with t)) -> value_type v <> T_UNKNOWN).
Definition value_json_ok (z : option bytes) (v : value) : Prop :=
  match v with
  | Single i => item_json_ok z i
  | Multi t l => Forall (fun i => made_by t i /\ item_json_ok (match t with T_DATETIME => z | _ => None end) i) l
  end.
Definition prop_json_ok (p : prop) : Prop :=
  params_json_ok (pParams p) /\
  exists v z, pValue p = Some v /\ tzid_of (pParams p) z /\ type_json_ok (pName p) v /\ value_json_ok z v.

(** The same property; names of properties and parameters come back in upper case. *)
Definition same_upper (p q : param) : Prop := upper (fst p) = fst q /\ snd p = snd q.
Definition same_json (p q : prop) : Prop :=
  pName q = upper (pName p) /\
  (forall k, k <> lit "VALUE" -> Forall2 same_upper (lookup k (pParams p)) (lookup k (pParams q))) /\
  match pValue p, pValue q with Some v, Some w => value_type v = value_type w /\ same_value v w | _, _ => False end.

(** The same content: type, the properties of each name in their order, and the sub-components in some order. *)
Inductive same_json_tree : comp -> comp -> Prop :=
| same_json_comp : forall k s s' ps ps' subs subs' l,
    (forall name, Forall2 same_json (getProperties name ps) (getProperties name ps')) ->
    Permutation l subs -> Forall2 same_json_tree l subs' ->
    same_json_tree (Comp k s ps subs) (Comp k s' ps' subs').

(** A dictionary of properties: every key once, with the properties of that name in any letter case. *)
Definition props_json_ok (ps : props) : Prop :=
  NoDup (map fst ps) /\
  Forall (fun kl => Forall (fun p => upper (pName p) = fst kl /\ prop_json_ok p) (snd kl)) ps.
(** Components inside a calendar; an unknown component has a type in upper-case ASCII that is not a known name. *)
Definition kind_json_ok (k : kind) : Prop :=
  match k with
  | VCALENDAR => False
  | UNKNOWN t => ~ In t known_types /\ t <> lit "UNKNOWN" /\ upper t = t /\ ascii_text t
  | _ => True
  end.
Inductive tree_json_ok : comp -> Prop :=
| tree_json_intro : forall k s ps subs,
    kind_json_ok k -> props_json_ok ps -> cached_ok k ps ->
    Forall (fun c => nesting_ok k (cKind c)) subs -> Forall tree_json_ok subs ->
    tree_json_ok (Comp k s ps subs).
Definition calendar_json_ok (c : comp) : Prop :=
  cKind c = VCALENDAR /\ props_json_ok (cProps c) /\ Forall tree_json_ok (cSubs c).
