(** What the theorems about the JSON form of vCards are stated with. *)
From Verif Require Import VCardJsonModel.
From Verif Require Export VCardSpec JsonSpec.

(** The values made of several texts, which have no type in JSON. *)
Definition structured (t : ctype) : Prop := t = CT_N \/ t = CT_ADR \/ t = CT_ORG.
(** Values that can be written and read back. *)
Definition citem_json_ok (i : citem) : Prop :=
  match i with
  | CItem i =>
    match i with
    | VText _ | VInteger _ | VFloat _ | VGeo _ _ => True
    | VPlain _ s | VUri s => s <> None
    | VOffset n => Z.abs n < 360000
    | VDateTime d => printable d /\ vcard_when d
    | _ => False
    end
  | _ => False
  end.
(** Values that fit the property: list values for the properties that have them, with a type that JSON has and vCards know; no calendar addresses; pairs of
    floats only in GEO and no single float there; no single text in N, ADR and ORG; UTC offsets only in TZ; no value of unknown type for a
    property with a known type except AGENT. *)
Definition vcard_json_type (name : bytes) (v : cvalue) : Prop :=
  match v with
  | CMulti t _ => In (upper name) vcard_lists /\ In t [CT T_BINARY; CT T_DATE; CT T_DATETIME; CT T_FLOAT; CT T_INTEGER; CT T_TEXT; CT T_URI]
  | CSingle i =>
    ~ In (upper name) vcard_lists /\ citem_type i <> CT T_CALADDRESS /\
    (citem_type i = CT T_GEO -> upper name = lit "GEO") /\ (citem_type i = CT T_FLOAT -> upper name <> lit "GEO") /\
    (citem_type i = CT T_TEXT -> ~ In (upper name) [lit "N"; lit "ADR"; lit "ORG"]) /\
    (citem_type i = CT T_UTC_OFFSET -> upper name = lit "TZ") /\
    (citem_type i = CT T_UNKNOWN -> forall t, In (upper name) (vcard_names t) -> t = CT_VCARD)
  end.
Definition cvalue_json_ok (v : cvalue) : Prop :=
  match v with CSingle i => citem_json_ok i | CMulti t l => Forall (fun i => vcard_made t i /\ citem_json_ok i) l end.
Definition cprop_json_ok (p : cprop) : Prop :=
  params_json_ok (cpParams p) /\ exists v, cpValue p = Some v /\ vcard_json_type (cpName p) v /\ cvalue_json_ok v.

(** The same property, without its group; names of properties and parameters come back in upper case. *)
Definition same_cjson (p q : cprop) : Prop :=
  cpGroup q = None /\ cpName q = upper (cpName p) /\
  (forall k, k <> lit "VALUE" -> Forall2 same_upper (lookup k (cpParams p)) (lookup k (cpParams q))) /\
  match cpValue p, cpValue q with Some v, Some w => cvalue_type v = cvalue_type w /\ same_cvalue v w | _, _ => False end.
(** A card of such properties: every key once, with the properties of that name in any letter case. *)
Definition card_json_ok (c : cprops) : Prop :=
  NoDup (map fst c) /\ Forall (fun kl => Forall (fun p => upper (cpName p) = fst kl /\ cprop_json_ok p) (snd kl)) c.
Definition same_card_json (c d : cprops) : Prop := forall name, Forall2 same_cjson (card_get name c) (card_get name d).

(** How the parts of a structured value stand in JSON: one array, in it a text for every part, or an array of texts for a part with several. *)
Inductive part_written : nested -> json -> Prop :=
| pw_one s : part_written (NStr s) (JText s)
| pw_several l : part_written (NTup l) (JArr (map JText l)).
Inductive parts_written : citem -> json -> Prop :=
| pw_name l js : Forall2 part_written l js -> parts_written (CName l) (JArr js)
| pw_adr l js : Forall2 part_written l js -> parts_written (CAdr l) (JArr js)
| pw_org l : List.length l <> 1%nat -> parts_written (COrg l) (JArr (map JText l))
| pw_letters s : parts_written (COrg [s]) (JArr (map (fun c => JText [c]) s)).
