(** What the theorems about the JSON form of properties with registered names are stated with. *)
From Verif Require Import RegJsonModel.
From Verif Require Export RegisterSpec JsonSpec.

(** As JsonSpec.type_json_ok, for a reader that made these calls: no value of unknown type for a name that the reader has another type for. *)
Definition reg_type_json_ok (calls : list registration) (name : bytes) (v : value) : Prop :=
  (match v with
   | Multi t _ => In (upper name) list_names /\ t <> T_BOOLEAN /\ t <> T_TIME
   | Single _ => ~ In (upper name) list_names
   end) /\
  (value_type v = T_GEO -> upper name = lit "GEO") /\
  (value_type v = T_REQUEST_STATUS -> upper name = lit "REQUEST-STATUS") /\
  (upper name = lit "GEO" -> value_type v <> T_FLOAT) /\
  (upper name = lit "REQUEST-STATUS" -> value_type v <> T_TEXT) /\
  (value_type v = T_UNKNOWN -> forall t, default_of calls (upper name) t -> t = T_UNKNOWN).
Definition reg_json_ok (calls : list registration) (p : prop) : Prop :=
  params_json_ok (pParams p) /\
  exists v z, pValue p = Some v /\ tzid_of (pParams p) z /\ reg_type_json_ok calls (pName p) v /\ value_json_ok z v.
(** The type of the values, n being the third element of the array: the one it names, else the default of the name; none for other names. *)
Inductive json_typed (calls : list registration) (name n : bytes) : vtype -> Prop :=
| jt_named : forall t, value_param (upper n) t -> json_typed calls name n t
| jt_default : forall t, (forall u, ~ value_param (upper n) u) -> default_of calls (upper name) t -> json_typed calls name n t
| jt_unknown : (forall u, ~ value_param (upper n) u) -> (forall t, ~ default_of calls (upper name) t) -> json_typed calls name n T_UNKNOWN.
(** No member VALUE among the parameters. *)
Definition no_value_member (j : json) : Prop := forall m, j = JObj m -> Forall (fun e => upper (fst e) <> lit "VALUE") m.
(** The type the array names, and the default of the name, where UNKNOWN stands for none. *)
Inductive array_type (n : bytes) : vtype -> Prop :=
| at_named : forall t, value_param (upper n) t -> array_type n t
| at_other : (forall t, ~ value_param (upper n) t) -> array_type n T_UNKNOWN.
Inductive name_type (calls : list registration) (name : bytes) : vtype -> Prop :=
| nt_default : forall t, default_of calls (upper name) t -> name_type calls name t
| nt_none : (forall t, ~ default_of calls (upper name) t) -> name_type calls name T_UNKNOWN.
