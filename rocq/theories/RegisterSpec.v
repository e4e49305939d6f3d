(** What the theorems about registered names are stated with. *)
From Verif Require Export PropertySpec RegisterModel.

(** A call for this name on the iCalendar class. *)
Definition call_for (N : bytes) (c : registration) : Prop := cKlass c = ICalendar /\ cName c = N.
(** The default type of a name: that of the standard, or that of the first call for it. *)
Inductive default_of (calls : list registration) (N : bytes) : vtype -> Prop :=
| do_standard : forall t, In N (names_with t) -> default_of calls N t
| do_call : forall a t w b, (forall t, ~ In N (names_with t)) -> calls = a ++ mkCall ICalendar N t w :: b -> Forall (fun c => ~ call_for N c) a ->
    default_of calls N t.
(** The names for which VALUE is always to be written. *)
Definition always (calls : list registration) (N : bytes) : Prop := exists c, In c calls /\ cName c = N /\ cAlways c = true.

(** The type of the values of a line, as typed, with the registered names. *)
Inductive reg_typed (calls : list registration) (name : bytes) (ps : params) : vtype -> Prop :=
| rt_param : forall n v l r t, lookup (lit "VALUE") ps = (n, v :: l) :: r -> value_param v t -> reg_typed calls name ps t
| rt_default : forall t, (forall n v l r t, lookup (lit "VALUE") ps = (n, v :: l) :: r -> ~ value_param v t) ->
    default_of calls (upper name) t -> reg_typed calls name ps t
| rt_unknown : (forall n v l r t, lookup (lit "VALUE") ps = (n, v :: l) :: r -> ~ value_param v t) ->
    (forall t, ~ default_of calls (upper name) t) -> reg_typed calls name ps T_UNKNOWN.

(** A type that the VALUE parameter can name. *)
Definition nameable (t : vtype) : Prop := exists n, value_param n t.
(** GEO and REQUEST-STATUS. *)
Definition special (name : bytes) : Prop := upper name = lit "GEO" \/ upper name = lit "REQUEST-STATUS".
Definition fits_list (name : bytes) (v : value) : Prop :=
  match v with Multi _ _ => In (upper name) list_names | Single _ => ~ In (upper name) list_names end.
(** Values whose type the line tells: that of the default if VALUE is not always written; one that VALUE can name, but no text for names without a default;
    values of unknown type for names that have no default, or have that one. *)
Definition type_told (calls : list registration) (name : bytes) (v : value) : Prop :=
  (default_of calls (upper name) (value_type v) /\ ~ always calls (upper name)) \/
  (nameable (value_type v) /\ ((exists t, default_of calls (upper name) t) \/ value_type v <> T_TEXT)) \/
  (value_type v = T_UNKNOWN /\ forall t, default_of calls (upper name) t -> t = T_UNKNOWN).
(** Values whose type is written in the VALUE parameter: of another type than the default, or if VALUE is always written. *)
Definition says_type (calls : list registration) (name : bytes) (v : value) : Prop :=
  nameable (value_type v) /\
  ((exists d, default_of calls (upper name) d /\ (d <> value_type v \/ always calls (upper name))) \/
   ((forall d, ~ default_of calls (upper name) d) /\ value_type v <> T_TEXT)).
Definition reg_kept (calls : list registration) (name : bytes) (v : value) : Prop :=
  fits_list name v /\ (upper name = lit "GEO" -> value_type v = T_GEO) /\ (upper name = lit "REQUEST-STATUS" -> value_type v = T_REQUEST_STATUS) /\
  (~ special name -> type_told calls name v).
(** Properties whose line can be read back. *)
Definition reg_ok (calls : list registration) (ctx : pctx) (fl : floats) (p : prop) : Prop :=
  name_ok (pName p) /\ params_ok (pParams p) /\
  exists v z, pValue p = Some v /\ tzid_of (pParams p) z /\ reg_kept calls (pName p) v /\ prop_value_ok ctx fl z v.
(** No call for this name, on any class. *)
Definition untouched (calls : list registration) (name : bytes) : Prop := Forall (fun c => cName c <> upper name) calls.
