(** What the theorems about making properties with registered names are stated with. *)
From Verif Require Import RegMakeModel.
From Verif Require Export MakeSpec RegisterSpec.

(** As MakeSpec.text_type, with the registered names. *)
Definition reg_text_type (calls : list registration) (ctx : pctx) (name s : bytes) (t : vtype) : Prop :=
  match t with
  | T_TEXT => exists d, default_of calls (upper name) d
  | T_CALADDRESS | T_BINARY => True
  | T_URI => if peqb (BACKSLASH_IN_URI_VALUE ctx) PARSER_FIX then ~ In BSLASH s else ~ In LF s
  | T_UNKNOWN => forall d, default_of calls (upper name) d -> d = T_UNKNOWN
  | _ => False
  end.
(** The type a str gets: the one given, else the default of the name, else none. *)
Inductive text_gets (calls : list registration) (name : bytes) : option vtype -> vtype -> Prop :=
| tg_given : forall t, text_gets calls name (Some t) t
| tg_default : forall t, default_of calls (upper name) t -> text_gets calls name None t
| tg_none : (forall t, ~ default_of calls (upper name) t) -> text_gets calls name None T_UNKNOWN.
(** As MakeSpec.suits, which says the same of values that are no str. *)
Definition reg_suits (calls : list registration) (ctx : pctx) (name : bytes) (v : pyvalue) (vt : option vtype) : Prop :=
  match v with
  | PyStr s => name_ok name /\ ~ listed name /\ ~ structured_name name /\ exists t, text_gets calls name vt t /\ reg_text_type calls ctx name s t
  | _ => suits ctx name v vt
  end.
Definition is_str (v : pyvalue) : bool := match v with PyStr _ => true | _ => false end.
