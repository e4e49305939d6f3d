(** What the theorems about filtered output are stated with. *)
From Verif Require Import FilterModel.
From Verif Require Export JsonSpec.

(** The calls that set up a filter. *)
Inductive filter_call : Set :=
| AllProperties | Property (name : bytes) (no_value : bool) | AllSubComponents | SubComponent (g : ofilter).
Definition call (f : ofilter) (a : filter_call) : ofilter :=
  match a with
  | AllProperties => setAllProperties f
  | Property n v => filterProperty n v f
  | AllSubComponents => setAllSubComponents f
  | SubComponent g => addSubComponent g f
  end.
Definition filter_of (type : bytes) (calls : list filter_call) : ofilter := fold_left call calls (newFilter type).
(** What the calls ask for: all properties; the last that was said about a property; all sub-components; any of them. *)
Definition asks_all (calls : list filter_call) : bool := existsb (fun a => match a with AllProperties => true | _ => false end) calls.
Definition said (name : bytes) (calls : list filter_call) : option bool :=
  fold_left (fun r a => match a with Property n v => if beq n name then Some v else r | _ => r end) calls None.
Definition asks_all_subs (calls : list filter_call) : bool := existsb (fun a => match a with AllSubComponents => true | _ => false end) calls.
Definition asks_subs (calls : list filter_call) : bool := existsb (fun a => match a with SubComponent _ => true | _ => false end) calls.

(** The properties that the calls let through, and the component that is left. *)
Definition passes (calls : list filter_call) (name : bytes) : bool :=
  asks_all calls || match said name calls with Some _ => true | None => false end.
Definition kept_props (calls : list filter_call) (ps : props) : props := filter (fun kl => passes calls (fst kl)) ps.
Definition kept (calls : list filter_call) (c : comp) : comp :=
  let '(Comp k s ps subs) := c in Comp k s (kept_props calls ps) (if asks_all_subs calls then subs else []).
(** No property of the component is let through without its value. *)
Definition with_values (calls : list filter_call) (c : comp) : Prop :=
  asks_all calls = true \/ forall name, In name (map fst (cProps c)) -> said name calls <> Some true.
(** The dictionary of the properties: every key once, and the properties under the upper-case form of their names. *)
Definition filed (ps : props) : Prop :=
  NoDup (map fst ps) /\ Forall (fun kl => Forall (fun p => upper (pName p) = fst kl) (snd kl)) ps.
