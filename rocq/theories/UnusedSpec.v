(** Specification vocabulary for C95: definitions only, nothing from its model. *)
From Verif Require Import PyBase.
(** The place of the first entry with the property, before which all entries are texts that are not empty and do not have it. *)
Definition first_at (P : bytes -> Prop) (ss : list (option bytes)) (i : Z) : Prop :=
  exists pre x post, ss = map Some pre ++ Some x :: post /\ i = Z.of_nat (List.length pre) /\ P x /\ x <> [] /\ Forall (fun y => y <> [] /\ ~ P y) pre.
(** The list ends, with None or an empty text, before there is such an entry. *)
Definition ends_before (P : bytes -> Prop) (ss : list (option bytes)) : Prop :=
  exists pre x post, ss = map Some pre ++ x :: post /\ (x = None \/ x = Some []) /\ Forall (fun y => y <> [] /\ ~ P y) pre.
(** All are texts that are not empty, and there is no such entry. *)
Definition nowhere (P : bytes -> Prop) (ss : list (option bytes)) : Prop := exists pre, ss = map Some pre /\ Forall (fun y => y <> [] /\ ~ P y) pre.
(** The text begins with the other one. *)
Definition begins (s x : bytes) : Prop := exists t, s = x ++ t.
