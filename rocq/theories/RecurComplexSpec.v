(** Vocabulary for statements about the expansion of rules with BY parts. *)
From Verif Require Import PyBase DateTimeModel PeriodModel RecurModel.

(** A comparison that was made and came out true (false). *)
Definition yes (c : res bool) : bool := match c with Ok true => true | _ => false end.
Definition no (c : res bool) : bool := match c with Ok false => true | _ => false end.

Fixpoint drop_while {A} (p : A -> bool) (l : list A) : list A :=
  match l with
  | [] => []
  | x :: t => if p x then drop_while p t else l
  end.

(** The start of the k-th interval of the rule. *)
Definition interval_start (r : rule) (start : dt) (k : nat) : dt :=
  Nat.iter k (fun d => recur d (rFreq r) (rInterval r) true) start.

(** UNTIL as used for a rule with BY parts: for a floating start it is read as a floating
    time and moved by the offset. *)
Definition until_used (r : rule) (start : dt) (off : Z) (u : dt) : Prop :=
  rUseUntil r = true /\ exists u0, rUntil r = Some u0 /\
  u = if floating start then offsetSeconds (setTimezoneID u0 TzNone) off else u0.
