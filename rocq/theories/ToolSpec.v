(** What the theorems about the checking tool are stated with. *)
From Verif Require Export ToolModel ValidateSpec VCardCheckSpec.

Definition has_text_in (data pat : bytes) : Prop := exists a b, data = a ++ pat ++ b.
(** At position i there is a control character with this code, and it is no tab, line feed or carriage return. *)
Definition control_at (data : bytes) (i n : Z) : Prop :=
  exists c, 0 <= i /\ nth_error data (Z.to_nat i) = Some c /\ n = Z.of_nat (nat_of_ascii c) /\ n < 32 /\ n <> 9 /\ n <> 10 /\ n <> 13.
(** The lines about control characters: all of them, by position. *)
Inductive in_order : list message -> Prop :=
| io_nil : in_order []
| io_cons n i l : (forall m j, In (Control m j) l -> i < j) -> in_order l -> in_order (Control n i :: l).
Definition all_controls (data : bytes) (l : list message) : Prop := in_order l /\ forall n i, In (Control n i) l <-> control_at data i n.
(** The line about the problems. *)
Definition tells (problem : bytes -> Prop) (m : message) : Prop :=
  match m with NoProblems => forall p, ~ problem p | Problems l => l <> [] /\ forall p, In p l <-> problem p | _ => False end.
Definition library_error (e : exn) : Prop := In e [InvalidData; InvalidComponent; InvalidProperty; ValidationError].
