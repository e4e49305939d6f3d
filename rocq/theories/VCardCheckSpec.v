(** What the theorems about the validation of vCards are stated with. *)
From Verif Require Import VCardModel.
From Verif Require Export VCardSpec.

(** A card as reading and addProperty leave it: every name in upper case once, with at least one property, all of this name. *)
Definition card_tidy (c : cprops) : Prop :=
  NoDup (map fst c) /\ Forall (fun kl => snd kl <> [] /\ Forall (fun p => upper (cpName p) = fst kl) (snd kl)) c.
Definition in_card (p : cprop) (c : cprops) : Prop := exists k l, In (k, l) c /\ In p l.
(** The number of properties with a name, in any letter case. *)
Definition named_in (n : bytes) (c : cprops) (k : nat) : Prop :=
  exists l, List.length l = k /\ (forall p, In p l <-> in_card p c /\ upper (cpName p) = n) /\ exists r, Permutation (List.concat (map snd c)) (l ++ r) /\ Forall (fun p => upper (cpName p) <> n) r.
(** The value is one text, and it is t up to the case of ASCII letters. *)
Definition reads (p : cprop) (t : bytes) : Prop :=
  exists s, upper s = upper t /\ (cpValue p = Some (CSingle (CItem (VText s))) \/ (exists k, cpValue p = Some (CSingle (CItem (VPlain k (Some s))))) \/ cpValue p = Some (CSingle (CItem (VUri (Some s))))).
(** No plain text or URI without a text. *)
Definition has_text (p : cprop) : Prop := match cpValue p with Some (CSingle (CItem (VPlain _ None))) | Some (CSingle (CItem (VUri None))) => False | _ => True end.

(** What RFC 2426 and the library say about the numbers and values of the properties of a card. *)
Inductive card_problem (c : cprops) : bytes -> Prop :=
| pr_once : forall n k, In n [lit "VERSION"; lit "N"] -> named_in n c k -> k <> 1%nat -> card_problem c (lit "[VCARD] Missing or too many required property: " ++ n)
| pr_atmost : forall n k, In n [lit "BDAY"; lit "PRODID"; lit "REV"; lit "UID"] -> named_in n c k -> (1 < k)%nat -> card_problem c (lit "[VCARD] Too many properties present: " ++ n)
| pr_needed : named_in (lit "FN") c 0 -> card_problem c (lit "[VCARD] Missing required property: FN")
| pr_value : forall n t p, In (n, t) [(lit "VERSION", lit "3.0"); (lit "PROFILE", lit "VCARD")] -> in_card p c -> upper (cpName p) = n -> ~ reads p t ->
    card_problem c (lit "[VCARD] Property value incorrect: " ++ n).
