(** Proofs for formats that are given by name. *)
From Verif Require Import PyBase PyProofs LineProofs FormatModel FormatSpec.

Lemma beq_same s : beq s s = true.
Proof. destruct (beq_case s s) as [(_ & E)|(N & _)]; [exact E|]. destruct N. reflexivity. Qed.
Lemma beq_differs s t : s <> t -> beq s t = false.
Proof. intro N. destruct (beq_case s t) as [(E & _)|(_ & E)]; [destruct (N E)|exact E]. Qed.

Lemma text_is media f : text_name media f -> is_format (lit media) f = true.
Proof. intros [-> | ->]; [reflexivity|]. apply beq_same. Qed.
Lemma text_exactly media : is_exactly (lit media) (Some (lit media)) = true.
Proof. apply beq_same. Qed.
Lemma json_is tm jm f : lit jm <> lit tm -> json_name_of jm f -> is_format (lit tm) f = false /\ is_exactly (lit tm) f = false /\ is_exactly (lit jm) f = true.
Proof. intros N ->. cbn [is_format is_exactly]. rewrite (beq_differs _ _ N), beq_same. auto. Qed.
Lemma other_is tm jm f : other_name tm jm f -> is_format (lit tm) f = false /\ is_exactly (lit tm) f = false /\ is_exactly (lit jm) f = false.
Proof.
  intros (A & B). destruct f as [s|]; [|destruct A; left; reflexivity]. cbn [is_format is_exactly].
  assert (N : s <> lit tm) by (intros ->; apply A; right; reflexivity). assert (M : s <> lit jm) by (intros ->; apply B; reflexivity).
  rewrite (beq_differs _ _ N), (beq_differs _ _ M). auto.
Qed.
Lemma cal_names : lit "application/calendar+json" <> lit "text/calendar".
Proof. discriminate. Qed.
Lemma card_names : lit "application/vcard+json" <> lit "text/vcard".
Proof. discriminate. Qed.
