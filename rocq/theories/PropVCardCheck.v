(** C77: validation and duplicates of vCards. *)
From Coq Require Import Sorting.Permutation.
From Verif Require Import PyBase ParserCtx TextModel LineModel PropertyModel PropertySpec ComponentModel VCardModel VCardSpec VCardCheckModel VCardCheckSpec VCardCheckProofs VCardCheckProofs2
  PropProperty PropComponent PropVCard.

(** Card.validate() reports the problems of a card and no others, whatever doFix says, and repairs nothing; with doRaise it raises ValidationError if there are any. *)
Theorem C77_reports : forall order doFix c, (forall l, Permutation (order l) l) -> card_tidy c ->
  (forall p, in_card p c -> In (upper (cpName p)) [lit "VERSION"; lit "PROFILE"] -> has_text p) ->
  exists u, card_validate order doFix false c = Ok ([], u) /\ (forall m, In m u <-> card_problem c m) /\
    card_validate order doFix true c = if match u with [] => true | _ => false end then Ok ([], []) else Raise ValidationError.
Proof. exact validate_spec. Qed.
Print Assumptions C77_reports.

(** So it is for every card that was read. *)
Theorem C77_read : forall ctx fl text order doFix c, (forall l, Permutation (order l) l) ->
  card_parse ctx fl text = Some (Ok (Some c)) \/ (exists cs, cards_parse ctx fl text = Some (Ok cs) /\ In c cs) ->
  card_tidy c /\ exists u, card_validate order doFix false c = Ok ([], u) /\ (forall m, In m u <-> card_problem c m) /\
    card_validate order doFix true c = if match u with [] => true | _ => false end then Ok ([], []) else Raise ValidationError.
Proof.
  intros ctx fl text order doFix c O H. assert (R : read_in ctx fl c).
  { destruct H as [H|(cs & H & I)]; [exact (card_read _ _ _ _ H)|]. pose proof (cards_read _ _ _ _ H) as F. rewrite Forall_forall in F. exact (F c I). }
  split; [apply R|]. apply validate_spec; [exact O|apply R|]. intros p I. exact (read_texts ctx fl c p R I).
Qed.
Print Assumptions C77_read.

(** addProperty keeps a card in the state that is asked for above. *)
Theorem C77_tidy : forall p c, card_tidy c -> card_tidy (card_addProperty p c).
Proof. exact cadd_tidy. Qed.
Print Assumptions C77_tidy.

(** The duplicate of a card that was read has the same properties; those that the constructor puts into a new card are not among them. *)
Theorem C77_duplicate : forall ctx fl text c, cuts ctx ->
  card_parse ctx fl text = Some (Ok (Some c)) \/ (exists cs, cards_parse ctx fl text = Some (Ok cs) /\ In c cs) -> card_duplicate c = Ok c.
Proof.
  intros ctx fl text c C H. apply (read_duplicate ctx fl c C).
  destruct H as [H|(cs & H & I)]; [exact (card_read _ _ _ _ H)|]. pose proof (cards_read _ _ _ _ H) as F. rewrite Forall_forall in F. exact (F c I).
Qed.
Print Assumptions C77_duplicate.

(** ** Examples *)
Definition text_of_lines (l : list string) : bytes := crlines ([lit "BEGIN:VCARD"] ++ map lit l ++ [lit "END:VCARD"]).
Definition read_one (l : list string) : cprops := match card_parse default_ctx fl0 (text_of_lines l) with Some (Ok (Some c)) => c | _ => [] end.
Definition good_card : list string := ["version:3.0"; "N:Smith;Kim"; "fn:Kim Smith"; "FN:Kim S."; "PROFILE:vcard"; "BDAY:1990-01-31"]%string.
Definition bad_card : list string := ["version:4.0"; "N:Smith;Kim"; "n:Jones"; "UID:1"; "uid:2"; "Profile:x"]%string.
Definition other_card : list string := ["VERSION:3.0"; "BDAY:1990-01-31"; "BDAY:1990-02-01"; "PROFILE;VALUE=uri:VCARD"; "FN:x"]%string.
Lemma same_order : forall l : list (list cprop), Permutation ((fun l => l) l) l.
Proof. intro l. apply Permutation_refl. Qed.
Example C77_reports_ex : card_tidy (read_one bad_card) /\ card_validate (fun l => l) true false (read_one bad_card) = Ok ([],
   [lit "[VCARD] Missing or too many required property: N"; lit "[VCARD] Too many properties present: UID"; lit "[VCARD] Missing required property: FN";
    lit "[VCARD] Property value incorrect: VERSION"; lit "[VCARD] Property value incorrect: PROFILE"]) /\
  card_validate (fun l => l) true true (read_one bad_card) = Raise ValidationError /\
  card_validate (fun l => l) true false (read_one other_card) = Ok ([], [lit "[VCARD] Missing or too many required property: N"; lit "[VCARD] Too many properties present: BDAY"]).
Proof.
  split; [|repeat split; vm_compute; reflexivity]. eapply (C77_read default_ctx fl0 (text_of_lines bad_card) (fun l => l) true); [exact same_order|]. left. vm_compute. reflexivity.
Qed.
Example C77_read_ex : exists c, card_parse default_ctx fl0 (text_of_lines good_card) = Some (Ok (Some c)) /\ map fst c = [lit "VERSION"; lit "N"; lit "FN"; lit "PROFILE"; lit "BDAY"] /\
  card_validate (fun l => l) false true c = Ok ([], []).
Proof. eexists. split; [vm_compute; reflexivity|]. split; vm_compute; reflexivity. Qed.
Example C77_tidy_ex : card_tidy (read_one good_card) /\ card_tidy (card_addProperty nick0 (read_one good_card)) /\ map fst (card_addProperty nick0 (read_one good_card)) = map fst (read_one good_card) ++ [lit "NICKNAME"].
Proof.
  assert (T : card_tidy (read_one good_card)) by (eapply (C77_read default_ctx fl0 (text_of_lines good_card) (fun l => l) true); [exact same_order|]; left; vm_compute; reflexivity).
  split; [exact T|]. split; [apply C77_tidy, T|vm_compute; reflexivity].
Qed.
Example C77_duplicate_ex : cuts default_ctx /\ card_duplicate (read_one good_card) = Ok (read_one good_card) /\ List.length (read_one good_card) = 5%nat /\ card_get (lit "PRODID") (read_one good_card) = [].
Proof. split; [left; reflexivity|]. repeat split; vm_compute; reflexivity. Qed.

(** ** What is not so *)
(** A new card is not valid: its default properties are not those that were meant (C70), and it cannot be duplicated either. *)
Theorem C77_default_refuted : card_validate (fun l => l) true false card_default = Ok ([],
    [lit "[VCARD] Missing or too many required property: VERSION"; lit "[VCARD] Missing or too many required property: N"; lit "[VCARD] Missing required property: FN"]) /\
  card_duplicate card_default = Raise AttributeError.
Proof. split; vm_compute; reflexivity. Qed.
Print Assumptions C77_default_refuted.
(** Reading checks the version only if its name is in upper case; so a card of another version can be read, of which validate() says that it is wrong. *)
Theorem C77_version_refuted : exists text c, card_parse default_ctx fl0 text = Some (Ok (Some c)) /\ cards_parse default_ctx fl0 text = Some (Ok [c]) /\
  card_validate (fun l => l) false false c = Ok ([], [lit "[VCARD] Property value incorrect: VERSION"]) /\
  card_parse default_ctx fl0 (text_of_lines ["VERSION:4.0"; "N:x"; "FN:x"]%string) = Some (Raise InvalidData).
Proof.
  exists (text_of_lines ["Version:4.0"; "N:x"; "FN:x"]%string). eexists. split; [vm_compute; reflexivity|]. split; [vm_compute; reflexivity|]. split; vm_compute; reflexivity.
Qed.
Print Assumptions C77_version_refuted.
(** A card that was made by the caller may hold a VERSION without a text; then validate() raises another exception. *)
Theorem C77_total_refuted : exists c, card_tidy c /\ card_validate (fun l => l) false false c = Raise AttributeError.
Proof.
  exists (card0 [mkCProp None (lit "VERSION") [] (Some (CSingle (CItem (VPlain PUnknown None))))]). split; [|vm_compute; reflexivity]. apply C77_tidy. split; constructor.
Qed.
Print Assumptions C77_total_refuted.
