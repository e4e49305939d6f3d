(** C79: the tool that checks files with calendars and vCards (validator.py). *)
From Coq Require Import Permutation.
From Verif Require Import PyBase PyProofs ParserCtx LineModel ComponentModel ComponentSpec VCardModel PropComponent PropValidate PropVCard PropVCardCheck ToolModel ToolSpec ToolProofs.

(** A file with BEGIN:VCALENDAR in it that is read, by the strict rules of allRaise, as a calendar: one line that tells all the problems of the calendar and its components,
    or that there are none, then a line for every control character, in order. *)
Theorem C79_calendar : forall tzo ctx fl uuids order card_order data c, (forall l, Permutation (order l) l) ->
  has_text_in data (lit "BEGIN:VCALENDAR") -> parseTextData tzo (allRaise ctx) fl uuids data = Ok (Some c) ->
  exists m l, validator tzo ctx fl uuids order card_order data = Some (m :: l, Returns) /\
    tells (fun p => exists o, tree_problem None c o p) m /\ all_controls data l.
Proof.
  intros tzo ctx fl uuids order card_order data c O H P. apply contains_iff in H. destruct (C55_asked _ _ _ _ _ _ order P O) as (u & V & U).
  unfold validator. rewrite H, P, V. do 2 eexists. split; [reflexivity|]. split; [apply verdict_spec; exact U|apply controls_spec].
Qed.
Print Assumptions C79_calendar.
(** Otherwise a file with BEGIN:VCARD in it, in the same way. *)
Theorem C79_card : forall tzo ctx fl uuids order card_order data c, (forall l, Permutation (card_order l) l) ->
  ~ has_text_in data (lit "BEGIN:VCALENDAR") -> has_text_in data (lit "BEGIN:VCARD") -> card_parse (allRaise ctx) fl data = Some (Ok (Some c)) ->
  exists m l, validator tzo ctx fl uuids order card_order data = Some (m :: l, Returns) /\ tells (card_problem c) m /\ all_controls data l.
Proof.
  intros tzo ctx fl uuids order card_order data c O N H P. rewrite <- contains_iff in N, H. apply not_true_is_false in N.
  destruct (C77_read _ _ _ card_order false c O (or_introl P)) as (_ & u & V & U & _).
  unfold validator. rewrite N, H, P, V. do 2 eexists. split; [reflexivity|]. split; [apply verdict_spec; exact U|apply controls_spec].
Qed.
Print Assumptions C79_card.
(** If the file is not read because of an error of the library, this is said and the tool exits with 1; so it does if there is neither of the two words. *)
Theorem C79_refused : forall tzo ctx fl uuids order card_order data,
  (forall e, has_text_in data (lit "BEGIN:VCALENDAR") -> parseTextData tzo (allRaise ctx) fl uuids data = Raise e -> library_error e ->
     validator tzo ctx fl uuids order card_order data = Some ([NotICalendar e], Exits 1)) /\
  (forall e, ~ has_text_in data (lit "BEGIN:VCALENDAR") -> has_text_in data (lit "BEGIN:VCARD") -> card_parse (allRaise ctx) fl data = Some (Raise e) ->
     validator tzo ctx fl uuids order card_order data = Some ([NotVCard e], Exits 1)) /\
  (~ has_text_in data (lit "BEGIN:VCALENDAR") -> ~ has_text_in data (lit "BEGIN:VCARD") -> validator tzo ctx fl uuids order card_order data = Some ([NothingFound], Exits 1)).
Proof.
  intros. unfold validator. split; [|split].
  - intros e H P E. apply contains_iff in H. apply is_error_iff in E. rewrite H, P, E. reflexivity.
  - intros e N H P. rewrite <- contains_iff in N, H. apply not_true_is_false in N. rewrite N, H, P. destruct (proj2 (C70_errors _ _ _ e) P) as [-> | ->]; reflexivity.
  - intros N H. rewrite <- contains_iff in N, H. apply not_true_is_false in N, H. rewrite N, H. reflexivity.
Qed.
Print Assumptions C79_refused.
(** There is no other end: the tool returns only from a file that was read, exits only with 1, and an exception gets through only from reading a calendar. *)
Theorem C79_ends : forall tzo ctx fl uuids order card_order data ms e, (forall l, Permutation (order l) l) -> (forall l, Permutation (card_order l) l) ->
  validator tzo ctx fl uuids order card_order data = Some (ms, e) ->
  match e with
  | Returns => (exists c, has_text_in data (lit "BEGIN:VCALENDAR") /\ parseTextData tzo (allRaise ctx) fl uuids data = Ok (Some c)) \/
               (exists c, ~ has_text_in data (lit "BEGIN:VCALENDAR") /\ has_text_in data (lit "BEGIN:VCARD") /\ card_parse (allRaise ctx) fl data = Some (Ok (Some c)))
  | Exits n => n = 1 /\ List.length ms = 1%nat
  | Escapes x => ms = [] /\ has_text_in data (lit "BEGIN:VCALENDAR") /\ parseTextData tzo (allRaise ctx) fl uuids data = Raise x /\ ~ library_error x
  end.
Proof.
  intros tzo ctx fl uuids order card_order data ms e O O' H. unfold validator in H.
  pose proof (contains_iff data (lit "BEGIN:VCALENDAR")) as K. pose proof (contains_iff data (lit "BEGIN:VCARD")) as K'.
  destruct (contains data (lit "BEGIN:VCALENDAR")) eqn:C.
  - destruct (parseTextData tzo (allRaise ctx) fl uuids data) as [[c|]|x] eqn:P.
    + destruct (C55_asked _ _ _ _ _ _ order P O) as (u & V & U). rewrite V in H. injection H as <- <-. left. exists c. split; [apply K; reflexivity|reflexivity].
    + exfalso. refine (calendar_found tzo (allRaise ctx) fl uuids data eq_refl _ P). apply (mem_text data (lit "BEGIN:VCALENDAR")); [discriminate|]. apply contains_iff. exact C.
    + destruct (is_error x) eqn:E; injection H as <- <-; [split; reflexivity|]. split; [reflexivity|]. split; [apply K; reflexivity|]. split; [reflexivity|]. rewrite <- is_error_iff, E. discriminate.
  - destruct (contains data (lit "BEGIN:VCARD")) eqn:D; [|injection H as <- <-; split; reflexivity].
    destruct (card_parse (allRaise ctx) fl data) as [[[c|]|x]|] eqn:P; [| | |discriminate H].
    + destruct (C77_read _ _ _ card_order false c O' (or_introl P)) as (_ & u & V & _). rewrite V in H. injection H as <- <-. right. exists c. split; [rewrite <- K; discriminate|]. split; [apply K'; reflexivity|reflexivity].
    + exfalso. refine (card_found (allRaise ctx) fl data eq_refl _ P). apply (mem_text data (lit "BEGIN:VCARD")); [discriminate|]. apply contains_iff. exact D.
    + assert (E : is_error x = true) by (destruct (proj2 (C70_errors _ _ _ x) P) as [-> | ->]; reflexivity). rewrite E in H. injection H as <- <-. split; reflexivity.
Qed.
Print Assumptions C79_ends.

(** ** Examples *)
Definition check (data : bytes) : option (list message * ending) := validator PropComponent.tz_none default_ctx fl0 uuids0 (fun l => l) (fun l => l) data.
Definition good_cal : list bytes := [lit "BEGIN:VCALENDAR"; lit "VERSION:2.0"; lit "PRODID:me"; lit "BEGIN:VEVENT"; lit "UID:1"; lit "DTSTAMP:20200101T000000Z"; lit "DTSTART:20200102"; lit "END:VEVENT"; lit "END:VCALENDAR"].
Example C79_calendar_ex : check (lines good_cal) = Some ([NoProblems], Returns) /\
  check (lines [lit "BEGIN:VCALENDAR"; lit "VERSION:2.0"; lit "X-A:a" ++ [ascii_of_nat 7; ascii_of_nat 9] ++ lit "b"; lit "END:VCALENDAR"]) =
    Some ([Problems [lit "[VCALENDAR] Missing or too many required property: PRODID"]; Control 7 35], Returns).
Proof. split; vm_compute; reflexivity. Qed.
Example C79_card_ex : ~ has_text_in (text_of_lines good_card) (lit "BEGIN:VCALENDAR") /\ check (text_of_lines good_card) = Some ([NoProblems], Returns) /\
  exists l, check (text_of_lines bad_card) = Some ([Problems l], Returns) /\ List.length l = 5%nat.
Proof. split; [rewrite <- contains_iff; vm_compute; discriminate|]. split; [vm_compute; reflexivity|]. eexists. split; [vm_compute; reflexivity|]. reflexivity. Qed.
(** The strict rules: a blank line is not allowed. *)
Example C79_refused_ex : check (lines ([] :: good_cal)) = Some ([NotICalendar InvalidData], Exits 1) /\ check (lit "BEGIN:VCARD") = Some ([NotVCard InvalidData], Exits 1) /\
  check (lit "begin:vcard") = Some ([NothingFound], Exits 1).
Proof. repeat split; vm_compute; reflexivity. Qed.
Example C79_ends_ex : (forall l : list (list cprop), Permutation ((fun l => l) l) l) /\ check (lines [lit "BEGIN:VCALENDAR"; lit "VERSION:2.0"]) = Some ([NotICalendar InvalidData], Exits 1).
Proof. split; [intro; apply Permutation_refl|vm_compute; reflexivity]. Qed.

(** ** What is not so *)
(** A component in the wrong place ends the tool with an exception. *)
Theorem C79_escapes_refuted : exists data e, check data = Some ([], Escapes e) /\ has_text_in data (lit "BEGIN:VCALENDAR").
Proof.
  exists (lines [lit "BEGIN:VCALENDAR"; lit "VERSION:2.0"; lit "BEGIN:VTODO"; lit "BEGIN:VEVENT"; lit "END:VEVENT"; lit "END:VTODO"; lit "END:VCALENDAR"]).
  eexists. split; [vm_compute; reflexivity|]. apply contains_iff. vm_compute. reflexivity.
Qed.
Print Assumptions C79_escapes_refuted.
(** A vCard that has the word BEGIN:VCALENDAR in a note is taken for a calendar, though it has no problems. *)
Theorem C79_word_refuted : exists data c, card_parse (allRaise default_ctx) fl0 data = Some (Ok (Some c)) /\ (forall p, ~ card_problem c p) /\ check data = Some ([NotICalendar InvalidData], Exits 1).
Proof.
  exists (text_of_lines (good_card ++ ["NOTE:It has BEGIN:VCALENDAR"%string])). eexists. split; [vm_compute; reflexivity|]. split; [|vm_compute; reflexivity].
  match goal with |- forall p, ~ card_problem ?c p => set (c0 := c) end.
  assert (P : card_parse (allRaise default_ctx) fl0 (text_of_lines (good_card ++ ["NOTE:It has BEGIN:VCALENDAR"%string])) = Some (Ok (Some c0))) by (vm_compute; reflexivity).
  destruct (C77_read _ _ _ (fun l => l) false c0 same_order (or_introl P)) as (_ & u & V & U & _).
  assert (card_validate (fun l => l) false false c0 = Ok ([], [])) as W by (vm_compute; reflexivity). rewrite W in V. injection V as <-. intros p X. apply U in X. destruct X.
Qed.
Print Assumptions C79_word_refuted.
(** A file of two cards without problems has problems: they are read as one. *)
Theorem C79_cards_refuted : exists data cs l, cards_parse (allRaise default_ctx) fl0 data = Some (Ok cs) /\ List.length cs = 2%nat /\
  Forall (fun c => card_validate (fun l => l) false false c = Ok ([], [])) cs /\ check data = Some ([Problems l], Returns) /\ In (lit "[VCARD] Missing or too many required property: N") l.
Proof.
  exists (text_of_lines good_card ++ text_of_lines good_card). do 2 eexists. split; [vm_compute; reflexivity|]. split; [reflexivity|].
  split; [constructor; [vm_compute; reflexivity|constructor; [vm_compute; reflexivity|constructor]]|]. split; [vm_compute; reflexivity|]. right. left. reflexivity.
Qed.
Print Assumptions C79_cards_refuted.
