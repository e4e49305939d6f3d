(** Properties of the JSON (jCal) form: C63. *)
From Verif Require Import PyBase PyProofs ParserCtx TextModel LineModel LineSpec DateTimeModel DateTimeSpec2 DurationModel RecurModel RecurSpec
  PropertyModel PropertySpec ComponentModel ComponentSpec JsonModel JsonSpec JsonProofs2 JsonProofs3 PropComponent.

(** For the examples: floats are integers. *)
Definition nm0 : jnums := mkNums Some Some (fun x => negb (x =? 0)).
Definition from_line (s : bytes) : res prop := prop_parse default_ctx fl0 s.
Definition from_json : json -> res prop := prop_parseJSON default_ctx fl0 nm0.

(** A property is written as JSON which is read, whatever the order of the members of its objects, as a property with the
    same parameters other than VALUE and the same value of the same type. *)
Theorem C63_property : forall ctx fl nm p, prop_json_ok p ->
  exists j, prop_writeJSON p = Ok j /\ forall j', reordered j j' -> exists q, prop_parseJSON ctx fl nm j' = Ok q /\ same_json p q.
Proof.
  intros ctx fl nm p H. destruct (prop_json_read ctx fl nm p H) as (j & J & R). exists j. split; [exact J|].
  intros j' Q. destruct (R j' Q) as (q & P & M & _). exists q. split; assumption.
Qed.
Print Assumptions C63_property.

Lemma ascii_check s : forallb (fun c => (nat_of_ascii c <? 128)%nat) s = true -> ascii_text s.
Proof. intro H. apply Forall_forall. intros c Hc. rewrite forallb_forall in H. apply Nat.ltb_lt, H, Hc. Qed.
Ltac ascii_name := apply ascii_check; vm_compute; reflexivity.
Ltac json_known := split; [no_in|split; [discriminate|split; [discriminate|split; [discriminate|split; [discriminate|
  first [intros _; discriminate | let t := fresh in let H := fresh in intros [t H] _; revert H; destruct t; no_in]]]]]].
Definition rome : prop := mkProp (lit "dtstart")
  [(lit "TZID", [(lit "tzid", [lit "Europe/Rome"])]); (lit "X-A", [(lit "x-a", [lit "one"])])]
  (Some (Single (VDateTime (newDateTime 2020 1 31 9 30 0 false (TzName (lit "Europe/Rome")))))).
Definition rome_json (ps : list (bytes * json)) : json :=
  JArr [JText (lit "dtstart"); JObj ps; JText (lit "date-time"); JText (lit "2020-01-31T09:30:00")].
Example C63_property_ex : prop_json_ok rome /\
  prop_writeJSON rome = Ok (rome_json [(lit "tzid", JText (lit "Europe/Rome")); (lit "x-a", JText (lit "one"))]) /\
  exists q, from_json (rome_json [(lit "x-a", JText (lit "one")); (lit "tzid", JText (lit "Europe/Rome"))]) = Ok q /\
    same_json rome q /\ pValue q = pValue rome /\ map fst (pParams q) = [lit "X-A"; lit "TZID"].
Proof.
  assert (H : prop_json_ok rome).
  { split.
    - split; [repeat constructor; no_in|]. constructor; [|constructor; [|constructor]];
      (split; [repeat constructor|intros _; eexists; eexists; split; [reflexivity|]; ascii_name]).
    - eexists. exists (Some (lit "Europe/Rome")). split; [reflexivity|]. split; [eapply PropertySpec.tz_some; reflexivity|].
      split; [json_known|]. split; [vm_compute; intuition discriminate|]. right. split; reflexivity. }
  split; [exact H|]. split; [vm_compute; reflexivity|].
  destruct (C63_property default_ctx fl0 nm0 rome H) as (j & J & R).
  assert (E : j = rome_json [(lit "tzid", JText (lit "Europe/Rome")); (lit "x-a", JText (lit "one"))]).
  { apply (PropertyProofs3.Ok_inj _ _). rewrite <- J. vm_compute. reflexivity. }
  subst j. destruct (R (rome_json [(lit "x-a", JText (lit "one")); (lit "tzid", JText (lit "Europe/Rome"))])) as (q & P & S).
  { constructor. constructor; [constructor|]. constructor; [|repeat constructor]. eapply re_obj; [|apply perm_swap]. repeat constructor. }
  exists q. split; [exact P|]. split; [exact S|]. clear S R J. vm_compute in P. apply PropertyProofs3.Ok_inj in P. subst q. split; [vm_compute; reflexivity|vm_compute; reflexivity].
Qed.

(** A calendar of properties and components nested to any depth is written as JSON which is read, whatever the order of the
    members of its objects, as a calendar with the same properties of every name in the same order and the same components. *)
Theorem C63_calendar : forall tzo ctx fl nm uuids c, calendar_json_ok c ->
  exists j, writeJSON c = Ok j /\ forall j', reordered j j' ->
    exists c', parseJSONData ctx fl nm tzo uuids j' = Ok c' /\ same_json_tree c c'.
Proof. intros tzo ctx fl nm uuids c H. exact (calendar_json_round tzo ctx fl nm uuids c H). Qed.
Print Assumptions C63_calendar.

Ltac jfine := constructor; [split; [reflexivity|split; [split; constructor|eexists; exists None;
  split; [reflexivity|split; [apply PropertySpec.tz_none; reflexivity|split; [json_known|]]]]]|constructor].
Ltac jprops := split; [repeat constructor; no_in|].
Ltac upper_type := split; [no_in|split; [discriminate|split; [reflexivity|ascii_name]]].
Lemma cal1_json_ok : calendar_json_ok cal1.
Proof.
  split; [reflexivity|]. split; [jprops; constructor; [jfine; exact I|constructor]|].
  constructor; [|constructor; [|constructor; [|constructor]]].
  - constructor; [upper_type|jprops; constructor; [jfine; discriminate|constructor]|exact I|repeat constructor|].
    constructor; [|constructor]. constructor; [upper_type|jprops; constructor; [jfine; discriminate|constructor]|exact I|constructor|constructor].
  - constructor; [exact I| |exact I|repeat constructor|].
    + jprops. constructor; [jfine; exact I|constructor; [jfine|constructor; [jfine; exact I|constructor]]].
      split; [vm_compute; intuition discriminate|right; reflexivity].
    + constructor; [|constructor]. constructor; [exact I| |exact I|constructor|constructor].
      jprops. constructor; [jfine; exact I|constructor; [jfine|constructor]]. right. vm_compute. intuition discriminate.
  - constructor; [exact I| |exact I|constructor|constructor].
    jprops. constructor; [jfine; exact I|constructor; [jfine|constructor; [jfine; exact I|constructor]]].
    split; [vm_compute; intuition discriminate|right; reflexivity].
Qed.
Definition jprop (name t : bytes) (v : json) : json := JArr [JText name; JObj []; JText t; v].
Definition jevent (uid : bytes) (subs : list json) : json :=
  JArr [JText (lit "vevent"); JArr [jprop (lit "uid") (lit "text") (JText uid);
    jprop (lit "dtstart") (lit "date-time") (JText (lit "2020-01-31T09:30:00Z")); jprop (lit "summary") (lit "text") (JText (lit "one, two"))]; JArr subs].
Definition json1 : json :=
  JArr [JText (lit "vcalendar"); JArr [jprop (lit "version") (lit "text") (JText (lit "2.0"))];
    JArr [jevent (lit "a") [];
          jevent (lit "b") [JArr [JText (lit "valarm"); JArr [jprop (lit "action") (lit "text") (JText (lit "DISPLAY"));
            jprop (lit "trigger") (lit "duration") (JText (lit "-PT15M"))]; JArr []]];
          JArr [JText (lit "x-outer"); JArr [jprop (lit "x-a") (lit "unknown") (JText (lit "1"))];
            JArr [JArr [JText (lit "x-inner"); JArr [jprop (lit "x-a") (lit "unknown") (JText (lit "1"))]; JArr []]]]]].
Example C63_calendar_ex : calendar_json_ok cal1 /\ writeJSON cal1 = Ok json1 /\
  exists c', parseJSONData default_ctx fl0 nm0 tz_none uuids0 json1 = Ok c' /\ generate fl0 c' = Some (Ok text1).
Proof. split; [exact cal1_json_ok|]. split; [vm_compute; reflexivity|]. eexists. split; [vm_compute; reflexivity|vm_compute; reflexivity]. Qed.

(** What goes wrong on reading is reported with one of the four exceptions of the library (RuntimeError: outside the model). *)
Theorem C63_errors : forall tzo ctx fl nm uuids j e, parseJSONData ctx fl nm tzo uuids j = Raise e ->
  In e [InvalidData; InvalidComponent; InvalidProperty; ValidationError] \/ e = RuntimeError.
Proof.
  intros tzo ctx fl nm uuids j e. unfold parseJSONData, guarded.
  match goal with |- match ?x with _ => _ end = _ -> _ => destruct x as [c|e0] end; [discriminate|].
  destruct e0; cbn; intro H; injection H as <-; tauto.
Qed.
Print Assumptions C63_errors.
Example C63_errors_ex :
  parseJSONData default_ctx fl0 nm0 tz_none uuids0 (JArr [JText (lit "vcalendar"); JArr []]) = Raise InvalidComponent /\
  parseJSONData default_ctx fl0 nm0 tz_none uuids0 (JArr [JText (lit "vcalendar"); JArr [jprop (lit "version") (lit "text") (JNum 2)]; JArr []]) =
    Raise InvalidProperty /\
  parseJSONData default_ctx fl0 nm0 tz_none uuids0 (JArr [JNull; JArr []; JArr [JArr [JText (lit "vevent"); JArr []; JArr [jevent (lit "a") []]]]]) =
    Raise InvalidComponent.
Proof. split; [|split]; vm_compute; reflexivity. Qed.

(** Without the conditions it fails, on properties read from text: a parameter with two values is written as a list, which is
    not accepted on reading. *)
Theorem C63_two_values_refuted : exists line p j, from_line line = Ok p /\ prop_writeJSON p = Ok j /\ from_json j = Raise InvalidProperty.
Proof.
  exists (lit "ATTENDEE;MEMBER=" ++ [DQUOTE] ++ lit "a" ++ [DQUOTE] ++ lit "," ++ [DQUOTE] ++ lit "b" ++ [DQUOTE] ++ lit ":c").
  eexists. eexists. split; [vm_compute; reflexivity|]. split; [vm_compute; reflexivity|vm_compute; reflexivity].
Qed.
Print Assumptions C63_two_values_refuted.
(** Of two parameters of the same name only the second is written. *)
Theorem C63_two_parameters_refuted : exists line p j q, from_line line = Ok p /\ prop_writeJSON p = Ok j /\ from_json j = Ok q /\
  (List.length (lookup (lit "X-B") (pParams p)) = 2)%nat /\ lookup (lit "X-B") (pParams q) = [(lit "X-B", [lit "2"])].
Proof.
  exists (lit "X-A;X-B=1;X-B=2:v"). do 3 eexists. split; [vm_compute; reflexivity|]. split; [vm_compute; reflexivity|].
  split; [vm_compute; reflexivity|]. split; reflexivity.
Qed.
Print Assumptions C63_two_parameters_refuted.
(** A TIME value of a property that has another type by default is written with the type "unknown" and cannot be read. *)
Theorem C63_time_refuted : exists line p j, from_line line = Ok p /\ prop_writeJSON p = Ok j /\ from_json j = Raise InvalidProperty.
Proof. exists (lit "DTSTART;VALUE=TIME:100000"). do 2 eexists. split; [vm_compute; reflexivity|]. split; [vm_compute; reflexivity|vm_compute; reflexivity]. Qed.
Print Assumptions C63_time_refuted.
(** A list of TIME values cannot be written. *)
Theorem C63_time_list_refuted : exists line p, from_line line = Ok p /\ prop_writeJSON p = Raise KeyError.
Proof. exists (lit "RDATE;VALUE=TIME:100000"). eexists. split; [vm_compute; reflexivity|vm_compute; reflexivity]. Qed.
Print Assumptions C63_time_list_refuted.
(** The type of a value which the library does not know is lost. *)
Theorem C63_unknown_type_refuted : exists line p j q, from_line line = Ok p /\ prop_writeJSON p = Ok j /\ from_json j = Ok q /\
  lookup (lit "VALUE") (pParams p) = [(lit "VALUE", [lit "X-FOO"])] /\ lookup (lit "VALUE") (pParams q) = [].
Proof.
  exists (lit "X-COLOR;VALUE=X-FOO:a"). do 3 eexists. split; [vm_compute; reflexivity|]. split; [vm_compute; reflexivity|].
  split; [vm_compute; reflexivity|]. split; reflexivity.
Qed.
Print Assumptions C63_unknown_type_refuted.

(** Reading JSON checks less than reading text: any name does for the calendar, and it needs no VERSION. *)
Theorem C63_checks_refuted : exists j c text, parseJSONData default_ctx fl0 nm0 tz_none uuids0 j = Ok c /\ (exists r, j = JArr (JText (lit "vcard") :: r)) /\
  generate fl0 c = Some (Ok text) /\ parseTextData tz_none default_ctx fl0 uuids0 text = Raise InvalidData.
Proof.
  exists (JArr [JText (lit "vcard"); JArr []; JArr [jevent (lit "a") []]]). do 2 eexists. split; [vm_compute; reflexivity|].
  split; [eexists; reflexivity|]. split; [vm_compute; reflexivity|vm_compute; reflexivity].
Qed.
Print Assumptions C63_checks_refuted.
(** A REQUEST-STATUS value that is a string is taken apart into its characters; further values of a property with one value
    are dropped. *)
Theorem C63_status_refuted : exists j p, from_json j = Ok p /\ j = jprop (lit "request-status") (lit "text") (JText (lit "2.0;ok")) /\
  pValue p = Some (Single (VStatus [lit "2"; lit "."; lit "0"; lit ";"; lit "o"; lit "k"])).
Proof.
  exists (jprop (lit "request-status") (lit "text") (JText (lit "2.0;ok"))). eexists. split; [vm_compute; reflexivity|]. split; reflexivity.
Qed.
Print Assumptions C63_status_refuted.
Theorem C63_extra_values_refuted : exists j p, from_json j = Ok p /\
  j = JArr [JText (lit "summary"); JObj []; JText (lit "text"); JText (lit "one"); JText (lit "two")] /\ pValue p = Some (Single (VText (lit "one"))).
Proof.
  exists (JArr [JText (lit "summary"); JObj []; JText (lit "text"); JText (lit "one"); JText (lit "two")]). eexists.
  split; [vm_compute; reflexivity|]. split; reflexivity.
Qed.
Print Assumptions C63_extra_values_refuted.
