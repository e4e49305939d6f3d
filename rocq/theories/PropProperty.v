(** Properties of typed iCalendar properties: C52. *)
From Verif Require Import PyBase ParserCtx LineModel LineSpec DateTimeModel DateTimeSpec2 PropertyModel PropertySpec PropertyProofs3.

(** For the examples: floats are integers. *)
Definition fl0 : floats := mkFloats (fun s => match pyint s with Ok n => Some n | Raise _ => None end) pystr Z.eqb.
(** Read a line, write what was read, and read that. *)
Definition reread (ctx : pctx) (text : bytes) : res (prop * bytes * res prop) :=
  do p <- prop_parse ctx fl0 text; do text' <- prop_line fl0 p; Ok (p, text', prop_parse ctx fl0 text').
Definition ny_time (h : Z) : dt := setTimezoneID (newDateTime 2020 1 31 h 30 0 false TzNone) (TzName (lit "America/New_York")).
Definition ny_param : bytes * list param := (lit "TZID", [(lit "TZID", [lit "America/New_York"])]).

(** The line written for a property is read back as the same property, and that is written as the same line. *)
Theorem C52_round_trip : forall ctx fl p, prop_ok ctx fl p ->
  exists text q, prop_line fl p = Ok text /\ prop_parse ctx fl text = Ok q /\ same_prop p q /\ prop_line fl q = Ok text.
Proof. exact prop_round. Qed.
Print Assumptions C52_round_trip.
(** Two excluded times in New York, with a VALUE parameter that is not needed. *)
Example C52_round_trip_ex :
  let p := mkProp (lit "EXDATE") [(lit "VALUE", [(lit "value", [lit "DATE-TIME"])]); ny_param]
             (Some (Multi T_DATETIME [VDateTime (ny_time 9); VDateTime (ny_time 21)])) in
  prop_ok default_ctx fl0 p /\
  prop_line fl0 p = Ok (lit "EXDATE;TZID=America/New_York:20200131T093000,20200131T213000") /\
  exists q, prop_parse default_ctx fl0 (lit "EXDATE;TZID=America/New_York:20200131T093000,20200131T213000") = Ok q /\
    pValue q = pValue p.
Proof.
  split; [|split; [vm_compute; reflexivity|eexists; split; vm_compute; reflexivity]].
  split; [unfold name_ok, starts_ok; cbn; repeat split; try discriminate; intuition discriminate|]. split.
  - split; [repeat constructor; cbn; intuition discriminate|].
    repeat constructor; cbn; unfold needs_quotes; cbn; try discriminate; try (intuition discriminate);
      try (intros; reflexivity); try (intros [H|[H|H]]; exfalso; revert H; cbn; intuition discriminate).
  - eexists. exists (Some (lit "America/New_York")). split; [reflexivity|]. split; [eapply tz_some; reflexivity|]. split.
    + split; [cbn; tauto|]. split; [split; intro H; discriminate H|]. split; [split; intro H; discriminate H|].
      split; [discriminate|]. intros H _. apply (H T_DATETIME). cbn. tauto.
    + split; [discriminate|]. constructor; [|constructor; [|constructor]];
        (split; [exact I|]; split; [split; [vm_compute; intuition discriminate|right; split; reflexivity]|];
         eexists; split; [vm_compute; reflexivity|cbn; intuition discriminate]).
Qed.

(** The value has the type that the VALUE parameter names, or else the default type of the property, RFC 5545
    sections 3.2.20, 3.7 and 3.8; and it is a list exactly for the properties that have lists. *)
Theorem C52_types : forall ctx fl text p, prop_parse ctx fl text = Ok p ->
  exists t, typed (pName p) (pParams p) t /\
  let s := structured (pName p) t in
  if existsb (beq (upper (pName p))) list_names
  then exists l, pValue p = Some (Multi s l) /\ Forall (made_by s) l
  else exists i, pValue p = Some (Single i) /\ made_by s i.
Proof. exact prop_typed. Qed.
Print Assumptions C52_types.
(** An absolute trigger, and an element of a list that is no date-time. *)
Example C52_types_ex :
  (exists p, prop_parse default_ctx fl0 (lit "Trigger;Value=DATE-TIME;X-A=1:20200131T093000Z") = Ok p /\
    typed (pName p) (pParams p) T_DATETIME /\
    pValue p = Some (Single (VDateTime (newDateTime 2020 1 31 9 30 0 true TzNone)))) /\
  prop_parse default_ctx fl0 (lit "TRIGGER:20200131T093000Z") = Raise InvalidProperty /\
  prop_parse default_ctx fl0 (lit "EXDATE:20200131T093000Z,x") = Raise InvalidProperty.
Proof.
  split; [|split; vm_compute; reflexivity]. eexists. split; [vm_compute; reflexivity|]. split; [|vm_compute; reflexivity].
  eapply ty_param; [reflexivity|apply vp_datetime].
Qed.

(** The VALUE parameter is compared with its case. *)
Theorem C52_value_case_refuted : exists text text' p,
  upper text' = upper text /\ prop_parse default_ctx fl0 text = Ok p /\
  prop_parse default_ctx fl0 text' = Raise InvalidProperty.
Proof.
  exists (lit "TRIGGER;VALUE=DATE-TIME:20200131T093000Z"), (lit "TRIGGER;VALUE=date-time:20200131T093000Z"). eexists.
  split; [vm_compute; reflexivity|]. split; vm_compute; reflexivity.
Qed.
Print Assumptions C52_value_case_refuted.

(** A text of a property with a name that is not known is not read back: VALUE=TEXT is left out. *)
Theorem C52_unknown_text_refuted : exists p text q,
  pValue p = Some (Single (VText (lit "a,b"))) /\ prop_line fl0 p = Ok text /\
  prop_parse default_ctx fl0 (lit "X-NOTE;VALUE=TEXT:a\,b") = Ok p /\ prop_parse default_ctx fl0 text = Ok q /\
  pValue q = Some (Single (VPlain PUnknown (Some (lit "a\,b")))).
Proof.
  exists (mkProp (lit "X-NOTE") [(lit "VALUE", [(lit "VALUE", [lit "TEXT"])])] (Some (Single (VText (lit "a,b"))))).
  do 2 eexists. split; [reflexivity|]. split; [vm_compute; reflexivity|]. split; [vm_compute; reflexivity|].
  split; [vm_compute; reflexivity|]. reflexivity.
Qed.
Print Assumptions C52_unknown_text_refuted.

(** VALUE=TIME (or BOOLEAN) is left out as well. *)
Theorem C52_no_class_refuted : exists p text q,
  prop_parse default_ctx fl0 (lit "SUMMARY;VALUE=TIME:a\,b") = Ok p /\ prop_line fl0 p = Ok text /\
  prop_parse default_ctx fl0 text = Ok q /\
  pValue p = Some (Single (VPlain PUnknown (Some (lit "a\,b")))) /\ pValue q = Some (Single (VText (lit "a,b"))).
Proof. do 3 eexists. split; [vm_compute; reflexivity|]. split; [vm_compute; reflexivity|]. split; [vm_compute; reflexivity|]. split; reflexivity. Qed.
Print Assumptions C52_no_class_refuted.

(** A comma inside a text of a list separates. *)
Theorem C52_comma_refuted : exists p text q,
  pName p = lit "CATEGORIES" /\ pValue p = Some (Multi T_TEXT [VText (lit "a,b")]) /\ prop_line fl0 p = Ok text /\
  prop_parse default_ctx fl0 text = Ok q /\ pValue q = Some (Multi T_TEXT [VText (lit "a"); VText (lit "b")]).
Proof.
  exists (mkProp (lit "CATEGORIES") [] (Some (Multi T_TEXT [VText (lit "a,b")]))). do 2 eexists.
  split; [reflexivity|]. split; [reflexivity|]. split; [vm_compute; reflexivity|]. split; [vm_compute; reflexivity|]. reflexivity.
Qed.
Print Assumptions C52_comma_refuted.

(** What is written for an accepted line can be rejected. *)
Theorem C52_geo_refuted : exists p text,
  prop_parse default_ctx fl0 (lit "GEO;VALUE=TEXT:here") = Ok p /\ prop_line fl0 p = Ok text /\
  prop_parse default_ctx fl0 text = Raise InvalidProperty.
Proof. do 2 eexists. split; [vm_compute; reflexivity|]. split; [vm_compute; reflexivity|]. vm_compute; reflexivity. Qed.
Print Assumptions C52_geo_refuted.

(** A line without a value separator is accepted for a name that is not known, and is written with one. *)
Theorem C52_no_separator_refuted : exists p q text,
  prop_parse default_ctx fl0 (lit "X-NOTE") = Ok p /\ prop_line fl0 p = Ok text /\ text = lit "X-NOTE:" /\
  prop_parse default_ctx fl0 text = Ok q /\
  pValue p = Some (Single (VPlain PUnknown None)) /\ pValue q = Some (Single (VPlain PUnknown (Some []))).
Proof.
  do 3 eexists. split; [vm_compute; reflexivity|]. split; [vm_compute; reflexivity|]. split; [reflexivity|].
  split; [vm_compute; reflexivity|]. split; reflexivity.
Qed.
Print Assumptions C52_no_separator_refuted.

(** A TZID parameter takes the place of the Z of a UTC time: another instant. *)
Theorem C52_utc_zone_refuted : exists p d,
  prop_parse default_ctx fl0 (lit "DTSTART;TZID=Europe/Paris:20200131T093000Z") = Ok p /\
  pValue p = Some (Single (VDateTime d)) /\ mTZUTC d = false /\ mTZID d = TzName (lit "Europe/Paris") /\
  prop_line fl0 p = Ok (lit "DTSTART;TZID=Europe/Paris:20200131T093000").
Proof. do 2 eexists. split; [vm_compute; reflexivity|]. split; [reflexivity|]. split; [reflexivity|]. split; [reflexivity|vm_compute; reflexivity]. Qed.
Print Assumptions C52_utc_zone_refuted.

(** The times of a period do not get the zone of the TZID parameter. *)
Theorem C52_period_zone_refuted : exists p q,
  prop_parse default_ctx fl0 (lit "RDATE;VALUE=PERIOD;TZID=Europe/Paris:20200131T093000/PT1H") = Ok p /\
  pValue p = Some (Multi T_PERIOD [VPeriod q]) /\ mTZUTC (pStart q) = false /\ mTZID (pStart q) = TzNone.
Proof. do 2 eexists. split; [vm_compute; reflexivity|]. split; [reflexivity|]. split; reflexivity. Qed.
Print Assumptions C52_period_zone_refuted.

(** With the strict policy a correct REQUEST-STATUS is rejected, whatever the context says otherwise. *)
Theorem C52_status_refuted : exists text p, prop_parse default_ctx fl0 text = Ok p /\
  pValue p = Some (Single (VStatus [lit "2.0"; lit "Success"])) /\
  forall ctx fl, INVALID_REQUEST_STATUS_VALUE ctx = PARSER_RAISE -> prop_parse ctx fl text = Raise InvalidProperty.
Proof.
  exists (lit "REQUEST-STATUS:2.0;Success"). eexists. split; [vm_compute; reflexivity|]. split; [reflexivity|].
  intros [] fl H; cbn in H; subst; vm_compute; reflexivity.
Qed.
Print Assumptions C52_status_refuted.

(** The first of several TZIDs counts, and they are written in alphabetical order. *)
Theorem C52_zone_order_refuted : exists p text q d e,
  prop_parse default_ctx fl0 (lit "DTSTART;TZID=b,a:20200131T093000") = Ok p /\ prop_line fl0 p = Ok text /\
  prop_parse default_ctx fl0 text = Ok q /\
  pValue p = Some (Single (VDateTime d)) /\ pValue q = Some (Single (VDateTime e)) /\
  mTZID d = TzName (lit "b") /\ mTZID e = TzName (lit "a").
Proof.
  do 5 eexists. split; [vm_compute; reflexivity|]. split; [vm_compute; reflexivity|]. split; [vm_compute; reflexivity|].
  split; [reflexivity|]. split; [reflexivity|]. split; reflexivity.
Qed.
Print Assumptions C52_zone_order_refuted.
