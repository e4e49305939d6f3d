(** Properties of properties made from values: C65. *)
From Verif Require Import PyBase PyProofs ParserCtx LineModel LineSpec TextModel TextSpec TextProofs LineProofs DateTimeModel DateTimeText DurationModel PeriodModel PropertyModel PropertySpec PropertyProofs RecurModel
  ComponentModel MakeModel MakeSpec MakeProofs PropComponent PropProperty.

(** Property(name, value) with a value that suits the property: its line is read as a property with that name and value. *)
Theorem C65_made : forall ctx fl zero name v vt, suits ctx name v vt ->
  exists p text q w, make zero name v vt = Ok p /\ prop_line fl p = Ok text /\ prop_parse ctx fl text = Ok q /\
    pName q = name /\ pValue q = Some w /\ gives v w.
Proof.
  intros ctx fl zero name v vt S. destruct (make_ok ctx fl zero name v vt S) as (p & w & E & O & N & V & G).
  destruct (C52_round_trip ctx fl p O) as (text & q & L & P & (SN & _ & SV) & _). exists p, text, q. rewrite V in SV.
  destruct (pValue q) as [w'|]; [|destruct SV]. exists w'. repeat (split; [assumption || congruence|]). apply G. exact SV.
Qed.
Print Assumptions C65_made.

Definition in_rome (y m d h : Z) : dt := newDateTime y m d h 0 0 false (TzName (lit "Europe/Rome")).
Definition made (name : bytes) (v : pyvalue) : option bytes :=
  match make 0 name v None with Ok p => match prop_line fl0 p with Ok t => Some t | _ => None end | _ => None end.
Lemma rome_zone : lit "Europe/Rome" <> [] /\ value_ok (lit "Europe/Rome").
Proof. split; [discriminate|]. split; [intros [H|[H|H]]; exfalso; revert H; no_in|]. split; [intros _; discriminate|no_in]. Qed.
Example C65_made_ex :
  suits default_ctx (lit "DTSTART") (PyDateTime (in_rome 2020 1 31 9)) None /\
  made (lit "DTSTART") (PyDateTime (in_rome 2020 1 31 9)) = Some (lit "DTSTART;TZID=Europe/Rome:20200131T090000") /\
  suits default_ctx (lit "EXDATE") (PyDates [newDate 2020 1 31 false TzNone; newDate 2020 2 1 false TzNone]) None /\
  made (lit "EXDATE") (PyDates [newDate 2020 1 31 false TzNone; newDate 2020 2 1 false TzNone]) = Some (lit "EXDATE;VALUE=DATE:20200131,20200201") /\
  suits default_ctx (lit "X-COUNT") (PyInt (-3)) None /\ made (lit "X-COUNT") (PyInt (-3)) = Some (lit "X-COUNT;VALUE=INTEGER:-3") /\
  suits default_ctx (lit "SUMMARY") (PyStr (lit "one, two")) None /\ made (lit "SUMMARY") (PyStr (lit "one, two")) = Some (lit "SUMMARY:one\, two") /\
  suits default_ctx (lit "Request-Status") (PyTexts [lit "3.1"; lit "Invalid; really"; lit "x"]) None /\
  made (lit "Request-Status") (PyTexts [lit "3.1"; lit "Invalid; really"; lit "x"]) = Some (lit "Request-Status:3.1;Invalid\; really;x").
Proof.
  assert (N : forall n, match n with c :: _ => c <> SPC /\ c <> DQUOTE | [] => False end -> cin ";" n = false -> cin ":" n = false -> name_ok n).
  { intros n A B C. split; [destruct n; [destruct A|discriminate]|]. split; [destruct n; [destruct A|exact A]|]. split; apply cin_in; assumption. }
  assert (K : forall n, ~ In (upper n) list_names -> upper n <> lit "GEO" -> upper n <> lit "REQUEST-STATUS" -> ~ listed n /\ ~ structured_name n)
    by (intros n A B C; split; [exact A|intros [H|H]; contradiction]).
  split.
  { split; [apply N; [split; discriminate|reflexivity|reflexivity]|]. destruct (K (lit "DTSTART")) as [A B]; [no_in|discriminate|discriminate|]. split; [exact A|]. split; [exact B|].
    split; [repeat split; vm_compute; discriminate|]. split; [right; split; reflexivity|]. apply rome_zone. }
  split; [vm_compute; reflexivity|]. split.
  { split; [apply N; [split; discriminate|reflexivity|reflexivity]|]. split; [vm_compute; tauto|]. split; [split; [repeat split; vm_compute; discriminate|split; [left; reflexivity|exact I]]|].
    constructor; [|constructor]. split; [repeat split; vm_compute; discriminate|]. split; [reflexivity|left; reflexivity]. }
  split; [vm_compute; reflexivity|]. split.
  { split; [apply N; [split; discriminate|reflexivity|reflexivity]|]. apply K; [no_in|discriminate|discriminate]. }
  split; [vm_compute; reflexivity|]. split.
  { split; [apply N; [split; discriminate|reflexivity|reflexivity]|]. destruct (K (lit "SUMMARY")) as [A B]; [no_in|discriminate|discriminate|]. split; [exact A|]. split; [exact B|].
    exists T_TEXT. split; [exists T_TEXT|left]; vm_compute; tauto. }
  split; [vm_compute; reflexivity|]. split; [|vm_compute; reflexivity].
  split; [apply N; [split; discriminate|reflexivity|reflexivity]|]. split; [reflexivity|]. split; [discriminate|]. split; [no_in|]. split; [|discriminate].
  intros [x H]. apply (f_equal (@rev ascii)) in H. rewrite rev_app_distr in H. discriminate H.
Qed.

(** Whatever text a property of text type is given, its line has no line break. *)
Theorem C65_one_line : forall fl zero name s, In (upper name) (names_with T_TEXT) -> ~ In CR name -> ~ In LF name ->
  exists p text, make zero name (PyStr s) None = Ok p /\ prop_line fl p = Ok text /\ ~ In CR text /\ ~ In LF text.
Proof.
  intros fl zero name s T A B. cbn [make]. unfold text_prop. rewrite (default_for _ _ T). exists (with_value name (Single (VText s))), (name ++ ":"%char :: escapeTextValue s).
  split; [reflexivity|]. split.
  - unfold prop_line, with_value. cbn [pName pParams pValue value_generate item_generate rbind]. rewrite !setup_eq.
    assert (V : vname name (Single (VText s)) = None).
    { unfold vname. cbv zeta. rewrite (default_for _ _ T). destruct (assoc (upper name) specials); reflexivity. }
    rewrite V. reflexivity.
  - pose proof (escape_form s) as F.
    assert (E : ~ In CR (escapeTextValue s) /\ ~ In LF (escapeTextValue s)).
    { induction F as [|c r N F IH|c r N F IH]; [split; intros []| |].
      - split; intros [H|H]; try tauto; subst; apply N; cbn; tauto.
      - split; intros [H|[H|H]]; try tauto; try discriminate H; subst; cbn in N; intuition discriminate. }
    rewrite !in_app_iff. cbn [In]. split; intros [H|[H|H]]; try tauto; discriminate H.
Qed.
Print Assumptions C65_one_line.
Example C65_one_line_ex : made (lit "SUMMARY") (PyStr (lit "a" ++ [CR; LF] ++ lit "DTSTART:b")) = Some (lit "SUMMARY:a\r\nDTSTART:b").
Proof. vm_compute. reflexivity. Qed.

(** A property with a name that is not known, or one that is an address, is given as many lines as its text has: another
    property is read. *)
Theorem C65_lines_refuted : exists name s p text c,
  make 0 name (PyStr s) None = Ok p /\ generate fl0 (Comp VCALENDAR (newState []) [entry (lit "VERSION") (VText (lit "2.0")); (upper name, [p])] []) = Some (Ok text) /\
  parseTextData tz_none default_ctx fl0 uuids0 text = Ok (Some c) /\
  map fst (cProps c) = [lit "VERSION"; lit "X-NOTE"; lit "METHOD"].
Proof.
  exists (lit "X-NOTE"), (lit "a" ++ [LF] ++ lit "METHOD:b"). do 3 eexists. split; [reflexivity|]. split; [vm_compute; reflexivity|]. split; [vm_compute; reflexivity|]. reflexivity.
Qed.
Print Assumptions C65_lines_refuted.
(** A text given to a property of another type is lost without an error: the property has the first value of its type. *)
Theorem C65_text_lost_refuted : forall zero s,
  make zero (lit "DTSTART") (PyStr s) None = make zero (lit "DTSTART") (PyStr []) None /\
  make zero (lit "REPEAT") (PyStr s) None = make zero (lit "REPEAT") (PyStr []) None /\
  made (lit "DTSTART") (PyStr s) = Some (lit "DTSTART:19700101T000000") /\ made (lit "REPEAT") (PyStr s) = Some (lit "REPEAT:0") /\
  made (lit "RRULE") (PyStr s) = Some (lit "RRULE:FREQ=YEARLY").
Proof. intros zero s. repeat split; vm_compute; reflexivity. Qed.
Print Assumptions C65_text_lost_refuted.
Example C65_text_lost_refuted_ex : made (lit "DTSTART") (PyStr (lit "20200131T093000Z")) = Some (lit "DTSTART:19700101T000000").
Proof. vm_compute. reflexivity. Qed.
(** A text given to a property of lists is one text in memory; with a comma it is read as several. *)
Theorem C65_list_text_refuted : exists s p text q, make 0 (lit "CATEGORIES") (PyStr s) None = Ok p /\ prop_line fl0 p = Ok text /\
  text_of (pValue p) = Some s /\ prop_parse default_ctx fl0 text = Ok q /\ text_of (pValue q) = None /\
  pValue q = Some (Multi T_TEXT [VText (lit "a"); VText (lit "b")]).
Proof.
  exists (lit "a,b"). do 3 eexists. split; [reflexivity|]. split; [vm_compute; reflexivity|]. split; [reflexivity|]. split; [vm_compute; reflexivity|].
  split; [reflexivity|]. vm_compute. reflexivity.
Qed.
Print Assumptions C65_list_text_refuted.
(** All dates of a list are read in the zone of the first; the times of a period lose their zone. *)
Theorem C65_zones_refuted : exists l text q d1 d2, made (lit "RDATE") (PyDates l) = Some text /\ prop_parse default_ctx fl0 text = Ok q /\
  pValue q = Some (Multi T_DATETIME [VDateTime d1; VDateTime d2]) /\
  map mTZID l = [TzName (lit "Europe/Rome"); TzName (lit "Asia/Tokyo")] /\ map mTZID [d1; d2] = [TzName (lit "Europe/Rome"); TzName (lit "Europe/Rome")].
Proof.
  exists [in_rome 2020 1 31 9; newDateTime 2020 1 31 9 0 0 false (TzName (lit "Asia/Tokyo"))]. do 4 eexists. split; [vm_compute; reflexivity|].
  split; [vm_compute; reflexivity|]. split; [reflexivity|]. split; reflexivity.
Qed.
Print Assumptions C65_zones_refuted.
Theorem C65_period_zone_refuted : exists p text q p', made (lit "RDATE") (PyPeriods [p]) = Some text /\ prop_parse default_ctx fl0 text = Ok q /\
  pValue q = Some (Multi T_PERIOD [VPeriod p']) /\ mTZID (pStart p) = TzName (lit "Europe/Rome") /\ mTZID (pStart p') = TzNone.
Proof.
  exists (newPeriodDur (in_rome 2020 1 31 9) (newDuration 0 0 1 0 0)). do 3 eexists. split; [vm_compute; reflexivity|]. split; [vm_compute; reflexivity|]. split; [reflexivity|]. split; reflexivity.
Qed.
Print Assumptions C65_period_zone_refuted.
