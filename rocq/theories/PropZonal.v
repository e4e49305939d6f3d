(** The tz compiler: clocks (C44), days of rules (C45), offsets (C46), source lines (C53) and UNTIL (C54). *)
From Coq Require Import Lia.
From Verif Require Import ZonalModel ZonalSpec CalModel CalProofs ZonalProofs ZonalProofs2 ZonalProofs3 ZonalProofs4 PyProofs.

(** C44: the local time is [offset] seconds after UTC in every mode; in mode u the UTC is what was written, in mode s the written
    time is the standard offset after UTC, in the other modes the local time is what was written. *)
Theorem C44_clocks : forall z offset std, valid_dt (zDt z) -> mDateOnly (zDt z) = false ->
  let local := getLocaltime z offset std in let utc := getUTC z offset std in
  valid_dt local /\ valid_dt utc /\ later utc local offset /\
  (zMode z = Some (lit "u") -> utc = zDt z) /\
  (zMode z = Some (lit "s") -> later utc (zDt z) std) /\
  (zMode z <> Some (lit "u") -> zMode z <> Some (lit "s") -> local = zDt z).
Proof. exact clocks. Qed.
Print Assumptions C44_clocks.
(** 2007-12-31 23:30 standard time, one hour of daylight saving time in a zone 5 hours west. *)
Example C44_clocks_ex : let z := mkZdt (newDateTime 2007 12 31 23 30 0 false TzNone) (Some (lit "s")) in
  valid_dt (zDt z) /\ mDateOnly (zDt z) = false /\
  ymd (getLocaltime z (-14400) (-18000)) = (2008, 1, 1) /\ secs_of_day (getLocaltime z (-14400) (-18000)) = 1800 /\
  ymd (getUTC z (-14400) (-18000)) = (2008, 1, 1) /\ secs_of_day (getUTC z (-14400) (-18000)) = 16200.
Proof. cbv zeta. split; [unfold valid_dt, valid_date, valid_time; cbn; repeat split; lia|]. vm_compute. repeat split; reflexivity. Qed.

(** In tz source files the suffixes g and z mean UTC as u does; the code takes them for local time. *)
Theorem C44_gz_refuted : exists z, (zMode z = Some (lit "g") \/ zMode z = Some (lit "z")) /\ valid_dt (zDt z) /\
  ~ later (zDt z) (getUTC z 3600 3600) 0.
Proof.
  exists (mkZdt (newDateTime 2007 6 1 12 0 0 false TzNone) (Some (lit "g"))). split; [left; reflexivity|].
  split; [unfold valid_dt, valid_date, valid_time; cbn; repeat split; lia|].
  intro L. apply later_abs in L; [vm_compute in L; discriminate L| |];
    [|apply (proj1 (proj2 (clocks (mkZdt (newDateTime 2007 6 1 12 0 0 false TzNone) (Some (lit "g"))) 3600 3600 ltac:(unfold valid_dt, valid_date, valid_time; cbn; repeat split; lia) eq_refl)))];
    unfold valid_dt, valid_date, valid_time; cbn; repeat split; lia.
Qed.
Print Assumptions C44_gz_refuted.

(** C45: the day and time of a rule in a year. *)
Theorem C45_day : forall r y m o h mi s, 1901 <= y <= 2100 -> 1 <= m <= 12 ->
  rlIn r = mon_name m -> on_text o (rlOn r) -> on_ok y m o -> (forall w n, o <> AtMost w n) ->
  at_text h mi s (rlAt r) -> h < 24 -> mi < 60 ->
  exists z, datetimeForYear r y = Ok z /\ valid_dt (zDt z) /\ selects y m o (ymd (zDt z)) /\
    (mHours (zDt z), mMinutes (zDt z), mSeconds (zDt z)) = (h, mi, 0) /\
    mDateOnly (zDt z) = false /\ mTZUTC (zDt z) = false /\ mTZID (zDt z) = TzNone /\ zMode z = Some s.
Proof. exact rule_day. Qed.
Print Assumptions C45_day.
(** EU rule: last Sunday in March at 1:00 UTC. *)
Example C45_day_ex : let r := mkZrule (lit "EU") (lit "1981") (lit "max") (lit "-") (lit "Mar") (lit "lastSun") (lit "1:00u") (lit "1:00") (lit "S") in
  rlIn r = mon_name 3 /\ on_text (Last 0) (rlOn r) /\ on_ok 2013 3 (Last 0) /\ at_text 1 0 (lit "u") (rlAt r) /\
  (exists z, datetimeForYear r 2013 = Ok z /\ ymd (zDt z) = (2013, 3, 31) /\ mHours (zDt z) = 1 /\ zMode z = Some (lit "u")).
Proof.
  cbv zeta. split; [reflexivity|]. split; [reflexivity|]. split; [cbn; lia|].
  split; [apply (at_hm 1 1 0 (lit "u")); [lia|lia|apply cin_not_in; reflexivity]|].
  eexists. split; [vm_compute; reflexivity|]. auto.
Qed.
(** The day is the only one with the property. *)
Example C45_day_ex2 : let r := mkZrule (lit "US") (lit "2007") (lit "max") (lit "-") (lit "Mar") (lit "Sun>=8") (lit "2:00") (lit "1:00") (lit "D") in
  on_text (AtLeast 0 8) (rlOn r) /\ at_text 2 0 [] (rlAt r) /\
  (exists z, datetimeForYear r 2026 = Ok z /\ ymd (zDt z) = (2026, 3, 8)).
Proof.
  cbv zeta. split; [exists 1%nat; reflexivity|]. split; [apply (at_hm 1 2 0 []); [lia|lia|intros []]|].
  eexists. split; [vm_compute; reflexivity|]. reflexivity.
Qed.

(** A day of the form Sun<=25 is never accepted, although it is part of the format. *)
Theorem C45_at_most_raises : forall r y m w n h mi s, 1 <= m <= 12 -> rlIn r = mon_name m -> on_text (AtMost w n) (rlOn r) ->
  0 <= w <= 6 -> 0 <= n -> at_text h mi s (rlAt r) -> h < 24 -> datetimeForYear r y = Raise AssertionError.
Proof. exact at_most_raises. Qed.
Print Assumptions C45_at_most_raises.
Example C45_at_most_raises_ex : let r := mkZrule (lit "X") (lit "2007") (lit "max") (lit "-") (lit "Mar") (lit "Sun<=25") (lit "2:00") (lit "1:00") (lit "D") in
  on_text (AtMost 0 25) (rlOn r) /\ at_text 2 0 [] (rlAt r).
Proof. cbv zeta. split; [exists 1%nat; reflexivity|]. apply (at_hm 1 2 0 []); [lia|lia|intros []]. Qed.
Theorem C45_at_most_refuted : exists r y m o, rlIn r = mon_name m /\ on_text o (rlOn r) /\ on_ok y m o /\ at_text 2 0 [] (rlAt r) /\
  datetimeForYear r y = Raise AssertionError.
Proof.
  exists (mkZrule (lit "X") (lit "2007") (lit "max") (lit "-") (lit "Mar") (lit "Sun<=25") (lit "2:00") (lit "1:00") (lit "D")), 2026, 3, (AtMost 0 25).
  split; [reflexivity|]. split; [exists 1%nat; reflexivity|]. split; [cbn; lia|].
  split; [apply (at_hm 1 2 0 []); [lia|lia|intros []]|]. vm_compute. reflexivity.
Qed.
Print Assumptions C45_at_most_refuted.
(** 24:00 becomes one second before midnight, seconds are not accepted, nor is a suffix after a time without minutes. *)
Theorem C45_at_refuted :
  (exists r, rlAt r = lit "24:00" /\ exists z, datetimeForYear r 2007 = Ok z /\ ymd (zDt z) = (2007, 3, 4) /\ secs_of_day (zDt z) = 86399) /\
  (exists r, rlAt r = lit "2:00:00" /\ datetimeForYear r 2007 = Raise AssertionError) /\
  (exists r, rlAt r = lit "2s" /\ datetimeForYear r 2007 = Raise ValueError).
Proof.
  split; [|split].
  - exists (mkZrule (lit "X") (lit "2007") (lit "max") (lit "-") (lit "Mar") (lit "Sun>=1") (lit "24:00") (lit "1:00") (lit "D")).
    split; [reflexivity|]. eexists. split; [vm_compute; reflexivity|]. split; reflexivity.
  - exists (mkZrule (lit "X") (lit "2007") (lit "max") (lit "-") (lit "Mar") (lit "Sun>=1") (lit "2:00:00") (lit "1:00") (lit "D")). split; reflexivity.
  - exists (mkZrule (lit "X") (lit "2007") (lit "max") (lit "-") (lit "Mar") (lit "Sun>=1") (lit "2s") (lit "1:00") (lit "D")). split; reflexivity.
Qed.
Print Assumptions C45_at_refuted.

(** The BY parts made from a rule w>=n whose instance in the year of [start] falls on [start] (possibly moved by a day by the conversion
    to local time): in every year with a month of the same length they select the same day, moved in the same way. *)
Theorem C45_by_parts : forall start n w shift e, let y0 := mYear start in let m := mMonth start in
  valid_dt start -> 1901 <= y0 <= 2100 -> 0 <= w <= 6 -> shift = 0 \/ shift = 1 \/ shift = -1 ->
  1 <= n -> 1 <= n + shift -> n + shift + 6 <= month_len greg_leap y0 m ->
  nth_wd_from (y0, m, n) w 1 e -> days_between greg_leap e (ymd start) shift ->
  exists parts, getOnDayDetails start w n = Ok parts /\
  forall y dd, month_len greg_leap y m = month_len greg_leap y0 m ->
    (by_selects y m parts dd <-> exists e', nth_wd_from (y, m, n) w 1 e' /\ valid_date greg_leap dd /\ days_between greg_leap e' dd shift).
Proof.
  cbv zeta. intros start n w shift e V Hy Hw Hs Hn Hn1 Hn6 N B. eexists.
  assert (G : getOnDayDetails start w n = Ok (parts_of (month_len greg_leap (mYear start) (mMonth start)) (n + shift) ((w + shift) mod 7)))
    by (apply (details start n w shift _ e); auto).
  split; [exact G|]. intros y dd L. exact (details_select start n w shift _ e y dd V Hy Hw Hs Hn Hn1 Hn6 N B L G).
Qed.
Print Assumptions C45_by_parts.
(** Sun>=9 in March 2008: the 9th; the parts are BYDAY=SU;BYMONTHDAY=9,...,15.  Sun>=8, moved back a day: BYDAY=SA;BYMONTHDAY=7,...,13. *)
Example C45_by_parts_ex :
  getOnDayDetails (newDateTime 2008 3 9 2 0 0 false TzNone) 0 9 = Ok (0, 0, Some [9; 10; 11; 12; 13; 14; 15]) /\
  getOnDayDetails (newDateTime 2008 3 8 23 0 0 false TzNone) 0 8 = Ok (0, 6, Some [7; 8; 9; 10; 11; 12; 13]) /\
  getOnDayDetails (newDateTime 2008 3 30 1 0 0 false TzNone) 0 25 = Ok (-1, 0, None) /\
  nth_wd_from (2008, 3, 9) 0 1 (2008, 3, 9) /\ days_between greg_leap (2008, 3, 9) (2008, 3, 9) 0.
Proof.
  split; [vm_compute; reflexivity|]. split; [vm_compute; reflexivity|]. split; [vm_compute; reflexivity|]. split.
  - apply nth_first with (k := 0); [lia|left; split; [lia|reflexivity]|]. exists 13947. split; [|reflexivity]. left. split; [lia|]. vm_compute. reflexivity.
  - left. split; [lia|reflexivity].
Qed.
(** With another length of the month the parts may select another day: Sun>=23 of February 2008 becomes the last Sunday, which in
    2009 is the 22nd (the first Sunday from the 23rd on is March 1st).  And an instance on the first day that is moved back is refused. *)
Theorem C45_by_parts_refuted :
  (exists start parts, getOnDayDetails start 0 23 = Ok parts /\ ymd start = (2008, 2, 24) /\ nth_wd_from (2008, 2, 23) 0 1 (2008, 2, 24) /\
     by_selects 2009 2 parts (2009, 2, 22) /\ ~ nth_wd_from (2009, 2, 23) 0 1 (2009, 2, 22)) /\
  (exists start, ymd start = (2006, 9, 30) /\ getOnDayDetails start 0 1 = Raise AssertionError).
Proof.
  split.
  - exists (newDateTime 2008 2 24 2 0 0 false TzNone), (-1, 0, None). split; [vm_compute; reflexivity|]. split; [reflexivity|].
    split. { apply nth_first with (k := 1); [lia|left; split; [lia|reflexivity]|]. exists 13933. split; [|reflexivity]. left. split; [lia|]. vm_compute. reflexivity. }
    split.
    { exists 22. split; [reflexivity|]. split; [cbn; lia|].
      assert (W : is_weekday (2009, 2, 22) 0) by (exists 14297; split; [|reflexivity]; left; split; [lia|]; vm_compute; reflexivity).
      split; [exact W|]. split; [lia|]. split; [|exact I]. intros _. apply nth_last with (k := 6); [cbn; lia|lia|left; split; [lia|reflexivity]|exact W]. }
    intro N. apply DateTimeProofs2.nth_from_gdn in N; [|cbn; lia]. destruct N as (_ & _ & R & _). vm_compute in R. destruct R as [R _]. apply R. reflexivity.
  - exists (newDateTime 2006 9 30 23 0 0 false TzNone). split; [reflexivity|]. vm_compute. reflexivity.
Qed.
Print Assumptions C45_by_parts_refuted.

(** C46: the Zone offset is exact; the two others are exact on exactly the texts given. *)
Theorem C46_utc_offset : forall z s h l, offset_text s h l (zGmtoff z) -> getUTCOffset z = Ok (signed s (seconds_of h l)).
Proof. exact utc_offset. Qed.
Print Assumptions C46_utc_offset.
Example C46_utc_offset_ex : offset_text Minus 0 [30; 20] (lit "-0:30:20") /\
  getUTCOffset (mkZonerule (lit "-0:30:20") (lit "-") (lit "LMT") None) = Ok (-1820).
Proof. split; [apply (off_hms Minus 0 1 2 2 30 20); lia|vm_compute; reflexivity]. Qed.

Theorem C46_save : forall r s h l, offset_text s h l (rlSave r) -> (List.length l <= 1)%nat ->
  (getOffset r = Ok (signed s (seconds_of h l)) <-> ~ (s = Minus /\ h = 0 /\ nth 0 l 0 <> 0)).
Proof. exact rule_offset_exact. Qed.
Print Assumptions C46_save.
Example C46_save_ex : offset_text Minus 1 [30] (lit "-1:30") /\
  getOffset (mkZrule (lit "X") (lit "2007") (lit "max") (lit "-") (lit "Mar") (lit "1") (lit "0:00") (lit "-1:30") (lit "D")) = Ok (-5400).
Proof. split; [apply (off_hm Minus 1 1 2 30); lia|vm_compute; reflexivity]. Qed.

Theorem C46_numeric : forall z s h l, offset_text s h l (zRule z) ->
  (getNumericOffset z = Ok (signed s (seconds_of h l)) <-> ~ (s = Minus /\ nth 0 l 0 <> 0) /\ nth 1 l 0 = 0).
Proof. exact numeric_offset_exact. Qed.
Print Assumptions C46_numeric.
Example C46_numeric_ex : offset_text NoSign 1 [20] (lit "1:20") /\
  getNumericOffset (mkZonerule (lit "0:00") (lit "1:20") (lit "X") None) = Ok 4800.
Proof. split; [apply (off_hm NoSign 1 1 2 20); lia|vm_compute; reflexivity]. Qed.

(** -0:30 in a rule is read as +0:30; -1:30 in the rules column of a zone as -0:30; the seconds and minutes of a SAVE of three parts are dropped. *)
Theorem C46_sign_refuted :
  (exists r, rlSave r = lit "-0:30" /\ getOffset r = Ok 1800) /\
  (exists z, zRule z = lit "-1:30" /\ getNumericOffset z = Ok (-1800)) /\
  (exists r, rlSave r = lit "1:20:30" /\ getOffset r = Ok 3600).
Proof.
  split; [|split].
  - exists (mkZrule (lit "X") (lit "2007") (lit "max") (lit "-") (lit "Mar") (lit "1") (lit "0:00") (lit "-0:30") (lit "D")). split; reflexivity.
  - exists (mkZonerule (lit "0:00") (lit "-1:30") (lit "X") None). split; reflexivity.
  - exists (mkZrule (lit "X") (lit "2007") (lit "max") (lit "-") (lit "Mar") (lit "1") (lit "0:00") (lit "1:20:30") (lit "D")). split; reflexivity.
Qed.
Print Assumptions C46_sign_refuted.

(** C53: the fields of a line are found whatever blanks are between them; what the objects write they read back. *)
Theorem C53_rule_line : forall r line rest, laid_out (lit "Rule" :: rule_fields r ++ rest) line -> zrule_parse line = Ok r.
Proof. exact rule_line_parse. Qed.
Print Assumptions C53_rule_line.
Theorem C53_rule : forall r, Forall field (rule_fields r) -> zrule_parse (zrule_generate r) = Ok r.
Proof. exact rule_round. Qed.
Print Assumptions C53_rule.
Theorem C53_ruleset : forall s, rsRules s <> [] -> Forall (fun r => Forall field (rule_fields r) /\ rlName r = rsName s) (rsRules s) ->
  ruleset_parse (ruleset_generate s) = Ok s.
Proof. exact ruleset_round. Qed.
Print Assumptions C53_ruleset.
Theorem C53_zone_line : forall z until line, laid_out (zonerule_fields z ++ until) line ->
  zUntil z = match until with [] => None | _ => Some (join_char SPC until) end -> zonerule_parse line 2 = Ok z.
Proof. exact zone_line_parse. Qed.
Print Assumptions C53_zone_line.
Theorem C53_zone : forall zn, field (znName zn) -> znRules zn <> [] -> Forall zonerule_ok (znRules zn) ->
  Forall (fun z => zGmtoff z <> lit "#") (tl (znRules zn)) -> zone_parse (zone_generate zn) = Ok zn.
Proof. exact zone_round. Qed.
Print Assumptions C53_zone.
Lemma field_ok s : s <> [] -> cin SPC s = false -> cin TAB s = false -> cin LF s = false -> field s.
Proof. intros. split; [assumption|]. split; [|split]; apply cin_not_in; assumption. Qed.
Definition us_rule : zrule := mkZrule (lit "US") (lit "2007") (lit "max") (lit "-") (lit "Mar") (lit "Sun>=8") (lit "2:00") (lit "1:00") (lit "D").
Lemma us_fields : Forall field (rule_fields us_rule).
Proof. repeat constructor; try discriminate; apply cin_not_in; reflexivity. Qed.
Example C53_rule_line_ex : laid_out (lit "Rule" :: rule_fields us_rule ++ []) (lit "Rule  US" ++ TAB :: SPC :: lit "2007 max - Mar Sun>=8 2:00 1:00 D ") /\
  zrule_parse (lit "Rule  US" ++ TAB :: SPC :: lit "2007 max - Mar Sun>=8 2:00 1:00 D ") = Ok us_rule.
Proof.
  assert (L : laid_out (lit "Rule" :: rule_fields us_rule ++ []) (lit "Rule  US" ++ TAB :: SPC :: lit "2007 max - Mar Sun>=8 2:00 1:00 D ")).
  { apply (lo_field (lit "Rule") SPC); [apply field_ok; try reflexivity; discriminate|left; reflexivity|].
    apply lo_blank; [left; reflexivity|].
    apply (lo_field (lit "US") TAB); [apply field_ok; try reflexivity; discriminate|right; reflexivity|].
    apply lo_blank; [left; reflexivity|].
    apply (lo_field (lit "2007") SPC); [apply field_ok; try reflexivity; discriminate|left; reflexivity|].
    apply (lo_field (lit "max") SPC); [apply field_ok; try reflexivity; discriminate|left; reflexivity|].
    apply (lo_field (lit "-") SPC); [apply field_ok; try reflexivity; discriminate|left; reflexivity|].
    apply (lo_field (lit "Mar") SPC); [apply field_ok; try reflexivity; discriminate|left; reflexivity|].
    apply (lo_field (lit "Sun>=8") SPC); [apply field_ok; try reflexivity; discriminate|left; reflexivity|].
    apply (lo_field (lit "2:00") SPC); [apply field_ok; try reflexivity; discriminate|left; reflexivity|].
    apply (lo_field (lit "1:00") SPC); [apply field_ok; try reflexivity; discriminate|left; reflexivity|].
    apply (lo_field (lit "D") SPC); [apply field_ok; try reflexivity; discriminate|left; reflexivity|].
    apply lo_end. constructor. }
  split; [exact L|]. vm_compute. reflexivity.
Qed.
Example C53_rule_ex : Forall field (rule_fields us_rule) /\ zrule_parse (zrule_generate us_rule) = Ok us_rule.
Proof. split; [apply us_fields|vm_compute; reflexivity]. Qed.
Example C53_ruleset_ex : Forall (fun r => Forall field (rule_fields r) /\ rlName r = lit "US") [us_rule; us_rule] /\
  ruleset_parse (ruleset_generate (mkRuleset (lit "US") [us_rule; us_rule])) = Ok (mkRuleset (lit "US") [us_rule; us_rule]).
Proof. split; [repeat (constructor; [split; [apply us_fields|reflexivity]|]); constructor|vm_compute; reflexivity]. Qed.
Definition ny : zone := mkZone (lit "America/New_York")
  [mkZonerule (lit "-4:56:02") (lit "-") (lit "LMT") (Some (lit "1883 Nov 18 12:03:58")); mkZonerule (lit "-5:00") (lit "US") (lit "E%sT") None].
Example C53_zone_ex : field (znName ny) /\ Forall zonerule_ok (znRules ny) /\ zone_parse (zone_generate ny) = Ok ny.
Proof.
  split; [apply field_ok; try reflexivity; discriminate|]. split; [|vm_compute; reflexivity].
  constructor; [|constructor; [|constructor]]; split.
  - repeat (constructor; [apply field_ok; try reflexivity; discriminate|]); constructor.
  - exists [lit "1883"; lit "Nov"; lit "18"; lit "12:03:58"]. split; [discriminate|]. split; [|reflexivity].
    repeat (constructor; [apply field_ok; try reflexivity; discriminate|]); constructor.
  - repeat (constructor; [apply field_ok; try reflexivity; discriminate|]); constructor.
  - exact I.
Qed.
Example C53_zone_line_ex : let z := mkZonerule (lit "-5:00") (lit "US") (lit "E%sT") (Some (lit "1942 Feb")) in
  laid_out (zonerule_fields z ++ [lit "1942"; lit "Feb"]) (SPC :: lit "-5:00 US E%sT" ++ TAB :: lit "1942 Feb") /\
  zonerule_parse (SPC :: lit "-5:00 US E%sT" ++ TAB :: lit "1942 Feb") 2 = Ok z.
Proof.
  cbv zeta. split; [|vm_compute; reflexivity]. apply lo_blank; [left; reflexivity|].
  apply (lo_field (lit "-5:00") SPC); [apply field_ok; try reflexivity; discriminate|left; reflexivity|].
  apply (lo_field (lit "US") SPC); [apply field_ok; try reflexivity; discriminate|left; reflexivity|].
  apply (lo_field (lit "E%sT") TAB); [apply field_ok; try reflexivity; discriminate|right; reflexivity|].
  apply (lo_field (lit "1942") SPC); [apply field_ok; try reflexivity; discriminate|left; reflexivity|].
  apply lo_last. apply field_ok; try reflexivity; discriminate.
Qed.
(** A RuleSet reads the name before it drops the empty fields: a second blank after "Rule" is refused. *)
Theorem C53_ruleset_blank_refuted : exists line r, zrule_parse line = Ok r /\ ruleset_parse line = Raise AssertionError.
Proof. exists (lit "Rule  US 2007 max - Mar Sun>=8 2:00 1:00 D"), us_rule. split; vm_compute; reflexivity. Qed.
Print Assumptions C53_ruleset_blank_refuted.

(** C54: the UNTIL column. *)
Theorem C54_until : forall z y m o h mi s mode toks, until_text y m o (h, mi, s) mode toks -> zUntil z = Some (join_char SPC toks) ->
  Forall (fun t => ~ In SPC t) toks -> 0 <= y -> 1 <= m <= 12 -> on_ok y m o -> until_day_ok y o toks ->
  exists u, getUntilDate z = Ok u /\ selects y m o (ymd (zDt u)) /\ (mHours (zDt u), mMinutes (zDt u), mSeconds (zDt u)) = (h, mi, s) /\
    mDateOnly (zDt u) = false /\ mTZUTC (zDt u) = false /\ mTZID (zDt u) = TzNone /\ zMode u = mode.
Proof. exact until_spec. Qed.
Print Assumptions C54_until.
Example C54_until_ex : let toks := [lit "1977"; lit "Oct"; lit "lastSun"; lit "1:00s"; lit "#x"] in
  until_text 1977 10 (Last 0) (1, 0, 0) (Some (lit "s")) toks /\ Forall (fun t => ~ In SPC t) toks /\ until_day_ok 1977 (Last 0) toks /\
  exists u, getUntilDate (mkZonerule (lit "1:00") (lit "-") (lit "X") (Some (join_char SPC toks))) = Ok u /\ ymd (zDt u) = (1977, 10, 30).
Proof.
  cbv zeta. split.
  { apply (ut_t 4 1977 10 (Last 0)); [reflexivity|].
    apply (tt_hmx 1 1 0 (lit "s")); [lia|lia|discriminate|apply cin_not_in; reflexivity|apply cin_not_in; reflexivity]. }
  split; [repeat (constructor; [apply cin_not_in; reflexivity|]); constructor|]. split; [cbn; lia|].
  eexists. split; [vm_compute; reflexivity|]. reflexivity.
Qed.
Theorem C54_no_until : forall z, zUntil z = None \/ (exists r, zUntil z = Some ("#"%char :: r)) ->
  getUntilDate z = Ok (mkZdt (newDateTime 9999 12 1 0 0 0 false TzNone) None).
Proof. exact until_none. Qed.
Print Assumptions C54_no_until.
Example C54_no_until_ex : getUntilDate (mkZonerule (lit "1:00") (lit "-") (lit "X") (Some (lit "# ever"))) = Ok (mkZdt (newDateTime 9999 12 1 0 0 0 false TzNone) None).
Proof. apply C54_no_until. right. eexists. reflexivity. Qed.
(** Other forms of the day that are valid in tz source files, a time without minutes and a suffix after seconds raise exceptions. *)
Theorem C54_forms_refuted :
  (exists z, zUntil z = Some (lit "1977 Oct lastFri") /\ getUntilDate z = Raise ValueError) /\
  (exists z, zUntil z = Some (lit "1977 Oct Mon>=1") /\ getUntilDate z = Raise ValueError) /\
  (exists z, zUntil z = Some (lit "1977 Oct Sun>=15") /\ getUntilDate z = Raise ValueError) /\
  (exists z, zUntil z = Some (lit "1977 Oct 2 2") /\ getUntilDate z = Raise IndexError) /\
  (exists z, zUntil z = Some (lit "1977 Oct 2 2:00:00s") /\ getUntilDate z = Raise ValueError).
Proof.
  split; [exists (mkZonerule (lit "1:00") (lit "-") (lit "X") (Some (lit "1977 Oct lastFri"))); split; [reflexivity|vm_compute; reflexivity]|].
  split; [exists (mkZonerule (lit "1:00") (lit "-") (lit "X") (Some (lit "1977 Oct Mon>=1"))); split; [reflexivity|vm_compute; reflexivity]|].
  split; [exists (mkZonerule (lit "1:00") (lit "-") (lit "X") (Some (lit "1977 Oct Sun>=15"))); split; [reflexivity|vm_compute; reflexivity]|].
  split; [exists (mkZonerule (lit "1:00") (lit "-") (lit "X") (Some (lit "1977 Oct 2 2"))); split; [reflexivity|vm_compute; reflexivity]|].
  exists (mkZonerule (lit "1:00") (lit "-") (lit "X") (Some (lit "1977 Oct 2 2:00:00s"))). split; [reflexivity|vm_compute; reflexivity].
Qed.
Print Assumptions C54_forms_refuted.
