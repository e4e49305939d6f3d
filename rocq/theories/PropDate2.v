(** Properties C05-C07, C12, C13, C47: comparison, equality, caches and text of DateTime.
    [tzo] is the timezone database, an arbitrary function. *)
From Coq Require Import Lia ZifyBool.
From Verif Require Import PyBase ParserCtx CalModel CalSpec DateTimeModel DateTimeSpec DateTimeSpec2 DateTimeText DateTimeOps.
From Verif Require DateTimeProofs DateTimeProofs4 DateTimeOpsProofs DateTimeTextProofs.

(** C05. Date-times in the same zone, or with a floating side: the operators compare the
    seconds that pass on the calendar from one to the other. *)
Theorem C05_order_is_civil_time : forall tzo a b n,
  valid_dt a -> valid_dt b -> mDateOnly a = false -> mDateOnly b = false ->
  field_comparable a b ->
  days_between hist_leap (ymd a) (ymd b) n ->
  all_ops tzo a b (86400 * n + secs_of_day b - secs_of_day a).
Proof. exact DateTimeProofs4.cmp_times. Qed.
Print Assumptions C05_order_is_civil_time.
Example C05_order_is_civil_time_ex :
  let a := newDateTime 1999 12 31 23 59 59 false (TzName (lit "Z")) in
  let b := newDateTime 2000 1 1 0 0 0 false (TzName (lit "Z")) in
  valid_dt a /\ valid_dt b /\ field_comparable a b /\ days_between hist_leap (ymd a) (ymd b) 1 /\
  forall tzo, dt_lt tzo a b = Ok true /\ dt_ge tzo a b = Ok false.
Proof.
  cbv zeta. split; [unfold valid_dt, valid_time; cbn; lia|]. split; [unfold valid_dt, valid_time; cbn; lia|].
  split; [left; split; reflexivity|]. split; [left; split; [lia|reflexivity]|]. intro; split; reflexivity.
Qed.

(** As soon as one side is a date, only the dates count. *)
Theorem C05_order_of_dates : forall tzo a b n,
  valid_dt a -> valid_dt b -> mDateOnly a = true \/ mDateOnly b = true ->
  days_between hist_leap (ymd a) (ymd b) n -> all_ops tzo a b n.
Proof. exact DateTimeProofs4.cmp_dates. Qed.
Print Assumptions C05_order_of_dates.
Example C05_order_of_dates_ex :
  let a := newDate 2000 1 1 false TzNone in let b := newDateTime 2000 1 1 23 0 0 true TzNone in
  valid_dt a /\ valid_dt b /\ days_between hist_leap (ymd a) (ymd b) 0 /\ forall tzo, dt_eq tzo a b = Ok true.
Proof.
  cbv zeta. split; [unfold valid_dt, valid_time; cbn; lia|]. split; [unfold valid_dt, valid_time; cbn; lia|].
  split; [left; split; [lia|reflexivity]|]. reflexivity.
Qed.

(** Exactly one of <, ==, > holds. *)
Theorem C05_trichotomy : forall tzo a b, valid_dt a -> valid_dt b ->
  mDateOnly a = mDateOnly b -> same_zone a b ->
  (dt_lt tzo a b = Ok true /\ dt_eq tzo a b = Ok false /\ dt_lt tzo b a = Ok false) \/
  (dt_lt tzo a b = Ok false /\ dt_eq tzo a b = Ok true /\ dt_lt tzo b a = Ok false) \/
  (dt_lt tzo a b = Ok false /\ dt_eq tzo a b = Ok false /\ dt_lt tzo b a = Ok true).
Proof. exact DateTimeProofs4.trichotomy. Qed.
Print Assumptions C05_trichotomy.
Example C05_trichotomy_ex :
  valid_dt (newDateTime 2024 2 29 1 2 3 true TzNone) /\ valid_dt (newDateTime 2024 3 1 1 2 3 true TzNone).
Proof. split; unfold valid_dt, valid_time; cbn; lia. Qed.

Theorem C05_transitive : forall tzo a b c, valid_dt a -> valid_dt b -> valid_dt c ->
  mDateOnly a = mDateOnly b -> mDateOnly b = mDateOnly c -> same_zone a b -> same_zone b c ->
  dt_lt tzo a b = Ok true -> dt_lt tzo b c = Ok true -> dt_lt tzo a c = Ok true.
Proof. exact DateTimeProofs4.lt_trans. Qed.
Print Assumptions C05_transitive.
Example C05_transitive_ex : forall tzo,
  dt_lt tzo (newDate 1999 12 31 false TzNone) (newDate 2000 1 1 false TzNone) = Ok true /\
  dt_lt tzo (newDate 2000 1 1 false TzNone) (newDate 2000 2 1 false TzNone) = Ok true.
Proof. split; reflexivity. Qed.

(** Comparison with the arguments exchanged is the opposite comparison, for all values
    of any kind whose months are in range. *)
Theorem C05_antisymmetric : forall tzo a b, 1 <= mMonth a <= 12 -> 1 <= mMonth b <= 12 ->
  exists c, compareDateTime tzo a b = Ok c /\ compareDateTime tzo b a = Ok (- c).
Proof. exact DateTimeProofs4.cmp_antisym. Qed.
Print Assumptions C05_antisymmetric.
Example C05_antisymmetric_ex : forall tzo,
  compareDateTime tzo (newDateTime 2000 1 1 0 0 0 true TzNone) (newDateTime 2000 1 1 0 0 0 false (TzInt 3600)) = Ok 1 /\
  compareDateTime tzo (newDateTime 2000 1 1 0 0 0 false (TzInt 3600)) (newDateTime 2000 1 1 0 0 0 true TzNone) = Ok (-1).
Proof. split; reflexivity. Qed.

(** Agreement with the posix time in 1901..2100: always for values in different zones,
    and for values compared by their fields when the zone has the same offset at both. *)
Theorem C05_agrees_with_posix : forall tzo a b, valid_dt a -> valid_dt b ->
  mDateOnly a = false -> mDateOnly b = false ->
  1901 <= mYear a <= 2100 -> 1901 <= mYear b <= 2100 ->
  (field_comparable a b -> tz_lookup tzo a false = tz_lookup tzo b false) ->
  exists pa pb, snd (getPosixTime tzo (rebuilt a)) = Ok pa /\ snd (getPosixTime tzo (rebuilt b)) = Ok pb /\
                all_ops tzo (rebuilt a) (rebuilt b) (pb - pa).
Proof. exact DateTimeOpsProofs.cmp_posix_rebuilt. Qed.
Print Assumptions C05_agrees_with_posix.
Example C05_agrees_with_posix_ex : let a := newDateTime 2000 1 1 0 0 0 true TzNone in
  let b := newDateTime 2000 1 1 0 30 0 false (TzInt 3600) in
  valid_dt a /\ valid_dt b /\ forall tzo, snd (getPosixTime tzo a) = Ok 946684800 /\ snd (getPosixTime tzo b) = Ok 946683000 /\ dt_lt tzo b a = Ok true.
Proof.
  cbv zeta. split; [unfold valid_dt, valid_time; cbn; lia|]. split; [unfold valid_dt, valid_time; cbn; lia|].
  intro. repeat split; reflexivity.
Qed.

(** Without that condition the order within one zone is not the order of instants: when
    the clock is put forward, 01:45 is before 02:30 by fields but after it in time. *)
Theorem C05_posix_same_zone_refuted : exists tzo a b pa pb,
  valid_dt a /\ valid_dt b /\ same_zone a b /\ dt_lt tzo a b = Ok true /\
  snd (getPosixTime tzo a) = Ok pa /\ snd (getPosixTime tzo b) = Ok pb /\ pb < pa.
Proof.
  exists (fun _ _ _ _ h _ _ _ _ => if h <? 2 then -18000 else -14400),
    (newDateTime 2010 3 14 1 45 0 false (TzName (lit "America/New_York"))),
    (newDateTime 2010 3 14 2 30 0 false (TzName (lit "America/New_York"))), 1268549100, 1268548200.
  split; [unfold valid_dt, valid_time; cbn; lia|]. split; [unfold valid_dt, valid_time; cbn; lia|].
  repeat split; reflexivity.
Qed.
Print Assumptions C05_posix_same_zone_refuted.

(** UTC and numeric zones in any mixture: comparison of the true instants. *)
Theorem C05_fixed_zones : forall tzo a b oa ob n, valid_dt a -> valid_dt b ->
  mDateOnly a = false -> mDateOnly b = false ->
  1901 <= mYear a <= 2100 -> 1901 <= mYear b <= 2100 ->
  fixed_zone a oa -> fixed_zone b ob ->
  days_between hist_leap (ymd a) (ymd b) n ->
  all_ops tzo (rebuilt a) (rebuilt b) ((86400 * n + secs_of_day b - ob) - (secs_of_day a - oa)).
Proof. exact DateTimeOpsProofs.cmp_fixed_rebuilt. Qed.
Print Assumptions C05_fixed_zones.
Example C05_fixed_zones_ex :
  let a := newDateTime 2000 1 1 0 30 0 false (TzInt 3600) in let b := newDateTime 1999 12 31 23 30 0 true TzNone in
  valid_dt a /\ valid_dt b /\ fixed_zone a 3600 /\ fixed_zone b 0 /\
  days_between hist_leap (ymd a) (ymd b) (-1) /\ forall tzo, dt_eq tzo a b = Ok true.
Proof.
  cbv zeta. split; [unfold valid_dt, valid_time; cbn; lia|]. split; [unfold valid_dt, valid_time; cbn; lia|].
  split; [split; [reflexivity|right; split; reflexivity]|]. split; [split; [reflexivity|left; split; reflexivity]|].
  split; [right; split; [lia|reflexivity]|]. reflexivity.
Qed.

(** C06. Equality. *)
Theorem C06_reflexive : forall tzo a, dt_eq tzo a a = Ok true.
Proof. exact DateTimeProofs4.eq_refl'. Qed.
Print Assumptions C06_reflexive.
Example C06_reflexive_ex : forall tzo, dt_eq tzo (newDateTime 2000 (-77) 99 1 1 1 false (TzInt 5)) (newDateTime 2000 (-77) 99 1 1 1 false (TzInt 5)) = Ok true.
Proof. reflexivity. Qed.

Theorem C06_symmetric : forall tzo a b, 1 <= mMonth a <= 12 -> 1 <= mMonth b <= 12 ->
  dt_eq tzo a b = dt_eq tzo b a.
Proof. exact DateTimeProofs4.eq_sym'. Qed.
Print Assumptions C06_symmetric.
Example C06_symmetric_ex : forall tzo, dt_eq tzo (newDateTime 2000 1 1 1 0 0 false (TzInt 3600)) (newDateTime 2000 1 1 0 0 0 true TzNone) = Ok true.
Proof. reflexivity. Qed.

(** Equal objects hash alike when neither is floating nor a date. *)
Theorem C06_hash : forall tzo a b,
  mDateOnly a = false -> mDateOnly b = false -> floating a = false -> floating b = false ->
  dt_eq tzo (rebuilt a) (rebuilt b) = Ok true -> dt_hash tzo (rebuilt a) = dt_hash tzo (rebuilt b).
Proof. exact DateTimeOpsProofs.eq_hash_rebuilt. Qed.
Print Assumptions C06_hash.
Example C06_hash_ex : forall tzo,
  dt_eq tzo (newDateTime 2000 1 1 1 0 0 false (TzInt 3600)) (newDateTime 2000 1 1 0 0 0 true TzNone) = Ok true /\
  dt_hash tzo (newDateTime 2000 1 1 1 0 0 false (TzInt 3600)) = Ok 946684800.
Proof. split; reflexivity. Qed.

Theorem C06_transitive_fixed_zones : forall tzo a b c oa ob oc,
  valid_dt a -> valid_dt b -> valid_dt c ->
  mDateOnly a = false -> mDateOnly b = false -> mDateOnly c = false ->
  1901 <= mYear a <= 2100 -> 1901 <= mYear b <= 2100 -> 1901 <= mYear c <= 2100 ->
  fixed_zone a oa -> fixed_zone b ob -> fixed_zone c oc ->
  dt_eq tzo (rebuilt a) (rebuilt b) = Ok true -> dt_eq tzo (rebuilt b) (rebuilt c) = Ok true ->
  dt_eq tzo (rebuilt a) (rebuilt c) = Ok true.
Proof. exact DateTimeOpsProofs.eq_trans_rebuilt. Qed.
Print Assumptions C06_transitive_fixed_zones.
Example C06_transitive_fixed_zones_ex : forall tzo,
  let a := newDateTime 2000 1 1 1 0 0 false (TzInt 3600) in let b := newDateTime 2000 1 1 0 0 0 true TzNone in
  let c := newDateTime 1999 12 31 19 0 0 false (TzInt (-18000)) in
  valid_dt a /\ valid_dt b /\ valid_dt c /\ fixed_zone c (-18000) /\
  dt_eq tzo a b = Ok true /\ dt_eq tzo b c = Ok true.
Proof.
  cbv zeta. intro. repeat (split; [unfold valid_dt, valid_time; cbn; lia|]).
  split; [split; [reflexivity|right; split; reflexivity]|]. split; reflexivity.
Qed.

(** Floating values equal both of two different instants, and hash differently. *)
Theorem C06_floating_refuted : exists tzo a b c,
  valid_dt a /\ valid_dt b /\ valid_dt c /\
  dt_eq tzo a b = Ok true /\ dt_eq tzo b c = Ok true /\ dt_eq tzo a c = Ok false /\
  dt_hash tzo b <> dt_hash tzo c.
Proof.
  exists (fun _ _ _ _ _ _ _ _ _ => 0), (newDateTime 2000 1 1 12 0 0 true TzNone),
    (newDateTime 2000 1 1 12 0 0 false TzNone), (newDateTime 2000 1 1 12 0 0 false (TzInt 3600)).
  repeat (split; [unfold valid_dt, valid_time; cbn; lia|]).
  repeat (split; [reflexivity|]). vm_compute. discriminate.
Qed.
Print Assumptions C06_floating_refuted.

(** Also with zones alone: a time inside the hour skipped by daylight saving. *)
Theorem C06_skipped_hour_refuted : exists tzo a b c,
  valid_dt a /\ valid_dt b /\ valid_dt c /\
  floating a = false /\ floating b = false /\ floating c = false /\
  dt_eq tzo a b = Ok true /\ dt_eq tzo b c = Ok true /\ dt_eq tzo a c = Ok false.
Proof.
  exists (fun _ _ _ _ h _ _ _ _ => if h <? 2 then -18000 else -14400),
    (newDateTime 2010 3 14 1 30 0 false (TzName (lit "America/New_York"))),
    (newDateTime 2010 3 14 6 30 0 true TzNone),
    (newDateTime 2010 3 14 2 30 0 false (TzName (lit "America/New_York"))).
  repeat (split; [unfold valid_dt, valid_time; cbn; lia|]). repeat split; reflexivity.
Qed.
Print Assumptions C06_skipped_hour_refuted.

(** A date equals every time of that day. *)
Theorem C06_date_refuted : exists tzo a b c,
  valid_dt a /\ valid_dt b /\ valid_dt c /\
  dt_eq tzo a b = Ok true /\ dt_eq tzo b c = Ok true /\ dt_eq tzo a c = Ok false.
Proof.
  exists (fun _ _ _ _ _ _ _ _ _ => 0), (newDateTime 2000 1 1 12 0 0 true TzNone),
    (newDate 2000 1 1 true TzNone), (newDateTime 2000 1 1 13 0 0 true TzNone).
  repeat (split; [unfold valid_dt, valid_time; cbn; lia|]). repeat split; reflexivity.
Qed.
Print Assumptions C06_date_refuted.

(** C07. After any sequence of public calls that do not raise, starting from an object with empty
    caches, getPosixTime is the value a fresh object with the same visible fields
    would give, provided adjustToUTC is only used on values (and giving values) in
    1901..2100, or on values for which no posix time was cached. *)
Theorem C07_posix_never_stale : forall tzo ctx l d d',
  DateTimeOpsProofs.adjusts_safe tzo ctx (rebuilt d) l -> run tzo ctx (rebuilt d) l = Ok d' ->
  snd (getPosixTime tzo d') = snd (getPosixTime tzo (rebuilt d')).
Proof. exact DateTimeOpsProofs.run_posix. Qed.
Print Assumptions C07_posix_never_stale.
Example C07_posix_never_stale_ex :
  let tzo := fun _ _ _ _ _ _ _ _ _ => 3600 in
  let d := newDateTime 2000 1 1 0 0 0 false (TzName (lit "X")) in
  let l := [OGetPosix; OSetHours 5; OGetPosix; OAdjustToUTC; OOffsetDay 400; OGetPosix; OSetTzID (TzInt 60); OParse false (lit "20240101T101010")] in
  DateTimeOpsProofs.adjusts_safe tzo default_ctx d l /\
  exists d', run tzo default_ctx d l = Ok d' /\ snd (getPosixTime tzo d') = Ok 1704103750.
Proof.
  cbv zeta. split.
  - vm_compute. repeat match goal with |- _ /\ _ => split end; try exact I; intro H; try discriminate H.
    right. repeat split; discriminate.
  - eexists. split; vm_compute; reflexivity.
Qed.

(** Without the range condition: the posix time kept by adjustToUTC is a day off. *)
Theorem C07_adjust_refuted : exists tzo d d' p,
  valid_dt d /\ run tzo default_ctx (rebuilt d) [OGetPosix; OAdjustToUTC] = Ok d' /\
  snd (getPosixTime tzo d') = Ok p /\ snd (getPosixTime tzo (rebuilt d')) = Ok (p - 86400).
Proof.
  exists (fun _ _ _ _ _ _ _ _ _ => 3600), (newDateTime 1901 1 1 0 0 0 false (TzName (lit "X"))),
    (mkDT 1900 12 31 23 0 0 false true TzNone (Some 0) true (-2177456400)), (-2177456400).
  split; [unfold valid_dt, valid_time; cbn; lia|]. split; [vm_compute; reflexivity|].
  split; vm_compute; reflexivity.
Qed.
Print Assumptions C07_adjust_refuted.

(** A parse that raises leaves new fields with the old cached value. *)
Theorem C07_failed_parse_refuted : exists tzo d text,
  let d1 := fst (getPosixTime tzo d) in
  let d2 := fst (dt_parse default_ctx false text d1) in
  snd (dt_parse default_ctx false text d1) = Raise ValueError /\
  snd (getPosixTime tzo d2) <> snd (getPosixTime tzo (rebuilt d2)).
Proof.
  exists (fun _ _ _ _ _ _ _ _ _ => 0), (newDateTime 2000 1 1 0 0 0 true TzNone), (lit "20240506X").
  cbv zeta. split; [reflexivity|]. vm_compute. discriminate.
Qed.
Print Assumptions C07_failed_parse_refuted.

(** C04. The difference of any two values: what their clocks read, each taken to UTC by the offset of its zone; a
    floating value is read in the zone of the other one. *)
Theorem C04_difference : forall tzo a b x y, valid_dt a -> valid_dt b ->
  1901 <= mYear a <= 2100 -> 1901 <= mYear b <= 2100 ->
  mTZOffset a = None -> mTZOffset b = None -> mPosixTimeCached a = false -> mPosixTimeCached b = false ->
  clock_reads a x -> clock_reads b y ->
  subDateTime tzo a b = Ok ((x - zone_offset tzo (zone_for a b) a) - (y - zone_offset tzo (zone_for b a) b)).
Proof. exact DateTimeProofs4.difference. Qed.
Print Assumptions C04_difference.
Example C04_difference_ex :
  let tzo := fun t y m (d h mi s : Z) (o r : bool) => if m <? 6 then -18000 else -14400 in
  let a := newDateTime 2024 7 1 12 0 0 false TzNone in
  let b := newDateTime 2024 1 1 12 0 0 false (TzName (lit "X")) in
  floating a = true /\ zone_for a b = (false, TzName (lit "X")) /\
  subDateTime tzo a b = Ok (182 * 86400 - 3600) /\ subDateTime tzo b a = Ok (3600 - 182 * 86400).
Proof. cbv zeta. repeat split; vm_compute; reflexivity. Qed.

(** C12. Reading back what getText writes (fullISO is needed for numeric zones). *)
Theorem C12_text_round_trip : forall ctx full d, printable d ->
  (mDateOnly d = false -> mTZUTC d = false ->
   match mTZID d with TzInt n => full = true /\ off_ok n | _ => True end) ->
  dt_parseText ctx full (getText d) = Ok (said d).
Proof. exact DateTimeTextProofs.text_round_trip. Qed.
Print Assumptions C12_text_round_trip.
Example C12_text_round_trip_ex :
  let d := newDateTime 33 2 9 23 4 59 false (TzInt (-12600)) in
  printable d /\ off_ok (-12600) /\ getText d = lit "00330209T230459-0330" /\
  dt_parseText default_ctx true (lit "00330209T230459-0330") = Ok d.
Proof. cbv zeta. split; [unfold printable; cbn; lia|]. split; [unfold off_ok; split; [reflexivity|lia]|]. split; reflexivity. Qed.

Theorem C12_xml_round_trip : forall ctx d, printable d ->
  (mDateOnly d = false -> mTZUTC d = false -> match mTZID d with TzInt n => off_ok n | _ => True end) ->
  dt_parseText ctx true (getXMLText d) = Ok (said d).
Proof. exact DateTimeTextProofs.xml_round_trip. Qed.
Print Assumptions C12_xml_round_trip.
Example C12_xml_round_trip_ex :
  let d := newDateTime 2024 12 31 0 0 60 true TzNone in
  printable d /\ getXMLText d = lit "2024-12-31T00:00:60Z" /\
  dt_parseText default_ctx true (lit "2024-12-31T00:00:60Z") = Ok d.
Proof. cbv zeta. split; [unfold printable; cbn; lia|]. split; reflexivity. Qed.

(** C13. Whatever the text and the object, the only exception is ValueError. *)
Theorem C13_only_value_error : forall ctx full s d e,
  snd (dt_parse ctx full s d) = Raise e -> e = ValueError.
Proof. exact DateTimeTextProofs.dt_parse_only_value. Qed.
Print Assumptions C13_only_value_error.
Example C13_only_value_error_ex :
  snd (dt_parse default_ctx true (lit "2024-1") newDefault) = Raise ValueError /\
  snd (dt_parse default_ctx true (lit "20240101T101010,") newDefault) = Raise ValueError /\
  snd (dt_parse default_ctx false (lit "20240101T101010ZZ") newDefault) = Raise ValueError.
Proof. repeat split; reflexivity. Qed.

Theorem C13_date_not_negative : forall ctx full s d, dt_parseText ctx full s = Ok d ->
  0 <= mYear d /\ 0 <= mMonth d /\ 0 <= mDay d.
Proof. exact DateTimeTextProofs.dt_parse_date_nonneg. Qed.
Print Assumptions C13_date_not_negative.
Example C13_date_not_negative_ex : dt_parseText default_ctx false (lit "2024-1-1") = Raise ValueError.
Proof. reflexivity. Qed.

(** Exactly these texts are accepted in the iCalendar syntax, with exactly these values. *)
Theorem C13_accepted : forall ctx s d, dt_parseText ctx false s = Ok d <->
  exists y m dd tm, dt_columns s (y, m, dd) tm /\ 0 <= y /\ 0 <= m /\ 0 <= dd /\
    (INVALID_DATETIME_LEADINGSPACE ctx = PARSER_RAISE -> ~ In SPC (firstn 8 s)) /\
    d = match tm with
        | None => newDate y m dd false TzNone
        | Some (h, mi, x, z) => newDateTime y m dd h mi x z TzNone
        end.
Proof. exact DateTimeTextProofs.accepted. Qed.
Print Assumptions C13_accepted.
Example C13_accepted_ex :
  dt_parseText default_ctx false (lit "20240229T235960Z") = Ok (newDateTime 2024 2 29 23 59 60 true TzNone) /\
  dt_columns (lit "20240229T235960Z") (2024, 2, 29) (Some (23, 59, 60, true)) /\
  dt_parseText default_ctx false (lit "20240229T235960ZZ") = Raise ValueError.
Proof.
  split; [reflexivity|]. split; [|reflexivity].
  apply (cols_time _ (lit "2024") (lit "02") (lit "29") (lit "23") (lit "59") (lit "60") true); reflexivity.
Qed.

(** But accepted text need not be a date-time: out-of-range, negative and missing fields. *)
Theorem C13_accepts_only_dates_refuted : exists s1 s2 s3 d1 d2 d3,
  dt_parseText default_ctx false s1 = Ok d1 /\ mHours d1 < 0 /\
  dt_parseText default_ctx false s2 = Ok d2 /\ 12 < mMonth d2 /\
  dt_parseText default_ctx false s3 = Ok d3 /\ (List.length s3 = 7)%nat.
Proof.
  exists (lit "20240101T-1-1-1"), (lit "20249999"), (lit "2024011").
  eexists _, _, _. repeat split; reflexivity.
Qed.
Print Assumptions C13_accepts_only_dates_refuted.

(** C47. Parsing the iCalendar syntax into an existing object: whether it succeeds depends only on
    the text; so do the date, the date-only flag and, if there is a time, the time and UTC flag.
    The TZID is kept, and for a date the old time and UTC flag are kept too. *)
Theorem C47_parse_reuse : forall ctx s d1 d2,
  let r1 := fst (dt_parse ctx false s d1) in let r2 := fst (dt_parse ctx false s d2) in
  snd (dt_parse ctx false s d1) = snd (dt_parse ctx false s d2) /\
  (snd (dt_parse ctx false s d1) = Ok tt ->
    ymd r1 = ymd r2 /\ mDateOnly r1 = mDateOnly r2 /\ mTZID r1 = mTZID d1 /\
    (mDateOnly r1 = false -> (mHours r1, mMinutes r1, mSeconds r1, mTZUTC r1) = (mHours r2, mMinutes r2, mSeconds r2, mTZUTC r2)) /\
    (mDateOnly r1 = true -> (mHours r1, mMinutes r1, mSeconds r1, mTZUTC r1) = (mHours d1, mMinutes d1, mSeconds d1, mTZUTC d1))).
Proof. exact DateTimeTextProofs.parse_reuse. Qed.
Print Assumptions C47_parse_reuse.
Example C47_parse_reuse_ex :
  snd (dt_parse default_ctx false (lit "20240506") (newDateTime 2000 1 1 10 20 30 true TzNone)) = Ok tt /\
  visible (fst (dt_parse default_ctx false (lit "20240506") (newDateTime 2000 1 1 10 20 30 true TzNone))) =
  ((2024, 5, 6), (10, 20, 30), true, true, TzNone).
Proof. split; reflexivity. Qed.

(** So the result depends on the old value: the same text gives two different posix times. *)
Theorem C47_text_only_refuted : exists tzo s d1 d2,
  let r1 := fst (dt_parse default_ctx false s d1) in let r2 := fst (dt_parse default_ctx false s d2) in
  snd (dt_parse default_ctx false s d1) = Ok tt /\ snd (dt_parse default_ctx false s d2) = Ok tt /\
  snd (getPosixTime tzo r1) <> snd (getPosixTime tzo r2).
Proof.
  exists (fun _ _ _ _ _ _ _ _ _ => 0), (lit "20240506"), newDefault, (newDateTime 2000 1 1 10 20 30 true TzNone).
  cbv zeta. split; [reflexivity|]. split; [reflexivity|]. vm_compute. discriminate.
Qed.
Print Assumptions C47_text_only_refuted.
