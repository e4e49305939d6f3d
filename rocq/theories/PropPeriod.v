(** Properties C17-C19: periods and UTC offsets.  [tzo] is the timezone database, an
    arbitrary function. *)
From Coq Require Import Lia ZifyBool.
From Verif Require Import PyBase ParserCtx CalModel CalSpec DateTimeModel DateTimeSpec DateTimeSpec2 DateTimeText DurationModel
  PeriodModel PeriodSpec.
From Verif Require PeriodProofs.

(** C17. A period [a, b) and a moment x, as numbers of seconds (days for dates). *)
Theorem C17_within : forall tzo sc p t e a b x,
  snd (getEnd p) = Ok e -> instant sc (pStart p) a -> instant sc e b -> instant sc t x ->
  isDateWithinPeriod tzo p t = Ok ((a <=? x) && (x <? b)) /\
  isDateBeforePeriod tzo p t = Ok (x <? a) /\ isDateAfterPeriod tzo p t = Ok (b <=? x).
Proof. exact PeriodProofs.within_spec. Qed.
Print Assumptions C17_within.
Example C17_within_ex :
  let p := newPeriodDur (newDateTime 1970 1 1 23 0 0 false (TzName (lit "X"))) (setDuration 7200) in
  let t := newDateTime 1970 1 2 0 59 59 false (TzName (lit "X")) in
  let sc := InZone false (TzName (lit "X")) in
  exists e, snd (getEnd p) = Ok e /\ instant sc (pStart p) 82800 /\ instant sc e 90000 /\ instant sc t 89999 /\
  forall tzo, isDateWithinPeriod tzo p t = Ok true.
Proof.
  cbv zeta. eexists. split; [vm_compute; reflexivity|].
  split; [|split; [|split]]; [| | |reflexivity]; unfold instant, valid_dt, valid_time; cbn.
  all: split; [lia|]; split; [reflexivity|]; split; [reflexivity|]; split; [reflexivity|].
  - exists 0. split; [left; split; [lia|reflexivity]|reflexivity].
  - exists 1. split; [left; split; [lia|reflexivity]|reflexivity].
  - exists 1. split; [left; split; [lia|reflexivity]|reflexivity].
Qed.

(** Two periods that are not empty overlap exactly when they have a moment in common. *)
Theorem C17_overlap : forall tzo sc p q pe qe a b c d,
  snd (getEnd p) = Ok pe -> snd (getEnd q) = Ok qe ->
  instant sc (pStart p) a -> instant sc pe b -> instant sc (pStart q) c -> instant sc qe d -> a < b -> c < d ->
  exists r, isPeriodOverlap tzo p q = Ok r /\ isPeriodOverlap tzo q p = Ok r /\
    (r = true <-> exists t, a <= t < b /\ c <= t < d).
Proof. exact PeriodProofs.overlap_common. Qed.
Print Assumptions C17_overlap.
Example C17_overlap_ex :
  let p := newPeriodEnd (newDate 1970 1 1 false TzNone) (newDate 1970 1 3 false TzNone) in
  let q := newPeriodEnd (newDate 1970 1 2 false TzNone) (newDate 1970 2 1 false TzNone) in
  instant Dates (newDate 1970 1 1 false TzNone) 0 /\ instant Dates (newDate 1970 1 3 false TzNone) 2 /\
  instant Dates (newDate 1970 1 2 false TzNone) 1 /\ instant Dates (newDate 1970 2 1 false TzNone) 31 /\
  forall tzo, isPeriodOverlap tzo p q = Ok true.
Proof.
  cbv zeta. repeat split; cbn; try lia; left; (split; [lia|reflexivity]).
Qed.

(** An empty period strictly inside another one counts as overlapping it. *)
Theorem C17_overlap_empty_refuted : exists tzo p q pe qe a b c,
  snd (getEnd p) = Ok pe /\ snd (getEnd q) = Ok qe /\
  instant Dates (pStart p) a /\ instant Dates pe b /\ instant Dates (pStart q) c /\ instant Dates qe c /\
  a < b /\ isPeriodOverlap tzo p q = Ok true /\ ~ exists t, a <= t < b /\ c <= t < c.
Proof.
  exists (fun _ _ _ _ _ _ _ _ _ => 0), (newPeriodEnd (newDate 1970 1 1 false TzNone) (newDate 1970 1 3 false TzNone)),
    (newPeriodEnd (newDate 1970 1 2 false TzNone) (newDate 1970 1 2 false TzNone)),
    (newDate 1970 1 3 false TzNone), (newDate 1970 1 2 false TzNone), 0, 2, 1.
  repeat split; cbn; try lia; try (left; (split; [lia|reflexivity])). intros (t & H); lia.
Qed.
Print Assumptions C17_overlap_empty_refuted.

(** == compares both ends; < is the order by start, then by end. *)
Theorem C17_order : forall tzo sc p q pe qe a b c d,
  snd (getEnd p) = Ok pe -> snd (getEnd q) = Ok qe ->
  instant sc (pStart p) a -> instant sc pe b -> instant sc (pStart q) c -> instant sc qe d ->
  period_eq tzo p q = Ok ((a =? c) && (b =? d)) /\
  period_lt tzo p q = Ok ((a <? c) || ((a =? c) && (b <? d))).
Proof. exact PeriodProofs.eqlt_spec. Qed.
Print Assumptions C17_order.
Example C17_order_ex : forall tzo,
  period_eq tzo (newPeriodEnd (newDateTime 2000 1 1 0 0 0 true TzNone) (newDateTime 2000 1 1 1 0 0 true TzNone))
    (newPeriodDur (newDateTime 2000 1 1 1 0 0 false (TzInt 3600)) (setDuration 3600)) = Ok true /\
  instant Offsets (newDateTime 2000 1 1 1 0 0 false (TzInt 3600)) 946684800.
Proof.
  intro. split; [vm_compute; reflexivity|]. unfold instant, valid_dt, valid_time; cbn.
  repeat match goal with |- _ /\ _ => split | |- exists _, _ => idtac end; try lia; try reflexivity.
  exists 10957, 3600. split; [split; [reflexivity|right; split; reflexivity]|]. split; [left; split; [lia|vm_compute; reflexivity]|reflexivity].
Qed.

(** But p > q is never the opposite of q < p: it raises. *)
Theorem C17_gt_refuted : exists tzo p q, period_lt tzo q p = Ok true /\ period_gt p q = Raise AttributeError.
Proof.
  exists (fun _ _ _ _ _ _ _ _ _ => 0), (newPeriodEnd (newDate 2000 1 2 false TzNone) (newDate 2000 1 3 false TzNone)),
    (newPeriodEnd (newDate 2000 1 1 false TzNone) (newDate 2000 1 3 false TzNone)).
  split; reflexivity.
Qed.
Print Assumptions C17_gt_refuted.

(** getEnd() == getStart() + getDuration() whichever of the two was given, in UTC and numeric zones. *)
Theorem C17_end_is_start_plus_duration : forall tzo p a b e,
  instant Offsets (pStart p) a -> snd (getEnd p) = Ok e -> instant Offsets e b ->
  (pDur p = None \/ pEnd p = None) -> 1901 <= mYear (addSeconds (pStart p) (b - a)) <= 2100 ->
  exists du, snd (getDuration tzo p) = Ok du /\ getTotalSeconds du = b - a /\
    dt_eq tzo (addSeconds (pStart p) (getTotalSeconds du)) e = Ok true.
Proof. exact PeriodProofs.end_start_duration. Qed.
Print Assumptions C17_end_is_start_plus_duration.
Example C17_end_is_start_plus_duration_ex : forall tzo,
  snd (getDuration tzo (newPeriodEnd (newDateTime 2000 1 1 1 0 0 false (TzInt 3600)) (newDateTime 2000 1 1 0 30 0 true TzNone))) = Ok (setDuration 1800).
Proof. intro. vm_compute. reflexivity. Qed.

(** And for floating times. *)
Theorem C17_end_is_start_plus_duration_floating : forall tzo t p a b e, tz_true t = false ->
  instant (InZone false t) (pStart p) a -> snd (getEnd p) = Ok e -> instant (InZone false t) e b ->
  (pDur p = None \/ pEnd p = None) -> 1901 <= mYear (pStart p) <= 2100 -> 1901 <= mYear e <= 2100 ->
  exists du, snd (getDuration tzo p) = Ok du /\ getTotalSeconds du = b - a /\
    dt_eq tzo (addSeconds (pStart p) (getTotalSeconds du)) e = Ok true.
Proof. exact PeriodProofs.end_start_duration_floating. Qed.
Print Assumptions C17_end_is_start_plus_duration_floating.
Example C17_end_is_start_plus_duration_floating_ex : forall tzo,
  snd (getDuration tzo (newPeriodEnd (newDateTime 2000 2 29 1 0 0 false TzNone) (newDateTime 2000 3 1 0 30 0 false TzNone))) = Ok (setDuration 84600).
Proof. intro. vm_compute. reflexivity. Qed.

(** In a zone with daylight saving the two differ: the difference is elapsed time, the sum is clock time. *)
Theorem C17_zone_refuted : exists tzo p e du,
  pDur p = None /\ snd (getEnd p) = Ok e /\ same_zone (pStart p) e /\ valid_dt (pStart p) /\ valid_dt e /\
  snd (getDuration tzo p) = Ok du /\ dt_eq tzo (addSeconds (pStart p) (getTotalSeconds du)) e = Ok false.
Proof.
  exists (fun _ _ _ d _ _ _ _ _ => if d <? 15 then -18000 else -14400),
    (newPeriodEnd (newDateTime 2010 3 13 12 0 0 false (TzName (lit "America/New_York"))) (newDateTime 2010 3 15 12 0 0 false (TzName (lit "America/New_York")))),
    (newDateTime 2010 3 15 12 0 0 false (TzName (lit "America/New_York"))), (setDuration 169200).
  repeat split; try (vm_compute; reflexivity); unfold valid_time; cbn; lia.
Qed.
Print Assumptions C17_zone_refuted.

(** Changing the representation keeps start and end. *)
Theorem C17_use_duration : forall tzo p use q, setUseDuration tzo p use = (q, Ok tt) ->
  pStart q = pStart p /\ pUse q = use /\ snd (getEnd q) = snd (getEnd p).
Proof. exact PeriodProofs.use_duration_end. Qed.
Print Assumptions C17_use_duration.
Example C17_use_duration_ex : forall tzo,
  setUseDuration tzo (newPeriodDur (newDate 2000 1 1 false TzNone) (setDuration 86400)) false =
  (mkPeriod (newDate 2000 1 1 false TzNone) (Some (newDate 2000 1 2 false TzNone)) (Some (setDuration 86400)) false, Ok tt).
Proof. reflexivity. Qed.

(** C18. Text of a period with an explicit end, in both syntaxes. *)
Theorem C18_end_text : forall ctx full s e, printable s -> printable e -> zone_ok full s -> zone_ok full e ->
  period_parseText ctx full (period_generate (newPeriodEnd s e)) = Ok (newPeriodEnd (said s) (said e)).
Proof. exact PeriodProofs.end_text. Qed.
Print Assumptions C18_end_text.
Example C18_end_text_ex :
  let s := newDateTime 2010 3 13 12 0 0 true TzNone in let e := newDateTime 2010 3 13 13 30 0 true TzNone in
  printable s /\ printable e /\ zone_ok false s /\ zone_ok false e /\
  period_generate (newPeriodEnd s e) = lit "20100313T120000Z/20100313T133000Z".
Proof. cbv zeta. unfold printable, zone_ok; cbn. repeat split; try lia; try discriminate. Qed.

Theorem C18_end_json : forall ctx s e, printable s -> printable e -> zone_ok true s -> zone_ok true e ->
  exists t, period_json (newPeriodEnd s e) = Ok t /\
    period_parseJSON ctx t newPeriod = (newPeriodEnd (said s) (said e), Ok tt).
Proof. exact PeriodProofs.end_json. Qed.
Print Assumptions C18_end_json.
Example C18_end_json_ex :
  let s := newDateTime 2010 3 13 12 0 0 false (TzInt 5400) in
  zone_ok true s /\ period_json (newPeriodEnd s s) = Ok (lit "2010-03-13T12:00:00+01:30", lit "2010-03-13T12:00:00+01:30").
Proof. cbv zeta. split; [|reflexivity]. unfold zone_ok, off_ok; cbn. lia. Qed.

(** A period with a duration that is not negative. *)
Theorem C18_duration_text : forall ctx full s n, printable s -> zone_ok full s -> 0 <= n ->
  exists du, period_parseText ctx full (period_generate (newPeriodDur s (setDuration n))) = Ok (newPeriodDur (said s) du) /\
    getTotalSeconds du = n.
Proof. exact PeriodProofs.dur_text. Qed.
Print Assumptions C18_duration_text.
Example C18_duration_text_ex :
  period_generate (newPeriodDur (newDateTime 2010 3 13 12 0 0 true TzNone) (setDuration 90060)) = lit "20100313T120000Z/P1DT1H1M".
Proof. reflexivity. Qed.

Theorem C18_duration_json : forall ctx s n, printable s -> zone_ok true s -> 0 <= n ->
  exists t du, period_json (newPeriodDur s (setDuration n)) = Ok t /\
    period_parseJSON ctx t newPeriod = (newPeriodDur (said s) du, Ok tt) /\ getTotalSeconds du = n.
Proof. exact PeriodProofs.dur_json. Qed.
Print Assumptions C18_duration_json.
Example C18_duration_json_ex :
  period_json (newPeriodDur (newDateTime 2010 3 13 12 0 0 true TzNone) (setDuration 0)) = Ok (lit "2010-03-13T12:00:00Z", lit "PT0S").
Proof. reflexivity. Qed.

(** With a negative duration the text is rejected, always. *)
Theorem C18_negative_duration_rejected : forall ctx full s n, printable s -> zone_ok full s -> n < 0 ->
  period_parseText ctx full (period_generate (newPeriodDur s (setDuration n))) = Raise ValueError.
Proof. exact PeriodProofs.dur_text_neg. Qed.
Print Assumptions C18_negative_duration_rejected.
Example C18_negative_duration_rejected_ex :
  period_generate (newPeriodDur (newDateTime 2010 3 13 12 0 0 true TzNone) (setDuration (-3600))) = lit "20100313T120000Z/-PT1H".
Proof. reflexivity. Qed.

(** So the round trip is false for periods in general. *)
Theorem C18_round_trip_refuted : exists p, forall ctx full, period_parseText ctx full (period_generate p) = Raise ValueError.
Proof.
  exists (newPeriodDur (newDateTime 2010 3 13 12 0 0 true TzNone) (setDuration (-3600))).
  intros. apply PeriodProofs.dur_text_neg; [unfold printable; cbn; lia|unfold zone_ok; cbn; discriminate|lia].
Qed.
Print Assumptions C18_round_trip_refuted.

(** Any text parsed into an object that has an end gives a period or a ValueError ... *)
Theorem C18_only_value_error : forall ctx full data p e, pEnd p <> None ->
  snd (period_parse ctx full data p) = Raise e -> e = ValueError.
Proof. exact PeriodProofs.period_only_value. Qed.
Print Assumptions C18_only_value_error.
Example C18_only_value_error_ex :
  period_parseText default_ctx false (lit "20100101T000000Z/") = Raise ValueError /\
  period_parseText default_ctx false (lit "20100101T000000Z/Px") = Raise ValueError /\
  period_parseText default_ctx false (lit "20100101T000000Z") = Raise ValueError.
Proof. repeat split; reflexivity. Qed.

(** ... but a period object that holds a duration cannot be reused for start/end text. *)
Theorem C18_reuse_refuted : exists ctx data p q, period_parseText ctx false data = Ok q /\
  snd (period_parse ctx false data p) = Raise AttributeError.
Proof.
  exists default_ctx, (lit "20100101T000000Z/20100102T000000Z"), (newPeriodDur newDefault (setDuration 60)).
  eexists. split; vm_compute; reflexivity.
Qed.
Print Assumptions C18_reuse_refuted.

(** Whatever the object held before, after a parse it holds the new end only or the new duration only. *)
Theorem C18_reuse_clean : forall ctx full a b p q, ~ In "/"%char a ->
  period_parse ctx full (a ++ "/"%char :: b) p = (q, Ok tt) ->
  (exists s, dt_parse ctx full a (pStart p) = (s, Ok tt) /\
   ((exists du, dur_parseText ctx b = Ok du /\ q = newPeriodDur s du) \/
    (exists old e, pEnd p = Some old /\ dt_parse ctx full b old = (e, Ok tt) /\ q = newPeriodEnd s e))).
Proof. exact PeriodProofs.reuse_clean. Qed.
Print Assumptions C18_reuse_clean.
Example C18_reuse_clean_ex :
  let p := mkPeriod newDefault (Some newDefault) (Some (setDuration 60)) true in
  period_parse default_ctx false (lit "20100101T000000Z/20100102T000000Z") p =
    (newPeriodEnd (newDateTime 2010 1 1 0 0 0 true TzNone) (newDateTime 2010 1 2 0 0 0 true TzNone), Ok tt).
Proof. vm_compute. reflexivity. Qed.

(** C19. UTC offsets below 100 hours: text and jCal/vCard syntax. *)
Theorem C19_round_trip : forall vcard v old, Z.abs v < 360000 ->
  utcoffset_parse vcard (utcoffset_generate vcard v) old = (v, Ok tt).
Proof. exact PeriodProofs.offset_round. Qed.
Print Assumptions C19_round_trip.
Example C19_round_trip_ex : utcoffset_generate false (-1800) = lit "-0030" /\ utcoffset_generate true (-1799) = lit "-00:29:59" /\
  utcoffset_parse true (lit "-00:29:59") 7 = (-1799, Ok tt).
Proof. repeat split; reflexivity. Qed.

Theorem C19_only_value_error : forall vcard s old e, snd (utcoffset_parse vcard s old) = Raise e -> e = ValueError.
Proof. exact PeriodProofs.offset_only_value. Qed.
Print Assumptions C19_only_value_error.
Example C19_only_value_error_ex : utcoffset_parse false (lit "+1:30") 7 = (7, Raise ValueError) /\
  utcoffset_parse false [] 7 = (0, Raise ValueError).
Proof. repeat split; reflexivity. Qed.

(** The XML form is readable exactly for whole minutes. *)
Theorem C19_xml : forall v old, Z.abs v < 360000 ->
  if v mod 60 =? 0 then utcoffset_parse true (utcoffset_xml v) old = (v, Ok tt)
  else utcoffset_parse true (utcoffset_xml v) old = (0, Raise ValueError).
Proof. exact PeriodProofs.offset_xml. Qed.
Print Assumptions C19_xml.
Example C19_xml_ex : utcoffset_xml 19800 = lit "+05:30" /\ utcoffset_xml 1172 = lit "+0019:32".
Proof. split; reflexivity. Qed.

(** From 1000 hours on, the text can be read as another offset. *)
Theorem C19_large_refuted : exists v w old, utcoffset_parse false (utcoffset_generate false v) old = (w, Ok tt) /\ v <> w.
Proof. exists 3600000, 36000, 0. split; [vm_compute; reflexivity|discriminate]. Qed.
Print Assumptions C19_large_refuted.

(** Texts that are not offsets are accepted. *)
Theorem C19_accepts_only_offsets_refuted : exists s v old, utcoffset_parse false s old = (v, Ok tt) /\ s = lit "+-1-1" /\ v = -3660.
Proof. exists (lit "+-1-1"), (-3660), 0. repeat split. Qed.
Print Assumptions C19_accepts_only_offsets_refuted.
