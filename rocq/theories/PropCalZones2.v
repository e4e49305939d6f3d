(** C91, continued: from the tz source to the answers of a calendar. *)
From Verif Require Import CalZonesModel CalZonesSpec PropCalZones.
From Coq Require Import Lia ZifyBool Sorting.Permutation Sorting.Sorted.
From Verif Require Import PyBase PyProofs CalSpec CalModel DateTimeSpec DateTimeModel PeriodSpec RecurModel RecurSpec RecurByPartsSpec RecurSetModel RecurUnionSpec VTimezoneModel VTimezoneSpec PropertySpec StatusProofs2 ComponentModel ComponentProofs6
  ZonalModel ZonalSpec ZonalProofs3 ZoneProofs2 TzFileModel ZoneFileModel ZoneFileProofs4 ZoneFileProofs5 ZoneTzProofs3 ZoneTzProofs9 PropTimezone PropZone PropZoneTz PropTzFile.
From Verif Require Import ZoneFileSpec ZoneSpec ZoneTzSpec PropComponent PropZoneTz.
From Verif Require Import PropZoneFile.
From Verif Require CalZonesProofs.

(** From the tz source to the answer: the calendar that is read from what the tz compiler writes answers with the offset that the lines of the zone define, whatever it was
    asked before about whichever zone (the premises are those of C74). *)
Theorem C91_compiled : forall tzo ctx fl uuids prodid d minYear maxYear want zones order torder top zn subs maxN lmt cs m s z ln e line lines first l,
  utf8 prodid -> asks want d (map fst zones) ->
  Forall (fun p => zone_vtimezone tzo (fst p) (tzRules d) minYear maxYear = Ok (snd p) /\ zone_name (znName (fst p)) /\ Forall sub_fine (snd p)) zones ->
  In (zn, subs) zones -> permutes order -> shuffles torder -> clock_ordered tzo local_time ->
  1901 <= maxYear -> new_year maxYear maxN -> top < maxYear -> top < 2099 ->
  znRules zn = map text_of ((z, ln, e) :: line :: lines) -> new_year minYear m -> new_year 1800 s ->
  zone_steps (tzRules d) maxYear s (lnStd ln) (lnStd ln) ((z, ln, e) :: line :: lines) (first :: l) -> spaced s (lnStd ln) (List.concat l) ->
  zone_expand tzo zn (tzRules d) minYear maxYear = Ok (lmt ++ cs) -> writable maxYear lmt cs -> utc_order cs -> Forall tellable cs ->
  exists text cal, vtimezones tzo fl prodid d minYear maxYear want = Some (Ok text) /\ parseTextData tzo ctx fl uuids text = Ok (Some cal) /\
  forall objs day t o, cal_asked tzo order torder top (definitions_of cal) objs -> asking cs top day t -> zone_offset e (line :: lines) t o -> m <= t ->
  exists N, forall fuel, (N <= fuel)%nat -> exists objs', cal_getTimezoneOffsetSeconds tzo order torder fuel objs (TzName (znName zn)) day true = Some (objs', Ok o).
Proof.
  intros tzo ctx fl uuids prodid d minYear maxYear want zones order torder top zn subs maxN lmt cs m s z ln e line lines first l U A F I P1 P2 CO HM NY T1 T2 Z M S St Sp Ex Wr Uo Tl.
  destruct (C74_zone tzo ctx fl uuids prodid d minYear maxYear want zones order torder top zn subs maxN lmt cs m s z ln e line lines first l U A F I P1 P2 CO HM NY T1 T2 Z M S St Sp Ex Wr Uo Tl)
    as (text & cal & c & E & R & C & H).
  exists text, cal. split; [exact E|]. split; [exact R|]. intros objs day t o As Aq Zo L.
  destruct (CalZonesProofs.chosen tzo order torder top (definitions_of cal) objs (znName zn) _ (CalZonesProofs.states _ _ _ _ _ _ As) (CalZonesProofs.found_first _ _ _ C)) as (obj & Ao & Oz & _).
  destruct (H obj day t o Ao Aq Zo L) as (N & G). exists N. intros fuel Lf. destruct (G fuel Lf) as (obj' & X). exact (Oz _ _ _ _ _ X).
Qed.
Print Assumptions C91_compiled.

(** New York in July 1919. *)
Example C91_compiled_ex : exists text cal, vtimezones tz_none fl0 prodid two_data 1902 2030 [] = Some (Ok text) /\ parseTextData tz_none default_ctx fl0 uuids0 text = Ok (Some cal) /\
  cal_asked tz_none same same 2020 (definitions_of cal) (zones_of cal) /\
  exists N, forall fuel, (N <= fuel)%nat -> exists objs', cal_getTimezoneOffsetSeconds tz_none same same fuel (zones_of cal) (TzName (lit "New_York")) (local_at 1919 7 1 0) true = Some (objs', Ok (-14400)).
Proof.
  assert (M : new_year 1902 (-2145916800)) by reads_tac (-24837).
  assert (Zo : zone_offset e1 [(z2, l2, e2); (z3, l3, e3)] (-1593820800) (-14400)) by (apply (zo_here e1 z2 l2); unfold e1, e2; lia).
  destruct (C91_compiled tz_none default_ctx fl0 uuids0 prodid two_data 1902 2030 [] both same same 2020 ny ny_subs 1893456000 [] ny_changes (-2145916800) (-5364662400) z1 l1 e1 (z2, l2, e2) [(z3, l3, e3)] _ _
    ltac:(apply ascii_text; reflexivity) both_asked both_fine ltac:(right; left; reflexivity) same_keeps same_shuffles no_offsets
    ltac:(lia) year_2030 ltac:(lia) ltac:(lia) eq_refl M start ny_steps ltac:(repeat constructor; cbn; lia) ny_expanded ny_writable (proj1 ny_told) (proj2 ny_told)) as (text & cal & E & R & H).
  exists text, cal. do 2 (split; [assumption|]). assert (As : cal_asked tz_none same same 2020 (definitions_of cal) (zones_of cal)) by apply C91_read. split; [exact As|].
  apply (H (zones_of cal) (local_at 1919 7 1 0) (-1593820800) (-14400)); [exact As| |exact Zo|lia].
  apply asking_check; try (vm_compute; reflexivity); cbn; lia.
Qed.
