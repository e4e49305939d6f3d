(** C82: what an overriding component takes from its master. *)
From Coq Require Import Lia.
From Verif Require Import PyBase PyProofs CalSpec DateTimeModel DateTimeSpec DateTimeSpec2 DurationModel DurationProofs PeriodModel PeriodSpec PropertyModel ComponentModel CalendarModel RecurModel
  RecurUnionSpec TimingModel TimingSpec TimingProofs TimingProofs2 MasterModel PropComponent PropRecur2 PropRecur4 PropRecur5 PropTiming.

(** The start: its own DTSTART, or the time of the instance it overrides.  Apart from start and end everything is as finalise leaves it. *)
Theorem C82_start : forall tzo k ps t m s t', setMaster tzo k ps t (Some m) = Ok (s, t') ->
  (hasProperty (lit "DTSTART") ps = true -> exists u, timing_finalise k ps t = Ok u /\ s = Some (tStart u)) /\
  (hasProperty (lit "DTSTART") ps = false -> s = tRid t') /\
  exists u, timing_finalise k ps t = Ok u /\ tStamp t' = tStamp u /\ tHasStart t' = tHasStart u /\ tHasEnd t' = tHasEnd u /\ tDuration t' = tDuration u /\
    tHasRid t' = tHasRid u /\ tRid t' = tRid u /\ tFuture t' = tFuture u /\ tPrior t' = tPrior u /\ tSet t' = tSet u.
Proof.
  intros tzo k ps t m s t' H. unfold setMaster, initFromMaster in H. destruct (timing_finalise k ps t) as [u|] eqn:F; cbn [rbind] in H; [|discriminate H]. cbv zeta in H.
  assert (X : s = (if hasProperty (lit "DTSTART") ps then Some (tStart u) else tRid u) /\ tRid t' = tRid u /\
    t' = with_end u (tEnd t')).
  { destruct (negb (hasProperty (lit "DTEND") ps) && negb (hasProperty (lit "DURATION") ps)).
    - destruct (subDateTime tzo (tEnd m) (tStart m)) as [n|]; cbn [rbind] in H; [|discriminate H].
      destruct (plus_duration _ _) as [e|]; cbn [rbind] in H; [|discriminate H]. injection H as <- <-. repeat split.
    - destruct (hasProperty (lit "DURATION") ps && negb (hasProperty (lit "DTSTART") ps)).
      + destruct (plus_duration _ _) as [e|]; cbn [rbind] in H; [|discriminate H]. injection H as <- <-. repeat split.
      + injection H as <- <-. split; [reflexivity|]. split; [reflexivity|]. destruct u. reflexivity. }
  destruct X as (-> & R & E). split; [intros ->; eauto|]. split; [intros ->; congruence|]. exists u. split; [reflexivity|]. rewrite E. repeat split.
Qed.
Print Assumptions C82_start.
(** Without DTEND and DURATION it lasts as long as the master, where the clocks never change. *)
Theorem C82_length : forall tzo sc k ps t u m s a y p, timing_finalise k ps t = Ok u -> hasProperty (lit "DTEND") ps = false -> hasProperty (lit "DURATION") ps = false ->
  steady sc (tStart m) (tEnd m) -> instant sc (tStart m) a -> instant sc (tEnd m) y -> honest tzo (tStart m) -> honest tzo (tEnd m) ->
  1901 <= mYear (tStart m) <= 2100 -> 1901 <= mYear (tEnd m) <= 2100 ->
  (if hasProperty (lit "DTSTART") ps then s = tStart u else tRid u = Some s) -> instant sc s p ->
  exists t', setMaster tzo k ps t (Some m) = Ok (Some s, t') /\ instant sc (tEnd t') (p + (y - a)).
Proof.
  intros tzo sc k ps t u m s a y p F E D St A Y Ha Hy Ra Ry S P. destruct (length_ok tzo sc (tStart m) (tEnd m) a y St A Y Ha Hy Ra Ry) as (n & N & L).
  unfold setMaster, initFromMaster. rewrite F. cbn [rbind]. cbv zeta. rewrite E, D, N. cbn [negb andb rbind].
  assert (X : (if hasProperty (lit "DTSTART") ps then Some (tStart u) else tRid u) = Some s) by (destruct (hasProperty (lit "DTSTART") ps); congruence). rewrite X. cbn [plus_duration rbind].
  eexists. split; [reflexivity|]. cbn [with_end tEnd]. rewrite total_setDuration, <- (L p). apply (add_later tzo); [|exact P]. intros ->. exact St.
Qed.
Print Assumptions C82_length.
(** It is then at the times at which the master has the instance, if the master has DTEND. *)
Theorem C82_expanded : forall tzo i k ps t u m d, timing_finalise k ps t = Ok u -> hasProperty (lit "DTSTART") ps = false -> hasProperty (lit "DTEND") ps = false -> hasProperty (lit "DURATION") ps = false ->
  tRid u = Some d -> tHasRid m = false -> tHasEnd m = true ->
  match setMaster tzo k ps t (Some m), expand_owner tzo i m (Some d) with
  | Ok (s, t'), Ok x => s = Some (xStart x) /\ tEnd t' = xEnd x
  | Raise e, Raise e' => e = e'
  | _, _ => False
  end.
Proof.
  intros tzo i k ps t u m d F S E D R H He. unfold setMaster, initFromMaster, expand_owner, shift. rewrite F, H, He. cbn [rbind negb]. cbv zeta. rewrite S, E, D, R. cbn [negb andb].
  destruct (subDateTime tzo (tEnd m) (tStart m)) as [n|e]; cbn [rbind plus_duration]; [|reflexivity]. split; reflexivity.
Qed.
Print Assumptions C82_expanded.
(** With a DURATION and no DTSTART it ends that long after the time of the instance. *)
Theorem C82_duration : forall tzo sc k ps t u m du d p, timing_finalise k ps t = Ok u -> hasProperty (lit "DTSTART") ps = false ->
  loadDuration (lit "DURATION") ps = Some du -> hasProperty (lit "DURATION") ps = true -> tRid u = Some d -> sc <> Offsets -> instant sc d p ->
  exists t', setMaster tzo k ps t (Some m) = Ok (Some d, t') /\ instant sc (tEnd t') (later sc p (getTotalSeconds du)).
Proof.
  intros tzo sc k ps t u m du d p F S L H R O P. unfold setMaster, initFromMaster. rewrite F. cbn [rbind]. cbv zeta. rewrite S, H, L, R. rewrite andb_false_r. cbn [andb negb plus_duration rbind].
  eexists. split; [reflexivity|]. cbn [with_end tEnd]. apply (add_later tzo); assumption.
Qed.
Print Assumptions C82_duration.
(** With its own DTSTART and an end or a duration of its own, nothing is taken from the master; and a component is not changed by being its own master. *)
Theorem C82_own : forall tzo k ps t, setMaster tzo k ps t None = Ok (Some (tStart t), t) /\
  forall m u, timing_finalise k ps t = Ok u -> hasProperty (lit "DTSTART") ps = true -> hasProperty (lit "DTEND") ps = true \/ hasProperty (lit "DURATION") ps = true ->
    setMaster tzo k ps t (Some m) = Ok (Some (tStart u), u).
Proof.
  intros tzo k ps t. split; [reflexivity|]. intros m u F S E. unfold setMaster, initFromMaster. rewrite F. cbn [rbind]. cbv zeta. rewrite S. cbn [negb]. rewrite andb_false_r.
  assert (X : negb (hasProperty (lit "DTEND") ps) && negb (hasProperty (lit "DURATION") ps) = false) by (destruct E as [-> | ->]; cbn; [reflexivity|apply andb_false_r]). rewrite X. reflexivity.
Qed.
Print Assumptions C82_own.

(** ** Examples *)
(** Daily at nine for an hour; an instance with another summary, one that starts at noon, one that lasts three hours, and one that has all its times. *)
Definition csM : list comp := Eval vm_compute in read
  (vevent [lit "DTSTART:19700101T090000Z"; lit "DTEND:19700101T100000Z"; lit "RRULE:FREQ=DAILY;COUNT=9"] ++
   vevent [lit "RECURRENCE-ID:19700103T090000Z"; lit "SUMMARY:Elsewhere"] ++
   vevent [lit "RECURRENCE-ID:19700104T090000Z"; lit "DTSTART:19700104T120000Z"] ++
   vevent [lit "RECURRENCE-ID:19700105T090000Z"; lit "DURATION:PT3H"] ++
   vevent [lit "RECURRENCE-ID:19700106T090000Z"; lit "DTSTART:19700106T120000Z"; lit "DTEND:19700106T140000Z"]).
Definition props_of (i : nat) : props := cProps (object_of csM i).
(** The start and end after setMaster with the first as master. *)
Definition linked_times (cs : list comp) (i : nat) := 
  do r <- setMaster no_zones (cKind (object_of cs i)) (cProps (object_of cs i)) (timings cs i) (Some (timings cs 0)); Ok (option_map visible (fst r), visible (tEnd (snd r))).
Example C82_start_ex : linked_times csM 1 = Ok (Some (visible (utc 1970 1 3 9)), visible (utc 1970 1 3 10)) /\ linked_times csM 2 = Ok (Some (visible (utc 1970 1 4 12)), visible (utc 1970 1 4 13)) /\
  linked_times csM 3 = Ok (Some (visible (utc 1970 1 5 9)), visible (utc 1970 1 5 12)) /\ linked_times csM 4 = Ok (Some (visible (utc 1970 1 6 12)), visible (utc 1970 1 6 14)).
Proof. split; [vm_compute; reflexivity|]. split; [vm_compute; reflexivity|]. split; vm_compute; reflexivity. Qed.
Example C82_length_ex : let m := timings csM 0 in
  (exists u, timing_finalise VEVENT (props_of 1) (timings csM 1) = Ok u /\ tRid u = Some (utc 1970 1 3 9)) /\ hasProperty (lit "DTSTART") (props_of 1) = false /\
  hasProperty (lit "DTEND") (props_of 1) = false /\ hasProperty (lit "DURATION") (props_of 1) = false /\
  steady (InZone true TzNone) (tStart m) (tEnd m) /\ instant (InZone true TzNone) (tStart m) 32400 /\ instant (InZone true TzNone) (tEnd m) 36000 /\ honest no_zones (tStart m) /\ honest no_zones (tEnd m) /\
  instant (InZone true TzNone) (utc 1970 1 3 9) 205200.
Proof.
  cbv zeta. split; [eexists; split; vm_compute; reflexivity|]. split; [reflexivity|]. split; [reflexivity|]. split; [reflexivity|]. split; [left; reflexivity|].
  change (tStart (timings csM 0)) with (utc 1970 1 1 9). change (tEnd (timings csM 0)) with (utc 1970 1 1 10).
  split; [apply (utc_jan 1 9); lia|]. split; [apply (utc_jan 1 10); lia|]. split; [apply utc_honest|]. split; [apply utc_honest|]. apply (utc_jan 3 9); lia.
Qed.
Example C82_expanded_ex : tHasRid (timings csM 0) = false /\ tHasEnd (timings csM 0) = true /\
  expand_owner no_zones 0 (timings csM 0) (Some (utc 1970 1 3 9)) = Ok (mkExpanded 0 (utc 1970 1 3 9) (utc 1970 1 3 10) true).
Proof. split; [reflexivity|]. split; [reflexivity|]. vm_compute. reflexivity. Qed.
Example C82_duration_ex : (exists u, timing_finalise VEVENT (props_of 3) (timings csM 3) = Ok u /\ tRid u = Some (utc 1970 1 5 9)) /\ hasProperty (lit "DTSTART") (props_of 3) = false /\
  (exists du, loadDuration (lit "DURATION") (props_of 3) = Some du /\ getTotalSeconds du = 10800) /\ hasProperty (lit "DURATION") (props_of 3) = true /\ instant (InZone true TzNone) (utc 1970 1 5 9) 378000.
Proof.
  split; [eexists; split; vm_compute; reflexivity|]. split; [reflexivity|]. split; [eexists; split; vm_compute; reflexivity|]. split; [reflexivity|]. apply (utc_jan 5 9); lia.
Qed.
Example C82_own_ex : (exists u, timing_finalise VEVENT (props_of 4) (timings csM 4) = Ok u) /\ hasProperty (lit "DTSTART") (props_of 4) = true /\ hasProperty (lit "DTEND") (props_of 4) = true.
Proof. split; [eexists; vm_compute; reflexivity|]. split; reflexivity. Qed.

(** ** What does not hold *)
(** A to-do that has its own DUE loses it: only DTEND and DURATION are looked for. *)
Theorem C82_due_refuted : exists l d, loadDateTime (lit "DUE") (cProps (object_of (read l) 1)) = Some d /\ visible (tEnd (timings (read l) 1)) = visible d /\
  exists s e, linked_times (read l) 1 = Ok (s, e) /\ e <> visible d.
Proof.
  exists ([lit "BEGIN:VTODO"; lit "UID:a"; lit "DTSTART:19700101T090000Z"; lit "DUE:19700101T100000Z"; lit "RRULE:FREQ=DAILY"; lit "END:VTODO";
    lit "BEGIN:VTODO"; lit "UID:a"; lit "RECURRENCE-ID:19700103T090000Z"; lit "DTSTART:19700103T090000Z"; lit "DUE:19700103T180000Z"; lit "END:VTODO"]), (utc 1970 1 3 18).
  split; [vm_compute; reflexivity|]. split; [vm_compute; reflexivity|]. eexists. eexists. split; [vm_compute; reflexivity|]. vm_compute. discriminate.
Qed.
Print Assumptions C82_due_refuted.
(** A component without RECURRENCE-ID and DTSTART is left without a start, or the call ends with TypeError. *)
Theorem C82_none_refuted : exists l, (exists e, linked_times (read l) 1 = Ok (None, e)) /\ linked_times (read l) 2 = Raise TypeError.
Proof.
  exists (vevent [lit "DTSTART:19700101T090000Z"; lit "DTEND:19700101T100000Z"] ++ vevent [lit "DTEND:19700103T100000Z"] ++ vevent [lit "SUMMARY:Nothing"]).
  split; [eexists; vm_compute; reflexivity|]. vm_compute. reflexivity.
Qed.
Print Assumptions C82_none_refuted.
(** If the master has DURATION, what is taken from it is as long as the master, but the instances that expansion gives have no length (C60). *)
Theorem C82_expanded_refuted : exists l d, tRid (timings (read l) 1) = Some d /\ hasProperty (lit "DTSTART") (cProps (object_of (read l) 1)) = false /\
  hasProperty (lit "DTEND") (cProps (object_of (read l) 1)) = false /\ hasProperty (lit "DURATION") (cProps (object_of (read l) 1)) = false /\
  linked_times (read l) 1 = Ok (Some (visible d), visible (utc 1970 1 3 10)) /\ expand_owner no_zones 0 (timings (read l) 0) (Some d) = Ok (mkExpanded 0 d d true).
Proof.
  exists (vevent [lit "DTSTART:19700101T090000Z"; lit "DURATION:PT1H"; lit "RRULE:FREQ=DAILY"] ++ vevent [lit "RECURRENCE-ID:19700103T090000Z"]), (utc 1970 1 3 9).
  split; [vm_compute; reflexivity|]. split; [vm_compute; reflexivity|]. split; [vm_compute; reflexivity|]. split; [vm_compute; reflexivity|]. split; vm_compute; reflexivity.
Qed.
Print Assumptions C82_expanded_refuted.
(** A DURATION that is no duration (VALUE=TEXT) ends the call with AttributeError. *)
Theorem C82_value_refuted : exists l, linked_times (read l) 1 = Raise AttributeError.
Proof.
  exists (vevent [lit "DTSTART:19700101T090000Z"; lit "DTEND:19700101T100000Z"] ++ vevent [lit "RECURRENCE-ID:19700103T090000Z"; lit "DURATION;VALUE=TEXT:long"]). vm_compute. reflexivity.
Qed.
Print Assumptions C82_value_refuted.
