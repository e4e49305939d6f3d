(** Properties of components derived from a master: C59. *)
From Coq Require Import Lia Sorting.Permutation.
From Verif Require Import PyBase PyProofs CalSpec DateTimeModel DateTimeSpec DateTimeSpec2 PeriodModel PeriodSpec PropertyModel ComponentModel CalendarModel RecurModel
  RecurExpand RecurExpandSpec RecurByPartsSpec RecurSetModel RecurUnionSpec TimingModel TimingSpec TimingProofs VTimezoneModel VTimezoneSpec AdjustSpec AdjustProofs DupModel DupSpec
  ValidateSpec DeriveModel DeriveSpec DeriveProofs CalendarSpec PropComponent PropCalendar PropRecur2 PropRecur4 PropRecur5 PropTiming PropAdjust.

(** deriveComponent gives a component of the kind and with the UID of the first master in the calendar, with copies of its
    sub-components and the same properties but for the times and what makes it recur.  It starts at the recurrence id, adjusted, which is
    also its RECURRENCE-ID.  It ends as long after that as the master lasts: DTEND says so unless the master has DURATION. *)
Theorem C59_derived : forall tzo uuid c i tim rid n, first_master c i -> ready (heap c i) -> tidy_props (cProps (heap c i)) -> finalised (heap c i) (tim i) ->
  subDateTime tzo (tEnd (tim i)) (tStart (tim i)) = Ok n ->
  exists new t', deriveComponent tzo uuid c tim rid = Ok (Some (new, t')) /\ derived (heap c i) (tim i) n (derived_start tzo (tStart (tim i)) rid) new t'.
Proof. exact component_ok. Qed.
Print Assumptions C59_derived.

(** Without a master there is nothing. *)
Theorem C59_none : forall tzo uuid c tim rid, (forall i, In i (held c) -> is_recur (cKind (heap c i)) = true -> getRecurrenceID (heap c i) <> None) ->
  deriveComponent tzo uuid c tim rid = Ok None.
Proof. intros tzo uuid c tim rid H. unfold deriveComponent. rewrite no_master by exact H. reflexivity. Qed.
Print Assumptions C59_none.

(** The start is the recurrence id itself if that is in the zone of the master, or if the master is in UTC or in no zone;
    it is the same date if both are dates. *)
Theorem C59_start : forall tzo start rid,
  (mDateOnly start = false -> same_zone start rid \/ mTZUTC start = true \/ floating start = true -> derived_start tzo start rid = rid) /\
  (mDateOnly start = true -> mDateOnly rid = true -> visible (derived_start tzo start rid) = visible rid).
Proof.
  intros tzo start rid. split; [|apply start_date]. intros D [Z|H]; [apply start_same; assumption|]. apply start_fixed; [exact D|].
  unfold floating in H. unfold local. destruct (mTZUTC start); [reflexivity|]. destruct (tz_true (mTZID start)); [destruct H; discriminate|reflexivity].
Qed.
Print Assumptions C59_start.

(** If the master is in a zone with such a definition (C62), then from a recurrence id in UTC the start is the same instant
    in the zone of the master, outside the hours that are repeated on the clock. *)
Theorem C59_from_utc : forall tzo start rid x n es, mDateOnly start = false -> mTZUTC start = false -> mTZID start = TzName n -> n <> [] ->
  instant (InZone true TzNone) rid x -> honest tzo rid ->
  let d := derived_start tzo start rid in
  1901 <= mYear rid <= 2100 -> 1901 <= mYear d <= 2100 ->
  chained es -> utc_ordered es -> unambiguous es true -> settled es x ->
  (forall m, instant (InZone true TzNone) m x -> answers tzo (TzName n) es true m) -> answers tzo (TzName n) es false d ->
  same_zone start d /\ mDateOnly d = false /\ snd (getPosixTime tzo d) = snd (getPosixTime tzo rid) /\ visible (adjustTimezone tzo d true TzNone) = visible rid.
Proof.
  intros tzo start rid x n es D U Z NE I H d Y Y' Ch Or Un Se A1 A2.
  assert (L : local start = true) by (unfold local; rewrite U, Z; destruct n; [congruence|reflexivity]).
  assert (E : d = adjustTimezone tzo rid false (TzName n)) by (unfold d; rewrite start_zone, U, Z by assumption; reflexivity).
  assert (NZ : (true, TzNone) <> (false, TzName n)) by discriminate.
  assert (X : x - ahead tzo true TzNone rid = x) by (unfold ahead; cbn [negb andb]; lia).
  destruct (to_zone tzo true TzNone rid x false (TzName n) I H NZ) as (m & _ & J). rewrite <- E in J. destruct J as [_ (J1 & J2 & J3 & _)].
  split; [split; congruence|]. split; [exact J1|].
  destruct (zone_keeps tzo true TzNone rid x n es I H NZ NE eq_refl Y) as [P V]; rewrite ?X, <- ?E; try assumption.
  split; [rewrite E in *; exact P|]. rewrite E. apply V. reflexivity.
Qed.
Print Assumptions C59_from_utc.

(** Putting the derived component into the calendar changes no instance: if the recurrence id is that of an instance in the
    window, not yet replaced, of a master with DTEND, then the instances of the master without it, together with the derived
    component, are those of the master before: as many, with the same starts and ends. *)
Theorem C59_replaces : forall tzo sc order i j c t s rid x range a w b overrides n uuid,
  permutes order -> is_recur (cKind c) = true -> cKind c <> VTODO -> ready c -> tidy_props (cProps c) -> finalised c t ->
  tSet t = Some s -> hasRecurrence s = true -> tHasRid t = false -> tHasEnd t = true -> subDateTime tzo (tEnd t) (tStart t) = Ok n ->
  set_reachable tzo order sc 0 (tStart t) s -> set_call tzo sc 0 s (tStart t) range a w b -> overrides_ok tzo sc (tStart t) overrides ->
  let d := derived_start tzo (tStart t) rid in
  instant sc d x -> same_zone (tStart t) d -> honest tzo d ->
  included sc 0 (tStart t) a w b s x -> ~ excluded sc 0 (tStart t) a w b s x -> ~ replaced sc overrides x -> w < later sc x n ->
  exists new t', derive tzo uuid c t rid = Ok (new, t') /\
  exists N, forall fuel, (N <= fuel)%nat -> exists t1 t2 xs ys zs,
    expandPeriod tzo order fuel i t (InCalendar overrides) range = Some (t1, (xs, Ok tt)) /\
    expandPeriod tzo order fuel i t (InCalendar (overrides ++ [(j, t')])) range = Some (t2, (ys, Ok tt)) /\
    (forall p, expandPeriod tzo order fuel j t' p range = Some (t', (zs, Ok tt))) /\
    zs <> [] /\ (forall p q, takes_place sc (ys ++ zs) p q <-> takes_place sc xs p q) /\ List.length (ys ++ zs) = List.length xs.
Proof. exact replaces. Qed.
Print Assumptions C59_replaces.

(** ** Examples *)
Definition no_uuid : list nat -> bytes := fun _ => [].
(** The new component as text and what it has for start and end. *)
Definition derived_lines (tzo : tzid -> Z -> Z -> Z -> Z -> Z -> Z -> bool -> bool -> Z) (cs : list comp) (rid : dt) :=
  match deriveComponent tzo no_uuid (filled_with cs) (timings cs) rid with
  | Ok (Some (new, t')) => match generate fl0 new with Some (Ok s) => Some (s, visible (tStart t'), visible (tEnd t')) | _ => None end
  | _ => None
  end.
Ltac ready_props := repeat constructor; eexists; (split; [reflexivity|]); cbn [value_ready item_ready rUseUntil rUntil]; repeat constructor.
Lemma master1 : first_master (filled_with cs1) 0 /\ ready (object_of cs1 0) /\ tidy_props (cProps (object_of cs1 0)) /\ finalised (object_of cs1 0) (timings cs1 0).
Proof.
  split; [|split; [|split]].
  - exists [], [1; 2]%nat. split; [reflexivity|]. split; [reflexivity|]. split; [reflexivity|constructor].
  - constructor; [ready_props|constructor|constructor].
  - split; [repeat constructor; no_in|]. repeat constructor; discriminate.
  - split; [exists new_timing; vm_compute; reflexivity|reflexivity].
Qed.
Example C59_derived_ex : first_master (filled_with cs1) 0 /\ ready (object_of cs1 0) /\ tidy_props (cProps (object_of cs1 0)) /\
  finalised (object_of cs1 0) (timings cs1 0) /\ subDateTime no_zones (tEnd (timings cs1 0)) (tStart (timings cs1 0)) = Ok 3600 /\
  derived_lines no_zones cs1 (utc 1970 1 4 9) =
    Some (lines [lit "BEGIN:VEVENT"; lit "UID:a"; lit "RECURRENCE-ID:19700104T090000Z"; lit "DTSTART:19700104T090000Z"; lit "DTEND:19700104T100000Z"; lit "END:VEVENT"],
          visible (utc 1970 1 4 9), visible (utc 1970 1 4 10)).
Proof.
  destruct master1 as (A & B & C & D). do 4 (split; [assumption|]). split; vm_compute; reflexivity.
Qed.
(** A calendar that holds only an override. *)
Example C59_none_ex : let cs := read (vevent [lit "RECURRENCE-ID:19700103T090000Z"; lit "DTSTART:19700103T120000Z"]) in
  held (filled_with cs) = [0%nat] /\ cKind (object_of cs 0) = VEVENT /\ deriveComponent no_zones no_uuid (filled_with cs) (timings cs) (utc 1970 1 3 9) = Ok None.
Proof. vm_compute. repeat split. Qed.
Example C59_start_ex : derived_start no_zones (utc 1970 1 1 9) (utc 1970 1 4 9) = utc 1970 1 4 9 /\
  derived_start no_zones (newDateTime 1970 1 1 9 0 0 false TzNone) (newDateTime 1970 1 4 9 0 0 false TzNone) = newDateTime 1970 1 4 9 0 0 false TzNone /\
  derived_start ny (in_ny 1 1 9 0) (in_ny 7 1 9 0) = in_ny 7 1 9 0 /\
  visible (derived_start no_zones (newDate 1970 1 1 false TzNone) (newDate 1970 1 4 false TzNone)) = visible (newDate 1970 1 4 false TzNone).
Proof. vm_compute. repeat split. Qed.
(** Seven o'clock UTC on 25 October 1970 is two o'clock in New York, when the repeated hour is just over. *)
Example C59_from_utc_ex : let start := in_ny 1 1 9 0 in let rid := utc 1970 10 25 7 in let d := derived_start ny start rid in
  instant (InZone true TzNone) rid (86400 * 297 + 3600 * 7) /\ honest ny rid /\ chained one_year /\ utc_ordered one_year /\ unambiguous one_year true /\
  settled one_year (86400 * 297 + 3600 * 7) /\ (forall m, instant (InZone true TzNone) m (86400 * 297 + 3600 * 7) -> answers ny (TzName (lit "New York")) one_year true m) /\
  answers ny (TzName (lit "New York")) one_year false d /\ visible d = visible (in_ny 10 25 2 0).
Proof.
  intros start rid d. destruct C62_instant_ex as (I & Ch & Or & Un & Se & A1 & A2 & V & _).
  assert (X : 86400 * 297 + 3600 * 7 - ahead ny true TzNone (utc 1970 10 25 7) = 86400 * 297 + 3600 * 7) by (unfold ahead; cbn [negb andb]; lia).
  rewrite X in Se, A1. assert (E : d = adjustTimezone ny (utc 1970 10 25 7) false (TzName (lit "New York"))) by reflexivity. rewrite E.
  split; [exact I|]. split; [apply new_honest|]. do 6 (split; [assumption|]). exact V.
Qed.
(** The fourth day of the daily event: it has one date left out, and one is replaced already. *)
Lemma ymd_apart d h x : 0 <= h < 24 -> 1 <= d <= 31 -> instant (InZone true TzNone) (utc 1970 1 d h) x -> x = 86400 * (d - 1) + 3600 * h.
Proof. intros H D I. exact (instant_fun no_zones (InZone true TzNone) _ _ _ I (utc_jan d h H D)). Qed.
Example C59_replaces_ex : let t := timings cs1 0 in let c := object_of cs1 0 in let sc := InZone true TzNone in let overrides := [(1%nat, timings cs1 1)] in
  let rid := utc 1970 1 4 9 in let x := 291600 in
  is_recur (cKind c) = true /\ cKind c <> VTODO /\ ready c /\ tidy_props (cProps c) /\ finalised c t /\ tSet t = Some set1 /\ hasRecurrence set1 = true /\
  tHasRid t = false /\ tHasEnd t = true /\ subDateTime no_zones (tEnd t) (tStart t) = Ok 3600 /\
  set_reachable no_zones (fun l => l) sc 0 (tStart t) set1 /\ set_call no_zones sc 0 set1 (tStart t) (january 1 5) 32400 0 345600 /\ overrides_ok no_zones sc (tStart t) overrides /\
  derived_start no_zones (tStart t) rid = rid /\ instant sc rid x /\ same_zone (tStart t) rid /\ honest no_zones rid /\
  included sc 0 (tStart t) 32400 0 345600 set1 x /\ ~ excluded sc 0 (tStart t) 32400 0 345600 set1 x /\ ~ replaced sc overrides x /\ 0 < later sc x 3600 /\
  exists new t' t1 t2 xs ys zs, derive no_zones no_uuid c t rid = Ok (new, t') /\
    expandPeriod no_zones (fun l => l) 20 0 t (InCalendar overrides) (january 1 5) = Some (t1, (xs, Ok tt)) /\
    expandPeriod no_zones (fun l => l) 20 0 t (InCalendar (overrides ++ [(3%nat, t')])) (january 1 5) = Some (t2, (ys, Ok tt)) /\
    expandPeriod no_zones (fun l => l) 20 3 t' NoParent (january 1 5) = Some (t', (zs, Ok tt)) /\
    map shown xs = [shows 0 (utc 1970 1 1 9) (utc 1970 1 1 10); shows 0 (utc 1970 1 4 9) (utc 1970 1 4 10)] /\
    map shown ys = [shows 0 (utc 1970 1 1 9) (utc 1970 1 1 10)] /\ map shown zs = [shows 3 (utc 1970 1 4 9) (utc 1970 1 4 10)].
Proof.
  intros t c sc overrides rid x. destruct master1 as (_ & B & C & D).
  split; [reflexivity|]. split; [discriminate|]. split; [exact B|]. split; [exact C|]. split; [exact D|].
  do 4 (split; [reflexivity|]). split; [vm_compute; reflexivity|]. split; [apply set_new; repeat constructor|]. split; [exact call1|]. split; [exact overrides1|].
  split; [reflexivity|]. split; [apply (utc_jan 4 9); lia|]. split; [split; reflexivity|]. split; [apply utc_honest|].
  split; [|split; [|split; [|split; [reflexivity|]]]].
  - right. left. split; [unfold x; lia|]. left. exists (rule_of "FREQ=DAILY;COUNT=5"), cache_init. split; [left; reflexivity|].
    exists None. split; [reflexivity|]. change (hasBy (rule_of "FREQ=DAILY;COUNT=5")) with false. cbv iota.
    exists 32400, 86400. split; [apply (utc_jan 1 9); lia|]. split; [reflexivity|]. exists 3. split; [lia|]. split; [reflexivity|]. right. split; [vm_compute; auto|discriminate].
  - intros [[_ [(r & k & I & _)|(d & I & J)]]|(p & e & y & I & _)]; [destruct I| |destruct I].
    destruct I as [<-|[]]. apply (ymd_apart 2 9) in J; unfold x in *; lia.
  - intros (o & d & [<-|[]] & E & J). injection E as <-. apply (ymd_apart 3 9) in J; unfold x in *; lia.
  - do 7 eexists. split; [vm_compute; reflexivity|]. split; [vm_compute; reflexivity|]. split; [vm_compute; reflexivity|]. split; [vm_compute; reflexivity|].
    vm_compute. repeat split.
Qed.

(** ** What does not hold *)

Definition vtodo (l : list bytes) : list bytes := [lit "BEGIN:VTODO"; lit "UID:a"] ++ l ++ [lit "END:VTODO"].
(** A to-do with DUE keeps the old one and gets DTEND, which it cannot have: it is due before it starts. *)
Theorem C59_due_refuted : exists l, derived_lines no_zones (read (vtodo l)) (utc 1970 1 4 9) =
    Some (lines [lit "BEGIN:VTODO"; lit "UID:a"; lit "RECURRENCE-ID:19700104T090000Z"; lit "DTSTART:19700104T090000Z"; lit "DUE:19700101T100000Z"; lit "DTEND:19700104T100000Z"; lit "END:VTODO"],
          visible (utc 1970 1 4 9), visible (utc 1970 1 1 10)).
Proof. exists [lit "DTSTART:19700101T090000Z"; lit "DUE:19700101T100000Z"; lit "RRULE:FREQ=DAILY"]. vm_compute. reflexivity. Qed.
Print Assumptions C59_due_refuted.

(** An event without DTEND gets one that is not after its start. *)
Theorem C59_no_end_refuted : exists l, derived_lines no_zones (read (vevent l)) (utc 1970 1 4 9) =
    Some (lines [lit "BEGIN:VEVENT"; lit "UID:a"; lit "RECURRENCE-ID:19700104T090000Z"; lit "DTSTART:19700104T090000Z"; lit "DTEND:19700104T090000Z"; lit "END:VEVENT"],
          visible (utc 1970 1 4 9), visible (utc 1970 1 4 9)).
Proof. exists [lit "DTSTART:19700101T090000Z"; lit "RRULE:FREQ=DAILY"]. vm_compute. reflexivity. Qed.
Print Assumptions C59_no_end_refuted.

(** A master in UTC does not bring the start to UTC, and a floating one does not make it floating. *)
Theorem C59_zone_refuted : exists l m rid, mTZUTC rid = false /\ (exists s, derived_lines ny (read (vevent l)) rid = Some (s, visible rid, visible rid) /\ mTZUTC (tStart (timings (read (vevent l)) 0)) = true) /\
  exists rid' s, floating rid' = false /\ derived_lines ny (read (vevent m)) rid' = Some (s, visible rid', visible rid') /\ floating (tStart (timings (read (vevent m)) 0)) = true.
Proof.
  exists [lit "DTSTART:19700101T090000Z"; lit "RRULE:FREQ=DAILY"], [lit "DTSTART:19700101T090000"; lit "RRULE:FREQ=DAILY"], (in_ny 1 4 4 0). split; [reflexivity|]. split.
  - eexists. split; [vm_compute; reflexivity|]. vm_compute. reflexivity.
  - exists (utc 1970 1 4 9). eexists. split; [reflexivity|]. split; [vm_compute; reflexivity|]. vm_compute. reflexivity.
Qed.
Print Assumptions C59_zone_refuted.

(** The derived component of a master with DURATION is longer than the instance it replaces, which has no length. *)
Theorem C59_duration_refuted : exists l new t', let cs := read (vevent l) in
  events_in true (january 1 5) cs = Some (Ok [shows 0 (utc 1970 1 1 9) (utc 1970 1 1 9); shows 0 (utc 1970 1 2 9) (utc 1970 1 2 9)]) /\
  deriveComponent no_zones no_uuid (filled_with cs) (timings cs) (utc 1970 1 2 9) = Ok (Some (new, t')) /\
  events_in true (january 1 5) (cs ++ [new]) = Some (Ok [shows 0 (utc 1970 1 1 9) (utc 1970 1 1 9); shows 1 (utc 1970 1 2 9) (utc 1970 1 2 10)]).
Proof.
  exists [lit "DTSTART:19700101T090000Z"; lit "DURATION:PT1H"; lit "RRULE:FREQ=DAILY;COUNT=2"]. eexists. eexists. cbv zeta. split; [vm_compute; reflexivity|].
  split; [vm_compute; reflexivity|]. vm_compute. reflexivity.
Qed.
Print Assumptions C59_duration_refuted.
