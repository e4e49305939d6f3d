(** Properties of the expansion of components in a window: C60. *)
From Coq Require Import Lia Sorting.Permutation.
From Verif Require Import PyBase PyProofs CalSpec DateTimeModel DateTimeSpec DateTimeSpec2 PeriodModel PeriodSpec PropertyModel ComponentModel CalendarModel RecurModel
  RecurExpand RecurExpandSpec RecurByPartsSpec RecurSetModel RecurUnionSpec TimingModel TimingSpec TimingProofs TimingProofs2
  CalendarSpec PropComponent PropCalendar PropRecur2 PropRecur4 PropRecur5.

(** A master that recurs, in a calendar with these overridden instances: the instances in the window without those that are
    overridden, each once, each as long as DTEND - DTSTART, and nothing about the component changes that a later call could
    see. *)
Theorem C60_recurring : forall tzo sc i t s range a w b order overrides n, permutes order ->
  tSet t = Some s -> hasRecurrence s = true -> tHasRid t = false ->
  set_reachable tzo order sc 0 (tStart t) s -> set_call tzo sc 0 s (tStart t) range a w b ->
  overrides_ok tzo sc (tStart t) overrides -> (tHasEnd t = true -> subDateTime tzo (tEnd t) (tStart t) = Ok n) ->
  exists N, forall fuel, (N <= fuel)%nat -> exists t' xs,
    expandPeriod tzo order fuel i t (InCalendar overrides) range = Some (t', (xs, Ok tt)) /\
    holds_exactly sc (map xStart xs) (fun x => included sc 0 (tStart t) a w b s x /\ ~ excluded sc 0 (tStart t) a w b s x /\ ~ replaced sc overrides x) /\
    Forall (fun x => xOwner x = i /\ xRecurring x = true /\
      forall p, instant sc (xStart x) p -> instant sc (xEnd x) (if tHasEnd t then later sc p n else p)) xs /\
    same_event t t' /\ exists s', tSet t' = Some s' /\ set_reachable tzo order sc 0 (tStart t') s'.
Proof. exact recurring. Qed.
Print Assumptions C60_recurring.

(** Where the clocks never change, an instance of a master with DTEND lasts as long as the master. *)
Theorem C60_length : forall tzo sc s e a y, steady sc s e -> instant sc s a -> instant sc e y -> honest tzo s -> honest tzo e ->
  1901 <= mYear s <= 2100 -> 1901 <= mYear e <= 2100 -> exists n, subDateTime tzo e s = Ok n /\ forall p, later sc p n = p + (y - a).
Proof. exact length_ok. Qed.
Print Assumptions C60_length.

(** A component that does not recur, or that overrides an instance: itself, exactly if it ends after the window starts and
    starts before the window ends. *)
Theorem C60_single : forall tzo sc order fuel i t p range a e w b, isRecurring t = false -> (tHasRid t = true -> tRid t <> None) ->
  instant sc (tStart t) a -> instant sc (tEnd t) e -> instant sc (pStart range) w -> (exists d, snd (getEnd range) = Ok d /\ instant sc d b) ->
  expandPeriod tzo order fuel i t p range = Some (t, (if (w <? e) && (a <? b) then [mkExpanded i (tStart t) (tEnd t) (tHasRid t)] else [], Ok tt)).
Proof. exact single_expand. Qed.
Print Assumptions C60_single.

(** getVEvents of a calendar: what its events give, one after the other, with the overriding components that are in the
    calendar. *)
Theorem C60_calendar : forall tzo order range c linked tim allday (P : nat -> list expanded -> Prop), permutes order -> CalendarSpec.coherent c -> NoDup (held c) ->
  (forall i, In i (held c) -> cKind (heap c i) = VEVENT ->
     linked i = true /\ 1 <= mMonth (tStamp (tim i)) <= 12 /\ event_gives tzo order range (overriding c tim i) i (tim i) (P i)) ->
  (forall i, In i (held c) -> upper_type (heap c i) = lit "VEVENT" -> cKind (heap c i) = VEVENT) ->
  exists N, forall fuel, (N <= fuel)%nat -> exists tim' lists,
    getVEvents tzo order fuel linked range allday c tim = Some (tim', Ok (List.concat lists)) /\
    Forall2 P (filter (fun i => match cKind (heap c i) with VEVENT => true | _ => false end) (held c)) lists /\
    forall j, same_event (tim j) (tim' j).
Proof. exact calendar_ok. Qed.
Print Assumptions C60_calendar.

(** The recurrence id in the index of the calendar is the one of the expansion. *)
Theorem C60_recurrence_id : forall k st st' ps t t', recur_finalise st ps = Ok st' -> timing_finalise k ps t = Ok t' ->
  sRid st = tRid t -> sRid st' = tRid t'.
Proof. exact rid_agrees. Qed.
Print Assumptions C60_recurrence_id.

(** ** Examples: calendars read from text *)
Definition read (l : list bytes) : list comp :=
  match parseTextData no_zones default_ctx fl0 uuids0 (lines ([lit "BEGIN:VCALENDAR"; lit "VERSION:2.0"] ++ l ++ [lit "END:VCALENDAR"])) with
  | Ok (Some c) => cSubs c | _ => [] end.
Definition vevent (l : list bytes) : list bytes := [lit "BEGIN:VEVENT"; lit "UID:a"] ++ l ++ [lit "END:VEVENT"].
Definition object_of (cs : list comp) (i : nat) : comp := nth i cs (event [] []).
Definition filled_with (cs : list comp) : cal := fold_left (fun c i => cal_add i c) (seq 0 (List.length cs)) (new_cal (object_of cs)).
Definition timings (cs : list comp) (i : nat) : timing := match timing_of (object_of cs i) with Ok t => t | Raise _ => new_timing end.
(** The instances: owner, start and end. *)
Definition shown (x : expanded) := (xOwner x, visible (xStart x), visible (xEnd x)).
Definition shows (i : nat) (s e : dt) := (i, visible s, visible e).
Definition events_in (linked : bool) (range : period) (cs : list comp) : option (res (list (nat * _ * _))) :=
  match getVEvents no_zones (fun l => l) 20 (fun _ => linked) range false (filled_with cs) (timings cs) with
  | None => None
  | Some (_, r) => Some (do xs <- r; Ok (map shown xs))
  end.
Definition january (from to : Z) : period := newPeriodEnd (utc 1970 1 from 0) (utc 1970 1 to 0).

Lemma utc_jan d h : 0 <= h < 24 -> 1 <= d <= 31 -> instant (InZone true TzNone) (utc 1970 1 d h) (86400 * (d - 1) + 3600 * h).
Proof.
  intros Hh Hd. apply utc_at; [split; [unfold valid_date, ymd; cbn [utc newDateTime mYear mMonth mDay]; change (month_len hist_leap 1970 1) with 31; lia|split; [unfold valid_time; cbn; lia|discriminate]]|].
  left. split; [lia|]. assert (D : d - 1 = 0 \/ d - 1 = Z.of_nat (Z.to_nat (d - 1))) by lia.
  assert (G : forall n, 1 <= 1 + Z.of_nat n <= 31 -> Nat.iter n (next_day hist_leap) (1970, 1, 1) = (1970, 1, 1 + Z.of_nat n)).
  { induction n as [|n IH]; [reflexivity|]. intro L. cbn [Nat.iter nat_rect]. fold (Nat.iter n (next_day hist_leap) (1970, 1, 1)). rewrite IH by lia.
    unfold next_day. change (month_len hist_leap 1970 1) with 31.
    destruct (Z.ltb_spec (1 + Z.of_nat n) 31); [f_equal; lia|lia]. }
  rewrite G by lia. f_equal. lia.
Qed.

(** Daily at nine for an hour, with one date left out and one instance moved to noon; and a lunch. *)
Definition cs1 : list comp := Eval vm_compute in read
  (vevent [lit "DTSTART:19700101T090000Z"; lit "DTEND:19700101T100000Z"; lit "RRULE:FREQ=DAILY;COUNT=5"; lit "EXDATE:19700102T090000Z"] ++
   vevent [lit "RECURRENCE-ID:19700103T090000Z"; lit "DTSTART:19700103T120000Z"; lit "DTEND:19700103T140000Z"] ++
   [lit "BEGIN:VEVENT"; lit "UID:lunch"; lit "DTSTART:19700104T120000Z"; lit "DURATION:PT1H"; lit "END:VEVENT"]).
Definition set1 : rset := Eval vm_compute in match tSet (timings cs1 0) with Some s => s | None => mkRset [] [] [] [] [] [] end.
Lemma range_end f t : snd (getEnd (january f t)) = Ok (utc 1970 1 t 0).
Proof. reflexivity. Qed.
Lemma call1 : set_call no_zones (InZone true TzNone) 0 set1 (tStart (timings cs1 0)) (january 1 5) 32400 0 345600.
Proof.
  change (tStart (timings cs1 0)) with (utc 1970 1 1 9).
  assert (S : instant (InZone true TzNone) (utc 1970 1 1 9) 32400) by (apply (utc_jan 1 9); lia).
  assert (W : instant (InZone true TzNone) (utc 1970 1 1 0) 0) by (apply (utc_jan 1 0); lia).
  assert (E : instant (InZone true TzNone) (utc 1970 1 5 0) 345600) by (apply (utc_jan 5 0); lia).
  split; [discriminate|]. split; [exact S|]. split; [apply utc_honest|]. split; [exact W|]. split; [exists (utc 1970 1 5 0); auto|].
  split; [|split].
  - repeat constructor; exists None; left; (split; [discriminate|]); (split; [reflexivity|]);
        (split; [split; [vm_compute; congruence|vm_compute; discriminate]|]); (split; [exists 32400; exact S|]);
        (split; [exists (utc 1970 1 5 0); auto|]); (split; [exact W|reflexivity]).
  - constructor; [|constructor]. split; [exists 118800; apply (utc_jan 2 9); lia|]. split; [split; reflexivity|apply (utc_honest no_zones 1970 1 2 9)].
  - constructor.
Qed.
Lemma overrides1 : overrides_ok no_zones (InZone true TzNone) (tStart (timings cs1 0)) [(1%nat, timings cs1 1)].
Proof.
  split; [|split; cbn; lia]. constructor; [|constructor]. exists (utc 1970 1 3 9). split; [reflexivity|].
  split; [exists 205200; apply (utc_jan 3 9); lia|]. split; [split; reflexivity|apply utc_honest].
Qed.
Example C60_recurring_ex :
  let t := timings cs1 0 in let overrides := [(1%nat, timings cs1 1)] in
  permutes (fun l => l) /\ tSet t = Some set1 /\ hasRecurrence set1 = true /\ tHasRid t = false /\
  set_reachable no_zones (fun l => l) (InZone true TzNone) 0 (tStart t) set1 /\
  set_call no_zones (InZone true TzNone) 0 set1 (tStart t) (january 1 5) 32400 0 345600 /\
  overrides_ok no_zones (InZone true TzNone) (tStart t) overrides /\ subDateTime no_zones (tEnd t) (tStart t) = Ok 3600 /\
  exists t' xs, expandPeriod no_zones (fun l => l) 20 0 t (InCalendar overrides) (january 1 5) = Some (t', (xs, Ok tt)) /\
    map shown xs = [shows 0 (utc 1970 1 1 9) (utc 1970 1 1 10); shows 0 (utc 1970 1 4 9) (utc 1970 1 4 10)].
Proof.
  intros t overrides. split; [intro l; apply Permutation_refl|]. split; [reflexivity|]. split; [reflexivity|]. split; [reflexivity|].
  split; [apply set_new; repeat constructor|]. split; [exact call1|]. split; [exact overrides1|]. split; [vm_compute; reflexivity|].
  eexists. eexists. split; [vm_compute; reflexivity|]. vm_compute. reflexivity.
Qed.
Example C60_length_ex : let t := timings cs1 0 in steady (InZone true TzNone) (tStart t) (tEnd t) /\
  instant (InZone true TzNone) (tStart t) 32400 /\ instant (InZone true TzNone) (tEnd t) 36000 /\ honest no_zones (tStart t) /\ honest no_zones (tEnd t) /\
  later (InZone true TzNone) 291600 3600 = 291600 + (36000 - 32400).
Proof.
  split; [left; reflexivity|]. split; [apply (utc_jan 1 9); lia|]. split; [apply (utc_jan 1 10); lia|].
  split; [apply (utc_honest no_zones 1970 1 1 9)|]. split; [apply (utc_honest no_zones 1970 1 1 10)|reflexivity].
Qed.
(** The moved instance is found in the window from noon to one, which does not hold the hour it replaces. *)
Example C60_single_ex : let t := timings cs1 1 in let range := newPeriodEnd (utc 1970 1 3 13) (utc 1970 1 3 15) in
  isRecurring t = false /\ tHasRid t = true /\ tRid t <> None /\ instant (InZone true TzNone) (tStart t) 216000 /\
  instant (InZone true TzNone) (tEnd t) 223200 /\ instant (InZone true TzNone) (pStart range) 219600 /\
  (exists d, snd (getEnd range) = Ok d /\ instant (InZone true TzNone) d 226800) /\
  exists x, expandPeriod no_zones (fun l => l) 0 1 t NoParent range = Some (t, ([x], Ok tt)) /\
    shown x = shows 1 (utc 1970 1 3 12) (utc 1970 1 3 14).
Proof.
  split; [reflexivity|]. split; [reflexivity|]. split; [discriminate|]. split; [apply (utc_jan 3 12); lia|].
  split; [apply (utc_jan 3 14); lia|]. split; [apply (utc_jan 3 13); lia|]. split; [exists (utc 1970 1 3 15); split; [reflexivity|apply (utc_jan 3 15); lia]|].
  eexists. split; [vm_compute; reflexivity|]. vm_compute. reflexivity.
Qed.
Definition parts1 (i : nat) : list expanded -> Prop :=
  match i with
  | 0%nat => fun xs => holds_exactly (InZone true TzNone) (map xStart xs)
        (fun x => included (InZone true TzNone) 0 (tStart (timings cs1 0)) 32400 0 345600 set1 x /\
                  ~ excluded (InZone true TzNone) 0 (tStart (timings cs1 0)) 32400 0 345600 set1 x /\
                  ~ replaced (InZone true TzNone) [(1%nat, timings cs1 1)] x) /\
      Forall (fun x => xOwner x = 0%nat /\ xRecurring x = true /\
        forall p, instant (InZone true TzNone) (xStart x) p -> instant (InZone true TzNone) (xEnd x) (if tHasEnd (timings cs1 0) then later (InZone true TzNone) p 3600 else p)) xs
  | 1%nat => fun xs => xs = if (0 <? 223200) && (216000 <? 345600) then [mkExpanded 1 (tStart (timings cs1 1)) (tEnd (timings cs1 1)) (tHasRid (timings cs1 1))] else []
  | _ => fun xs => xs = if (0 <? 306000) && (302400 <? 345600) then [mkExpanded 2 (tStart (timings cs1 2)) (tEnd (timings cs1 2)) (tHasRid (timings cs1 2))] else []
  end.
Example C60_calendar_ex : let c := filled_with cs1 in let tim := timings cs1 in
  permutes (fun l => l) /\ CalendarSpec.coherent c /\ NoDup (held c) /\
  (forall i, In i (held c) -> cKind (heap c i) = VEVENT ->
     1 <= mMonth (tStamp (tim i)) <= 12 /\ event_gives no_zones (fun l => l) (january 1 5) (overriding c tim i) i (tim i) (parts1 i)) /\
  (forall i, In i (held c) -> upper_type (heap c i) = lit "VEVENT" -> cKind (heap c i) = VEVENT) /\
  events_in true (january 1 5) cs1 = Some (Ok
    [shows 0 (utc 1970 1 1 9) (utc 1970 1 1 10); shows 0 (utc 1970 1 4 9) (utc 1970 1 4 10); shows 1 (utc 1970 1 3 12) (utc 1970 1 3 14);
     shows 2 (utc 1970 1 4 12) (utc 1970 1 4 13)]).
Proof.
  intros c tim.
  assert (W : instant (InZone true TzNone) (utc 1970 1 1 0) 0) by (apply (utc_jan 1 0); lia).
  assert (E : exists d, snd (getEnd (january 1 5)) = Ok d /\ instant (InZone true TzNone) d 345600) by (exists (utc 1970 1 5 0); split; [reflexivity|apply (utc_jan 5 0); lia]).
  split; [intro l; apply Permutation_refl|]. split.
  { apply (C43_index tz_none fl0 hash0). unfold c, filled_with. cbn [fold_left seq List.length cs1].
    repeat apply H_add; try apply H_new; try no_in;
    intros j J; repeat (destruct J as [<-|J]; [intros [A B] [C D] F; try discriminate A; try discriminate B; try discriminate C; try discriminate D; vm_compute; discriminate|]); destruct J. }
  split; [repeat constructor; no_in|]. split.
  { intros i Hi _. change (held c) with [0; 1; 2]%nat in Hi. destruct Hi as [<-|[<-|[<-|[]]]]; (split; [vm_compute; split; discriminate|]).
    - change (overriding c tim 0) with [(1%nat, timings cs1 1)].
      apply (gives_instances no_zones (fun l => l) (january 1 5) _ 0 (tim 0%nat) (InZone true TzNone) set1 32400 0 345600 3600); try reflexivity.
      + apply set_new; repeat constructor.
      + exact call1.
      + exact overrides1.
    - apply (gives_itself no_zones (fun l => l) (january 1 5) _ 1 (tim 1%nat) (InZone true TzNone)); try reflexivity; try discriminate; try assumption.
      + apply (utc_jan 3 12); lia.
      + apply (utc_jan 3 14); lia.
    - apply (gives_itself no_zones (fun l => l) (january 1 5) _ 2 (tim 2%nat) (InZone true TzNone)); try reflexivity; try discriminate; try assumption.
      + apply (utc_jan 4 12); lia.
      + change (tEnd (tim 2%nat)) with (utc 1970 1 4 13) || idtac. apply (utc_jan 4 13); lia. }
  split.
  { intros i Hi _. change (held c) with [0; 1; 2]%nat in Hi. destruct Hi as [<-|[<-|[<-|[]]]]; reflexivity. }
  vm_compute. reflexivity.
Qed.
Example C60_recurrence_id_ex : let c := object_of cs1 1 in
  exists st, recur_finalise (newState []) (cProps c) = Ok st /\ timing_finalise VEVENT (cProps c) new_timing = Ok (timings cs1 1) /\
    sRid (newState []) = tRid new_timing /\ option_map visible (sRid st) = Some (visible (utc 1970 1 3 9)).
Proof. eexists. split; [vm_compute; reflexivity|]. split; [vm_compute; reflexivity|]. split; reflexivity. Qed.

(** ** What does not hold *)

Definition timed (l : list bytes) : list bytes := vevent ([lit "DTSTART:19700101T090000Z"] ++ l).
Definition timing_at (cs : list comp) (i : nat) (t : timing) : Prop := timing_of (object_of cs i) = Ok t.

(** The instances of a master with DURATION have no length: only DTEND is looked at. *)
Theorem C60_duration_refuted : exists l t, timing_at (read l) 0 t /\ tDuration t = true /\ isRecurring t = true /\ visible (tEnd t) = visible (utc 1970 1 1 10) /\
  events_in true (january 1 3) (read l) = Some (Ok [shows 0 (utc 1970 1 1 9) (utc 1970 1 1 9); shows 0 (utc 1970 1 2 9) (utc 1970 1 2 9)]).
Proof.
  exists (timed [lit "DURATION:PT1H"; lit "RRULE:FREQ=DAILY;COUNT=5"]). eexists. split; [vm_compute; reflexivity|]. vm_compute. repeat split.
Qed.
Print Assumptions C60_duration_refuted.

(** So have those of a master on a date without DTEND, which itself lasts until the next day. *)
Theorem C60_all_day_refuted : exists l t, timing_at (read l) 0 t /\ mDateOnly (tStart t) = true /\ visible (tEnd t) = visible (newDate 1970 1 2 false TzNone) /\
  events_in true (newPeriodEnd (newDate 1970 1 1 false TzNone) (newDate 1970 1 3 false TzNone)) (read l) =
    Some (Ok [shows 0 (newDate 1970 1 1 false TzNone) (newDate 1970 1 1 false TzNone); shows 0 (newDate 1970 1 2 false TzNone) (newDate 1970 1 2 false TzNone)]).
Proof.
  exists (vevent [lit "DTSTART;VALUE=DATE:19700101"; lit "RRULE:FREQ=DAILY;COUNT=5"]). eexists. split; [vm_compute; reflexivity|]. vm_compute. repeat split.
Qed.
Print Assumptions C60_all_day_refuted.

(** A component that recurs gives nothing if its parent is not set, and adding a component to a calendar does not set it.
    The same component without the rule is found. *)
Theorem C60_added_refuted : exists l r, r = lit "RRULE:FREQ=DAILY;COUNT=5" /\
  events_in true (january 1 3) (read (timed (l ++ [r]))) = Some (Ok [shows 0 (utc 1970 1 1 9) (utc 1970 1 1 10); shows 0 (utc 1970 1 2 9) (utc 1970 1 2 10)]) /\
  events_in false (january 1 3) (read (timed (l ++ [r]))) = Some (Ok []) /\
  events_in false (january 1 3) (read (timed l)) = Some (Ok [shows 0 (utc 1970 1 1 9) (utc 1970 1 1 10)]).
Proof. exists [lit "DTEND:19700101T100000Z"]. eexists. split; [reflexivity|]. vm_compute. repeat split. Qed.
Print Assumptions C60_added_refuted.

(** An override of this and the following instances replaces only one of them. *)
Definition from_second : list bytes :=
  vevent [lit "RECURRENCE-ID;RANGE=THISANDFUTURE:19700102T090000Z"; lit "DTSTART:19700102T120000Z"; lit "DTEND:19700102T130000Z"].
Theorem C60_this_and_future_refuted : exists l t, timing_at (read l) 1 t /\ tFuture t = true /\ option_map visible (tRid t) = Some (visible (utc 1970 1 2 9)) /\
  events_in true (january 1 4) (read l) = Some (Ok
    [shows 0 (utc 1970 1 1 9) (utc 1970 1 1 10); shows 0 (utc 1970 1 3 9) (utc 1970 1 3 10); shows 1 (utc 1970 1 2 12) (utc 1970 1 2 13)]).
Proof.
  exists (timed [lit "DTEND:19700101T100000Z"; lit "RRULE:FREQ=DAILY;COUNT=5"] ++ from_second).
  eexists. split; [vm_compute; reflexivity|]. vm_compute. repeat split.
Qed.
Print Assumptions C60_this_and_future_refuted.

(** Two of them raise an AttributeError. *)
Theorem C60_two_ranges_refuted : exists l t u, timing_at (read l) 1 t /\ tFuture t = true /\ timing_at (read l) 2 u /\ tFuture u = true /\
  events_in true (january 1 6) (read l) = Some (Raise AttributeError).
Proof.
  exists (timed [lit "DTEND:19700101T100000Z"; lit "RRULE:FREQ=DAILY;COUNT=5"] ++ from_second ++
    vevent [lit "RECURRENCE-ID;RANGE=THISANDFUTURE:19700104T090000Z"; lit "DTSTART:19700104T120000Z"; lit "DTEND:19700104T130000Z"]).
  eexists. eexists. split; [vm_compute; reflexivity|]. split; [vm_compute; reflexivity|]. split; [vm_compute; reflexivity|]. vm_compute. repeat split.
Qed.
Print Assumptions C60_two_ranges_refuted.

(** So does a period as RDATE. *)
Theorem C60_period_refuted : exists l t, timing_at (read l) 0 t /\ isRecurring t = true /\ events_in true (january 1 6) (read l) = Some (Raise AttributeError).
Proof.
  exists (timed [lit "DTEND:19700101T100000Z"; lit "RDATE;VALUE=PERIOD:19700103T090000Z/PT1H"]). eexists. split; [vm_compute; reflexivity|]. vm_compute. repeat split.
Qed.
Print Assumptions C60_period_refuted.

(** An event without length at the start of the window is left out, one that recurs is not. *)
Theorem C60_empty_refuted : exists l r range, pStart range = utc 1970 1 1 9 /\
  events_in true range (read (timed l)) = Some (Ok []) /\ events_in true range (read (timed (l ++ [r]))) = Some (Ok [shows 0 (utc 1970 1 1 9) (utc 1970 1 1 9)]).
Proof.
  exists [], (lit "RRULE:FREQ=DAILY;COUNT=1"), (newPeriodEnd (utc 1970 1 1 9) (utc 1970 1 2 9)). split; [reflexivity|]. vm_compute. repeat split.
Qed.
Print Assumptions C60_empty_refuted.

(** The instances are those that start in the window: one that has begun before and still lasts is left out, while an event
    that does not recur is found. *)
Theorem C60_begun_refuted : exists l r range,
  events_in true range (read (timed l)) = Some (Ok [shows 0 (utc 1970 1 1 9) (utc 1970 1 1 11)]) /\
  events_in true range (read (timed (l ++ [r]))) = Some (Ok []).
Proof.
  exists [lit "DTEND:19700101T110000Z"], (lit "RRULE:FREQ=DAILY;COUNT=2"), (newPeriodEnd (utc 1970 1 1 10) (utc 1970 1 2 9)). vm_compute. repeat split.
Qed.
Print Assumptions C60_begun_refuted.

(** getVEvents does not sort: the functions that compare return a truth value. *)
Theorem C60_sorted_refuted : exists cs d e, events_in true (january 1 6) cs = Some (Ok [shows 0 d d; shows 1 e e]) /\ dt_lt no_zones e d = Ok true.
Proof.
  exists (read (timed [] ++ [lit "BEGIN:VEVENT"; lit "UID:b"; lit "DTSTART:19700101T080000Z"; lit "DTEND:19700101T080000Z"; lit "END:VEVENT"])).
  exists (utc 1970 1 1 9), (utc 1970 1 1 8). split; vm_compute; reflexivity.
Qed.
Print Assumptions C60_sorted_refuted.

(** A component of type vevent makes getVEvents raise. *)
Theorem C60_lower_case_refuted : exists cs, map upper_type cs = [lit "VEVENT"] /\ events_in true (january 1 6) cs = Some (Raise AttributeError).
Proof. exists (read [lit "BEGIN:vevent"; lit "DTSTART:19700101T080000Z"; lit "END:vevent"]). split; vm_compute; reflexivity. Qed.
Print Assumptions C60_lower_case_refuted.

(** An instance is as many seconds long as the master, not as many hours on the clock: here the clocks go forward at noon
    of the second day. *)
Definition forward : tzid -> Z -> Z -> Z -> Z -> Z -> Z -> bool -> bool -> Z :=
  fun _ y m d h _ _ _ _ => if (y =? 1970) && (m =? 1) && (d =? 1) then 0 else if (d =? 2) && (h <? 12) then 0 else 3600.
Theorem C60_clock_refuted : exists (t : timing) (t' : timing) x, tHasEnd t = true /\
  visible (tStart t) = visible (newDateTime 1970 1 1 9 0 0 false (TzName (lit "X"))) /\ visible (tEnd t) = visible (newDateTime 1970 1 2 13 0 0 false (TzName (lit "X"))) /\
  expandPeriod forward (fun l => l) 20 0 t (InCalendar []) (newPeriodEnd (utc 1970 1 5 0) (utc 1970 1 6 0)) = Some (t', ([x], Ok tt)) /\
  visible (xStart x) = visible (newDateTime 1970 1 5 9 0 0 false (TzName (lit "X"))) /\ visible (xEnd x) = visible (newDateTime 1970 1 6 12 0 0 false (TzName (lit "X"))).
Proof.
  exists (mkTiming epoch true (newDateTime 1970 1 1 9 0 0 false (TzName (lit "X"))) true (newDateTime 1970 1 2 13 0 0 false (TzName (lit "X"))) false false None false false
    (Some (mkRset [(rule_of "FREQ=DAILY;COUNT=8", cache_init)] [] [] [] [] []))).
  eexists. eexists. split; [reflexivity|]. split; [reflexivity|]. split; [reflexivity|]. split; [vm_compute; reflexivity|]. vm_compute. repeat split.
Qed.
Print Assumptions C60_clock_refuted.
