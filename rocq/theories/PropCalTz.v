(** Properties of the time zones of a calendar: C58. *)
From Verif Require Import PyBase PyProofs ParserCtx LineModel DateTimeModel DurationModel PropertyModel ComponentModel CalendarModel DupModel DupSpec CalTzModel
  CalTzSpec CalTzProofs PropComponent PropCalendar PropCopy.

(** includeMissingTimezones adds, behind the components that are there, a copy of the zone in the database for each TZID
    that is used, wanted in this mode and not there yet, once, and nothing else. *)
Theorem C58_include : forall lookup standard order uuid m subs,
  sound lookup -> (forall l, Permutation l (order l)) -> zones_only subs ->
  exists new, includeMissingTimezones lookup standard order uuid m subs = Ok (subs ++ new) /\
    Forall (fun z' => zone z' /\ exists z, lookup (TzName (sID (cState z'))) = Some z /\ copy_of z z') new /\
    NoDup (map (fun z => TzName (sID (cState z))) new) /\
    (forall t, has_zone new t <->
       uses subs t /\ wanted standard (match m with Some m => m | None => NONSTD_TIMEZONES end) t /\ ~ has_zone subs t /\ lookup t <> None).
Proof. intros lookup standard order uuid m subs S O Z. exact (include_spec lookup standard uuid S order O m subs Z). Qed.
Print Assumptions C58_include.
(** So afterwards each TZID that is used has its zone, unless the database does not know it either. *)
Theorem C58_enough : forall lookup standard order uuid subs l t,
  sound lookup -> (forall l, Permutation l (order l)) -> zones_only subs ->
  includeMissingTimezones lookup standard order uuid (Some ALL_TIMEZONES) subs = Ok l -> uses subs t -> lookup t <> None -> has_zone l t.
Proof.
  intros lookup standard order uuid subs l t S O Z E U L.
  destruct (C58_include lookup standard order uuid (Some ALL_TIMEZONES) subs S O Z) as (new & E' & _ & _ & Q).
  rewrite E in E'. apply PropertyProofs3.Ok_inj in E'. subst l. apply has_zone_app.
  destruct (find_zone t subs Z) as (o & _ & H). destruct o as [c|]; [left; apply H; discriminate|].
  right. apply Q. split; [exact U|]. split; [exact I|]. split; [|exact L]. intro X. apply H in X. congruence.
Qed.
Print Assumptions C58_enough.
(** A second call does nothing. *)
Theorem C58_again : forall lookup standard order uuid m subs l,
  sound lookup -> (forall l, Permutation l (order l)) -> zones_only subs ->
  includeMissingTimezones lookup standard order uuid m subs = Ok l -> includeMissingTimezones lookup standard order uuid m l = Ok l.
Proof. intros lookup standard order uuid m subs l S O Z. exact (include_again lookup standard uuid S order O m subs l Z). Qed.
Print Assumptions C58_again.
(** stripStandardTimezones takes out the zones that the database has as standard, keeps all else in its order, and says
    whether there were any; the zones it keeps are different from those it takes out. *)
Theorem C58_strip : forall lookup standard tzo fl phash c,
  NoDup (held c) -> zones_only (map (heap c) (held c)) ->
  (forall i j, In i (held c) -> In j (held c) -> stripped lookup standard (heap c i) = false -> stripped lookup standard (heap c j) = true ->
     zone (heap c i) -> comp_eq tzo fl phash (heap c i) (heap c j) = Ok false) ->
  stripStandardTimezones lookup standard tzo fl phash c =
    (mkCal (heap c) (filter (fun i => negb (stripped lookup standard (heap c i))) (held c)) (masters c) (overridden c),
     Ok (existsb (fun i => stripped lookup standard (heap c i)) (held c))).
Proof. intros lookup standard tzo fl phash c. exact (strip_all lookup standard tzo fl phash c). Qed.
Print Assumptions C58_strip.
(** What was stripped comes back: each TZID that is used and had a zone has one again. *)
Theorem C58_strip_include : forall lookup standard order uuid subs l t,
  sound lookup -> (forall l, Permutation l (order l)) -> zones_only subs ->
  includeMissingTimezones lookup standard order uuid (Some ALL_TIMEZONES) (filter (fun c => negb (stripped lookup standard c)) subs) = Ok l ->
  uses subs t -> has_zone subs t -> has_zone l t.
Proof.
  intros lookup standard order uuid subs l t S O Z E U (c & I & K & T).
  assert (Z' : zones_only (filter (fun c => negb (stripped lookup standard c)) subs)).
  { unfold zones_only in *. rewrite Forall_forall in *. intros x X. apply filter_In in X as [X _]. apply Z, X. }
  destruct (C58_include lookup standard order uuid (Some ALL_TIMEZONES) _ S O Z') as (new & E' & _ & _ & Q).
  rewrite E in E'. apply PropertyProofs3.Ok_inj in E'. subst l. apply has_zone_app.
  destruct (find_zone t _ Z') as (o & _ & H). destruct o as [d|]; [left; apply H; discriminate|].
  right. apply Q. split.
  - destruct U as (T1 & T2 & T3 & x & X & N & R). repeat (split; [assumption|]). exists x. split; [|split; assumption].
    apply filter_In. split; [exact X|]. unfold stripped. destruct (cKind x); try reflexivity. exfalso. apply N. reflexivity.
  - split; [exact Logic.I|]. split; [intro X; apply H in X; congruence|]. intro L.
    assert (X : has_zone (filter (fun c => negb (stripped lookup standard c)) subs) t); [|apply H in X; congruence].
    exists c. split; [|split; assumption]. apply filter_In. split; [exact I|]. unfold stripped. unfold zone in K. rewrite K, T, L. reflexivity.
Qed.
Print Assumptions C58_strip_include.

(** A database with two zones, the first of them a standard one; events in both zones and in one that is not known, and an
    availability with a time in the second zone. *)
Definition tz_comp (id : bytes) : comp :=
  Comp VTIMEZONE (mkState (lit "x") [] None id None None 1) [entry (lit "TZID") (VText id)]
    [Comp STANDARD (newState (lit "y")) [entry (lit "DTSTART") (VDateTime epoch); entry (lit "TZOFFSETTO") (VOffset 3600)] []].
Definition berlin : bytes := lit "Europe/Berlin".
Definition own : bytes := lit "Own".
Definition lookup2 (t : tzid) : option comp :=
  match t with TzName s => if beq s berlin then Some (tz_comp berlin) else if beq s own then Some (tz_comp own) else None | _ => None end.
Definition standard2 (t : tzid) : bool := tz_eqb t (TzName berlin).
Definition meeting (uid zone : bytes) : comp :=
  Comp VEVENT (mkState (lit "x") uid (Some (lit "u:" ++ uid)) [] None None 1)
    [entry (lit "DTSTART") (VDateTime (newDateTime 2020 1 31 9 30 0 false (TzName zone))); entry (lit "UID") (VText uid)] [].
Definition availability (zone : bytes) : comp :=
  Comp VAVAILABILITY (newState (lit "x")) []
    [Comp AVAILABLE (newState (lit "y")) [entry (lit "DTSTART") (VDateTime (newDateTime 2020 1 31 9 30 0 false (TzName zone)))] []].
Definition parts : list comp := [meeting (lit "a") berlin; meeting (lit "b") (lit "Nowhere"); availability own; meeting (lit "c") own].
Definition uuid2 : tzid -> list nat -> bytes := fun _ _ => lit "z".
Lemma lookup2_sound : sound lookup2.
Proof.
  intros t z H. destruct t as [|s|n]; try discriminate H. unfold lookup2 in H. destruct (beq s berlin) eqn:B; [|destruct (beq s own) eqn:O; [|discriminate H]].
  - apply beq_eq in B as ->. assert (E : z = tz_comp berlin) by congruence. subst z. split; [reflexivity|]. split; [readies; left; reflexivity|reflexivity].
  - apply beq_eq in O as ->. assert (E : z = tz_comp own) by congruence. subst z. split; [reflexivity|]. split; [readies; left; reflexivity|reflexivity].
Qed.
Lemma rev_order : forall l : list tzid, Permutation l (rev l).
Proof. apply Permutation_rev. Qed.
Lemma parts_ok : zones_only parts.
Proof. repeat (constructor; [discriminate|]). constructor. Qed.
Example C58_include_ex : sound lookup2 /\ (forall l : list tzid, Permutation l (rev l)) /\ zones_only parts /\
  exists o b, includeMissingTimezones lookup2 standard2 (@rev tzid) uuid2 (Some ALL_TIMEZONES) parts = Ok (parts ++ [o; b]) /\
    sID (cState b) = berlin /\ sID (cState o) = own /\
    includeMissingTimezones lookup2 standard2 (@rev tzid) uuid2 None parts = Ok (parts ++ [o]) /\
    includeMissingTimezones lookup2 standard2 (@rev tzid) uuid2 (Some NO_TIMEZONES) parts = Ok parts.
Proof.
  split; [exact lookup2_sound|]. split; [exact rev_order|]. split; [exact parts_ok|]. do 2 eexists. split; [vm_compute; reflexivity|].
  split; [reflexivity|]. split; [reflexivity|]. split; vm_compute; reflexivity.
Qed.
Lemma berlin_used : uses parts (TzName berlin).
Proof.
  split; [discriminate|]. split; [vm_compute; discriminate|]. split; [discriminate|]. exists (meeting (lit "a") berlin). split; [left; reflexivity|]. split; [vm_compute; discriminate|]. left.
  do 2 eexists. split; [left; reflexivity|]. split; reflexivity.
Qed.
Example C58_enough_ex : sound lookup2 /\ zones_only parts /\ uses parts (TzName berlin) /\ lookup2 (TzName berlin) <> None /\ ~ has_zone parts (TzName berlin).
Proof.
  split; [exact lookup2_sound|]. split; [exact parts_ok|]. split; [exact berlin_used|]. split; [vm_compute; discriminate|].
  intros (c & I & K & _). repeat (destruct I as [<-|I]; [discriminate K|]). exact I.
Qed.
Example C58_again_ex : sound lookup2 /\ zones_only parts /\
  exists l, includeMissingTimezones lookup2 standard2 (@rev tzid) uuid2 (Some ALL_TIMEZONES) parts = Ok l /\ l <> parts.
Proof. split; [exact lookup2_sound|]. split; [exact parts_ok|]. eexists. split; [vm_compute; reflexivity|]. vm_compute. discriminate. Qed.
(** A calendar with both zones, the standard one twice. *)
Definition zoned (n : nat) : comp :=
  match n with 0%nat => tz_comp own | 1%nat => tz_comp berlin | 2%nat => meeting (lit "a") berlin | _ => tz_comp berlin end.
Example C58_strip_ex : let c := mkCal zoned [0; 1; 2; 3]%nat [] [] in
  NoDup (held c) /\ zones_only (map (heap c) (held c)) /\
  (forall i j, In i (held c) -> In j (held c) -> stripped lookup2 standard2 (heap c i) = false -> stripped lookup2 standard2 (heap c j) = true ->
     zone (heap c i) -> comp_eq tz_none fl0 hash0 (heap c i) (heap c j) = Ok false) /\
  held (fst (stripStandardTimezones lookup2 standard2 tz_none fl0 hash0 c)) = [0; 2]%nat /\
  snd (stripStandardTimezones lookup2 standard2 tz_none fl0 hash0 c) = Ok true.
Proof.
  cbn zeta. split; [repeat constructor; no_in|]. split; [repeat (constructor; [intro; first [reflexivity|discriminate]|]); constructor|].
  split; [|split; vm_compute; reflexivity].
  intros i j I J. cbn [held] in I, J. repeat (destruct I as [<-|I]); repeat (destruct J as [<-|J]); try contradiction; cbn [heap];
    intros A B C; try discriminate A; try discriminate B; try discriminate C; vm_compute; reflexivity.
Qed.
Example C58_strip_include_ex : sound lookup2 /\ zones_only (tz_comp berlin :: parts) /\ uses (tz_comp berlin :: parts) (TzName berlin) /\
  has_zone (tz_comp berlin :: parts) (TzName berlin) /\
  filter (fun c => negb (stripped lookup2 standard2 c)) (tz_comp berlin :: parts) = parts.
Proof.
  split; [exact lookup2_sound|]. split; [constructor; [reflexivity|exact parts_ok]|]. split.
  - destruct berlin_used as (A & B & C & c & I & R). repeat (split; [assumption|]). exists c. split; [right; exact I|exact R].
  - split; [exists (tz_comp berlin); split; [left; reflexivity|split; reflexivity]|vm_compute; reflexivity].
Qed.

(** The zones of dates in lists are not looked for. *)
Definition excluding (zone : bytes) : comp :=
  Comp VEVENT (newState (lit "x")) [entry (lit "DTSTART") (VDateTime nine_thirty);
    (lit "EXDATE", [mkProp (lit "EXDATE") [] (Some (Multi T_DATETIME [VDateTime (newDateTime 2020 1 31 9 30 0 false (TzName zone))]))])] [].
Theorem C58_lists_refuted : exists subs t, sound lookup2 /\ zones_only subs /\ lookup2 t <> None /\ Exists (mentions t) subs /\
  exists l, includeMissingTimezones lookup2 standard2 (fun l => l) uuid2 (Some ALL_TIMEZONES) subs = Ok l /\ ~ has_zone l t.
Proof.
  exists [excluding own], (TzName own). split; [exact lookup2_sound|]. split; [repeat constructor; discriminate|]. split; [vm_compute; discriminate|]. split.
  - left. eapply mentions_list; [right; left; reflexivity|reflexivity|left; reflexivity|reflexivity].
  - eexists. split; [vm_compute; reflexivity|]. intros (c & [<-|[]] & K & _). discriminate K.
Qed.
Print Assumptions C58_lists_refuted.
(** Nor are those in the components of a poll. *)
Theorem C58_nested_refuted : exists subs t, sound lookup2 /\ zones_only subs /\ lookup2 t <> None /\ Exists (mentions t) subs /\
  exists l, includeMissingTimezones lookup2 standard2 (fun l => l) uuid2 (Some ALL_TIMEZONES) subs = Ok l /\ ~ has_zone l t.
Proof.
  exists [Comp VPOLL (newState (lit "x")) [] [meeting (lit "a") own]], (TzName own). split; [exact lookup2_sound|]. split; [repeat constructor; discriminate|].
  split; [vm_compute; discriminate|]. split.
  - left. eapply mentions_in; [left; reflexivity|]. eapply mentions_here; [left; reflexivity|reflexivity|reflexivity].
  - eexists. split; [vm_compute; reflexivity|]. intros (c & [<-|[]] & K & _). discriminate K.
Qed.
Print Assumptions C58_nested_refuted.
(** A calendar with a component that is called vtimezone in lower case can be read, but neither completed nor stripped. *)
Theorem C58_lower_case_refuted : exists text c, parseTextData tz_none default_ctx fl0 uuids0 text = Ok (Some c) /\
  includeMissingTimezones lookup2 standard2 (fun l => l) uuid2 None (cSubs c) = Raise AttributeError /\
  snd (stripStandardTimezones lookup2 standard2 tz_none fl0 hash0 (mkCal (fun i => nth i (cSubs c) c) (seq 0 (List.length (cSubs c))) [] [])) = Raise AttributeError.
Proof.
  exists (lines [lit "BEGIN:VCALENDAR"; lit "VERSION:2.0"; lit "BEGIN:vtimezone"; lit "TZID:Own"; lit "END:vtimezone";
    lit "BEGIN:VEVENT"; lit "DTSTART;TZID=Own:20200101T000000"; lit "END:VEVENT"; lit "END:VCALENDAR"]).
  eexists. split; [vm_compute; reflexivity|]. split; vm_compute; reflexivity.
Qed.
Print Assumptions C58_lower_case_refuted.
