(** Property C91: the questions about time zones that a calendar answers.  [tzo], [order] and [torder] are arbitrary as for C37; fuel is a number of
    loop rounds that is large enough. *)
From Coq Require Import Lia ZifyBool Sorting.Permutation.
From Verif Require Import PyBase ParserCtx CalSpec DateTimeModel DateTimeSpec DateTimeSpec2 PeriodModel PeriodSpec RecurModel RecurSpec RecurExpand
  RecurExpandSpec RecurSetSpec RecurByPartsSpec RecurSetModel RecurUnionSpec VTimezoneModel VTimezoneSpec PropRecur2 PropTimezone CalZonesModel CalZonesSpec PropComponent.
From Verif Require CalZonesProofs.

(** C91. A calendar answers with the offset in force in the first of its time zones that has the ID, whatever it was asked before about whichever zone. *)
Theorem C91_offset : forall tzo order torder, permutes order -> shuffles torder ->
  forall top, top <= 2099 -> clock_ordered tzo local_time ->
  forall defs l id es, cal_asked tzo order torder top defs l -> first_with defs id es -> Forall (elem_ok tzo top) es -> whole_minutes es ->
  forall d rel t, question es top d rel t ->
  exists N, forall fuel, (N <= fuel)%nat -> exists l' v,
    cal_getTimezoneOffsetSeconds tzo order torder fuel l (TzName id) d rel = Some (l', Ok v) /\ in_force es rel t v.
Proof.
  intros tzo order torder P S top T C defs l id es A F O W d rel t Q.
  destruct (CalZonesProofs.chosen tzo order torder top defs l id es (CalZonesProofs.states _ _ _ _ _ _ A) F) as (z & Az & Oz & _).
  destruct (C37_offset tzo order torder P S top T C es O W z d rel t Az Q) as (N & H). exists N. intros fuel L. destruct (H fuel L) as (z' & v & E & I).
  destruct (Oz _ _ _ _ _ E) as (l' & E'). exists l', v. auto.
Qed.
Print Assumptions C91_offset.

(** Two calendars with this time zone give the same answer, whatever other time zones they have and whatever they were asked. *)
Theorem C91_history : forall tzo top, top <= 2099 -> clock_ordered tzo local_time ->
  forall es, Forall (elem_ok tzo top) es -> whole_minutes es ->
  forall order torder defs l order' torder' defs' l' id id' d rel t, permutes order -> shuffles torder -> permutes order' -> shuffles torder' ->
  cal_asked tzo order torder top defs l -> first_with defs id es -> cal_asked tzo order' torder' top defs' l' -> first_with defs' id' es ->
  question es top d rel t -> unambiguous es rel ->
  exists N v, forall fuel, (N <= fuel)%nat -> exists l1 l2, cal_getTimezoneOffsetSeconds tzo order torder fuel l (TzName id) d rel = Some (l1, Ok v) /\
    cal_getTimezoneOffsetSeconds tzo order' torder' fuel l' (TzName id') d rel = Some (l2, Ok v).
Proof.
  intros tzo top T C es O W order torder defs l order' torder' defs' l' id id' d rel t P S P' S' A F A' F' Q U.
  destruct (CalZonesProofs.chosen tzo order torder top defs l id es (CalZonesProofs.states _ _ _ _ _ _ A) F) as (z & Az & Oz & _).
  destruct (CalZonesProofs.chosen tzo order' torder' top defs' l' id' es (CalZonesProofs.states _ _ _ _ _ _ A') F') as (z' & Az' & Oz' & _).
  destruct (C37_history tzo top es T C O W order torder z order' torder' z' d rel t P S P' S' Az Az' Q U) as (N & v & H). exists N, v. intros fuel L.
  destruct (H fuel L) as (z1 & z2 & E1 & E2). destruct (Oz _ _ _ _ _ E1) as (l1 & X1). destruct (Oz' _ _ _ _ _ E2) as (l2 & X2). exists l1, l2. auto.
Qed.
Print Assumptions C91_history.

(** The descriptor is the one of the element in force, when only DTSTARTs fall between 1 January and the given time (otherwise see C50). *)
Theorem C91_name : forall tzo order torder, permutes order -> shuffles torder ->
  forall top, top <= 2099 -> clock_ordered tzo local_time ->
  forall defs l id es, cal_asked tzo order torder top defs l -> first_with defs id es -> Forall (elem_ok tzo top) es -> whole_minutes es ->
  forall d t, question es top d false t -> quiet es d t ->
  exists N, forall fuel, (N <= fuel)%nat -> exists l' s,
    cal_getTimezoneDescriptor tzo order fuel l (TzName id) d = Some (l', Ok s) /\ named es t s.
Proof.
  intros tzo order torder P S top T C defs l id es A F O W d t Q Qu.
  destruct (CalZonesProofs.chosen tzo order torder top defs l id es (CalZonesProofs.states _ _ _ _ _ _ A) F) as (z & Az & _ & Dz).
  destruct (C50_before_changes tzo order torder P S top T C es O W z d t Az Q Qu) as (N & H). exists N. intros fuel L. destruct (H fuel L) as (z' & s & E & I).
  destruct (Dz _ _ _ _ E) as (l' & E'). exists l', s. auto.
Qed.
Print Assumptions C91_name.

(** An ID that no time zone of the calendar has, or no ID: the offset is 0, the descriptor is empty, and nothing changes. *)
Theorem C91_unknown : forall tzo order torder top defs l id, cal_asked tzo order torder top defs l -> (forall n, id = TzName n -> ~ In n (map fst defs)) ->
  forall fuel d rel, cal_getTimezoneOffsetSeconds tzo order torder fuel l id d rel = Some (l, Ok 0) /\ cal_getTimezoneDescriptor tzo order fuel l id d = Some (l, Ok []).
Proof.
  intros tzo order torder top defs l id A H fuel d rel. apply CalZonesProofs.none_there. rewrite (CalZonesProofs.states_names _ _ _ _ _ _ (CalZonesProofs.states _ _ _ _ _ _ A)). exact H.
Qed.
Print Assumptions C91_unknown.

(** The calendars that are read: getTimezone finds the first time zone with the ID, and no question has been asked. *)
Theorem C91_read : forall cal tzo order torder top, cal_asked tzo order torder top (definitions_of cal) (zones_of cal) /\
  forall id, match calendar_zone cal id with
  | Some c => first_with (definitions_of cal) id (map element_of (cSubs c))
  | None => ~ In id (map fst (definitions_of cal))
  end.
Proof.
  intros cal tzo order torder top. split; [rewrite <- CalZonesProofs.unasked_of; apply cal_asked_new|]. intro id.
  destruct (calendar_zone cal id) as [c|] eqn:E; [exact (CalZonesProofs.found_first _ _ _ E)|exact (CalZonesProofs.not_found _ _ E)].
Qed.
Print Assumptions C91_read.

(** Two time zones, and a second one with the ID of the first, that is never asked. *)
Definition three_zones : definitions :=
  [(lit "Fixed", [PropTimezone.once (local_at 1970 1 1 0) 0 3600 (lit "ONE")]); (lit "Seasons", [winter; summer]); (lit "Fixed", [PropTimezone.once (local_at 1970 1 1 0) 0 7200 (lit "TWO")])].
Lemma seasons_first : first_with three_zones (lit "Seasons") [winter; summer].
Proof. exists [(lit "Fixed", [PropTimezone.once (local_at 1970 1 1 0) 0 3600 (lit "ONE")])]. eexists. split; [reflexivity|]. intros [E|[]]. discriminate E. Qed.
Lemma fixed_first : first_with three_zones (lit "Fixed") [PropTimezone.once (local_at 1970 1 1 0) 0 3600 (lit "ONE")].
Proof. exists []. eexists. split; [reflexivity|intros []]. Qed.
Lemma in_1972 es : question es 1980 (local_at 1972 7 1 12) false (86400 * 912 + 3600 * 12).
Proof. split; [date_is|]. split; [cbn; lia|]. split; [cbn; lia|discriminate]. Qed.
Example C91_offset_ex : exists l1 r1 l2 r2 l3 l4 l5,
  cal_getTimezoneOffsetSeconds no_zones same same 9 (unasked three_zones) (TzName (lit "Fixed")) (local_at 1972 7 1 12) false = Some (l1, r1) /\
  cal_getTimezoneDescriptor no_zones same 9 l1 (TzName (lit "Seasons")) (local_at 1972 7 1 12) = Some (l2, r2) /\
  cal_asked no_zones same same 1980 three_zones l2 /\
  cal_getTimezoneOffsetSeconds no_zones same same 9 l2 (TzName (lit "Seasons")) (local_at 1972 7 1 12) false = Some (l3, Ok (-14400)) /\
  cal_getTimezoneOffsetSeconds no_zones same same 9 l2 (TzName (lit "Fixed")) (local_at 1972 7 1 12) false = Some (l4, Ok 3600) /\
  cal_getTimezoneDescriptor no_zones same 9 l2 (TzName (lit "Fixed")) (local_at 1972 7 1 12) = Some (l5, Ok (lit "(ONE)")).
Proof.
  do 7 eexists. split; [vm_compute; reflexivity|]. split; [vm_compute; reflexivity|]. split; [|split; [vm_compute; reflexivity|split; vm_compute; reflexivity]].
  eapply cal_asked_name with (fuel := 9%nat) (id := TzName (lit "Seasons")) (d := local_at 1972 7 1 12);
    [eapply cal_asked_offset with (fuel := 9%nat) (id := TzName (lit "Fixed")) (d := local_at 1972 7 1 12) (rel := false);
      [apply cal_asked_new|intros n es _ _; eexists; apply in_1972|vm_compute; reflexivity]
    |intros n es _ _; eexists; apply in_1972|vm_compute; reflexivity].
Qed.
(** The premises on the time zones hold. *)
Example C91_name_ex : first_with three_zones (lit "Seasons") [winter; summer] /\ Forall (elem_ok no_zones 1980) [winter; summer] /\ whole_minutes [winter; summer] /\
  question [winter; summer] 1980 (local_at 1972 2 1 12) false (86400 * 761 + 3600 * 12) /\ quiet [winter; summer] (local_at 1972 2 1 12) (86400 * 761 + 3600 * 12) /\
  unambiguous [winter; summer] false /\
  exists l', cal_getTimezoneDescriptor no_zones same 9 (unasked three_zones) (TzName (lit "Seasons")) (local_at 1972 2 1 12) = Some (l', Ok (lit "(EST)")).
Proof.
  destruct C50_before_changes_ex as (Q & Qu & _). split; [exact seasons_first|]. split; [exact seasons_ok|]. split; [exact seasons_whole|]. split; [exact Q|]. split; [exact Qu|].
  split; [exact seasons_agree|]. eexists. vm_compute. reflexivity.
Qed.
Example C91_unknown_ex : (forall n, TzName (lit "Nowhere") = TzName n -> ~ In n (map fst three_zones)) /\
  cal_getTimezoneOffsetSeconds no_zones same same 9 (unasked three_zones) (TzName (lit "Nowhere")) (local_at 1972 7 1 12) false = Some (unasked three_zones, Ok 0).
Proof. split; [|vm_compute; reflexivity]. intros n E. injection E as <-. intros [E|[E|[E|[]]]]; discriminate E. Qed.

(** A calendar that is read: two VTIMEZONEs, an event between them. *)
Example C91_read_ex : exists cal c l', parseTextData no_zones default_ctx fl0 uuids0 (lines [lit "BEGIN:VCALENDAR"; lit "VERSION:2.0"; lit "PRODID:p";
    lit "BEGIN:VTIMEZONE"; lit "TZID:A"; lit "BEGIN:STANDARD"; lit "DTSTART:19700101T000000"; lit "TZOFFSETFROM:+0000"; lit "TZOFFSETTO:+0100"; lit "END:STANDARD"; lit "END:VTIMEZONE";
    lit "BEGIN:VEVENT"; lit "UID:u"; lit "DTSTART:20200101"; lit "END:VEVENT";
    lit "BEGIN:VTIMEZONE"; lit "TZID:B"; lit "BEGIN:STANDARD"; lit "DTSTART:19700101T000000"; lit "TZOFFSETFROM:+0000"; lit "TZOFFSETTO:+0200"; lit "END:STANDARD"; lit "END:VTIMEZONE";
    lit "END:VCALENDAR"]) = Ok (Some cal) /\ calendar_zone cal (lit "B") = Some c /\ calendar_zone cal (lit "C") = None /\
  cal_getTimezoneOffsetSeconds no_zones same same 9 (zones_of cal) (TzName (lit "B")) (local_at 1972 7 1 12) false = Some (l', Ok 7200).
Proof. do 3 eexists. split; [vm_compute; reflexivity|]. split; [vm_compute; reflexivity|]. split; [vm_compute; reflexivity|]. vm_compute. reflexivity. Qed.

(** The offset of a time zone with the ID, if there are several: only the first is asked. *)
Theorem C91_duplicate_refuted : exists tzo order torder top defs id es d t fuel l' v,
  permutes order /\ shuffles torder /\ top <= 2099 /\ clock_ordered tzo local_time /\ In (id, es) defs /\ Forall (elem_ok tzo top) es /\ whole_minutes es /\ question es top d false t /\
  cal_getTimezoneOffsetSeconds tzo order torder fuel (unasked defs) (TzName id) d false = Some (l', Ok v) /\ ~ in_force es false t v.
Proof.
  set (es := [PropTimezone.once (local_at 1970 1 1 0) 0 7200 (lit "TWO")]).
  assert (I1 : instant local_time (local_at 1970 1 1 0) (86400 * 0 + 3600 * 0)) by date_is.
  assert (O : forall x f o, onset es x f o <-> x = 0 /\ f = 0 /\ o = 7200).
  { intros x f o. split; [intros (e & [<-|[]] & H); apply (once_onset _ _ _ _ _ _ _ _ I1) in H; exact H|].
    intro H. eexists. split; [left; reflexivity|]. apply (once_onset _ _ _ _ _ _ _ _ I1). exact H. }
  exists no_zones, same, same, 1980, three_zones, (lit "Fixed"), es, (local_at 1972 7 1 12), (86400 * 912 + 3600 * 12), 9%nat. eexists. exists 3600.
  split; [intro; apply Permutation_refl|]. split; [intro; apply Permutation_refl|]. split; [lia|]. split; [exact C37_default_zone_ex|].
  split; [right; right; left; reflexivity|]. split; [constructor; [|constructor]; eapply once_ok; [exact I1|cbn; lia|apply local_honest]|].
  split; [intros x f o H; apply O in H as (-> & -> & _); split; reflexivity|]. split; [apply in_1972|]. split; [vm_compute; reflexivity|].
  intros [(H & _)|(x & f & H & _)]; [lia|]. apply O in H as (_ & _ & H). lia.
Qed.
Print Assumptions C91_duplicate_refuted.
