(** Properties of validation: C42 and C55. *)
From Verif Require Import PyBase ParserCtx DateTimeModel DateTimeSpec2 DurationModel PropertyModel
  ComponentModel ValidateModel ValidateSpec ValidateProofs3 ValidateProofs6 ValidateProofs7 ValidateProofs8 PropComponent.

(** validate(doFix=False) leaves every component as it was, also when it raises. *)
Theorem C42_readonly : forall tzo order parent c, fst (validate tzo order false parent c) = c.
Proof. intros. apply readonly. Qed.
Print Assumptions C42_readonly.

(** What validate(doFix=True) returns: the problems that were repaired, and those that were not, some of which have
    disappeared with a repair.  The components are then the same up to the repairs described by `repaired`. *)
Theorem C42_fix : forall tzo order parent c c' f u,
  (forall l, Permutation (order l) l) -> tidy c -> (forall pp, parent = Some pp -> tidy_props pp) -> starts_ok tzo c ->
  validate tzo order true parent c = (c', Ok (f, u)) ->
  tidy c' /\ repaired (until_repaired tzo) c c' /\
  (forall m, In m f <-> tree_problem parent c Repaired m) /\
  (forall m, In m u <-> tree_problem parent c Stays m \/ tree_problem parent c GoneReported m).
Proof.
  intros tzo order parent c c' f u O T TP S V. destruct (reports tzo order O true c parent c' f u T TP V) as (A & B & C & D).
  split; [exact A|]. split; [exact (repaired_moved tzo c c' S (B eq_refl))|]. split; [|exact D].
  intro m. rewrite C. split; [intros [_ H]; exact H|auto].
Qed.
Print Assumptions C42_fix.

(** Afterwards there is nothing to fix: a second run, in either mode, leaves the component alone, and reports the
    problems of the first one that the repairs have not touched. *)
Theorem C42_converges : forall tzo order parent c,
  (forall l, Permutation (order l) l) -> tidy c -> (forall pp, parent = Some pp -> tidy_props pp) ->
  everywhere ready_props c -> everywhere status_props c ->
  exists c' f u, validate tzo order true parent c = (c', Ok (f, u)) /\
  forall doFix, exists u2, validate tzo order doFix parent c' = (c', Ok ([], u2)) /\ incl u2 u /\
    forall m, In m u2 <-> tree_problem parent c Stays m.
Proof.
  intros tzo order parent c O T TP R S.
  destruct (total tzo order O true c parent T TP R (fun _ => S)) as (c' & f & u & V). exists c', f, u. split; [exact V|]. intro doFix.
  destruct (reports tzo order O true c parent c' f u T TP V) as (T' & B & _ & D). specialize (B eq_refl).
  pose proof (everywhere_after (moved tzo) _ (ready_after (moved tzo)) c c' B R) as R'.
  pose proof (everywhere_after (moved tzo) _ (status_after (moved tzo)) c c' B S) as S'.
  destruct (total tzo order O doFix c' parent T' TP R' (fun _ => S')) as (c2 & f2 & u2 & V2).
  destruct (reports tzo order O doFix c' parent c2 f2 u2 T' TP V2) as (_ & _ & F & U).
  pose proof (fun o m => tree_settles (moved tzo) (moved_matches tzo) c c' B parent parent o m (meth_refl parent)) as Z.
  assert (f2 = []) as ->. { destruct f2 as [|m f2]; [reflexivity|]. destruct (proj1 (F m) (or_introl eq_refl)) as [_ P]. apply Z in P as [P _]. discriminate P. }
  pose proof (no_fix tzo order doFix c' parent c2 u2 V2) as ->.
  assert (E : forall m, In m u2 <-> tree_problem parent c Stays m).
  { intro m. rewrite U. destruct doFix.
    - rewrite !Z. split; [intros [[_ P]|[P _]]; [exact P|discriminate P]|auto].
    - split; [intros [o P]; apply Z in P as [_ P]; exact P|intro P; exists Stays; apply Z; auto]. }
  exists u2. split; [exact V2|]. split; [|exact E]. intros m I. apply D. left. apply E. exact I.
Qed.
Print Assumptions C42_converges.

(** doRaise turns problems that are left into an exception, and does nothing else. *)
Theorem C42_raise : forall tzo order doFix c,
  (forall l, Permutation (order l) l) -> tidy c -> everywhere ready_props c -> everywhere status_props c ->
  exists c' f u, container_validate tzo order doFix false c = (c', Ok (f, u)) /\
    (forall m, In m u <-> if doFix then tree_problem None c Stays m \/ tree_problem None c GoneReported m else exists o, tree_problem None c o m) /\
    (container_validate tzo order doFix true c = (c', Raise ValidationError) <-> u <> []) /\
    (container_validate tzo order doFix true c = (c', Ok (f, u)) <-> u = []).
Proof.
  intros tzo order doFix c O T R S. assert (TP : forall pp, None = Some pp -> tidy_props pp) by discriminate.
  destruct (total tzo order O doFix c None T TP R (fun _ => S)) as (c' & f & u & V). exists c', f, u.
  destruct (reports tzo order O doFix c None c' f u T TP V) as (_ & _ & _ & U).
  unfold container_validate. rewrite V. split; [reflexivity|]. split; [exact U|]. destruct u as [|m u]; cbn [andb negb].
  - split; split; intro H; try reflexivity; try discriminate H. exfalso. apply H. reflexivity.
  - split; split; intro H; try reflexivity; try discriminate H. discriminate.
Qed.
Print Assumptions C42_raise.

(** Properties of a component, by name. *)
Definition several (name : bytes) (l : list item) : bytes * list prop := (name, map (fun v => mkProp name [] (Some (Single v))) l).
Ltac tidy_ps := split; [repeat constructor; no_in|repeat constructor; discriminate].
Ltac tidy_tree := repeat (first [apply tidy_intro; [tidy_ps|]|apply Forall_nil|apply Forall_cons]).

(** An event with two STATUS properties, an UNTIL without a time, DTEND beside DURATION and two SEQUENCE properties, with
    an alarm that lacks its DESCRIPTION. *)
Definition until_day : rule :=
  mkRule DAILY false 0 true (Some (newDate 2020 2 5 false TzNone)) 1 None None None None None None None None None 1.
Definition bad_alarm : comp :=
  Comp VALARM (mkState (lit "x") [] None [] None None 1)
    [several (lit "ACTION") [VText (lit "DISPLAY")]; several (lit "TRIGGER") [VDuration (mkDur false 0 0 0 15 0)]] [].
Definition bad_props : props :=
  [several (lit "DTSTAMP") [VDateTime nine_thirty]; several (lit "UID") [VText (lit "a")]; several (lit "DTSTART") [VDateTime nine_thirty];
   several (lit "DTEND") [VDateTime nine_thirty; VDateTime nine_thirty]; several (lit "DURATION") [VDuration (mkDur true 0 0 1 0 0)];
   several (lit "STATUS") [VText (lit "CONFIRMED"); VText (lit "Cancelled")]; several (lit "SEQUENCE") [VInteger 1; VInteger 2];
   several (lit "RRULE") [VRecur until_day]].
Definition bad_event : comp :=
  Comp VEVENT (mkState (lit "x") (lit "a") (Some (lit "u:a")) [] (Some nine_thirty) None 1) bad_props [bad_alarm].
Definition bad_cal : comp :=
  Comp VCALENDAR (newState []) [several (lit "VERSION") [VText (lit "2.0")]; several (lit "PRODID") [VText (lit "me")]] [bad_event].
Lemma bad_tidy : tidy bad_cal.
Proof. tidy_tree. Qed.
Ltac ready_tac := let Hin := fresh in let Heq := fresh in split; [intros ? ? [->| ->] Hin; vm_compute in Hin; repeat (destruct Hin as [<-|Hin]; [split; intros; discriminate|]); destruct Hin
  |intros ? ? Hin; vm_compute in Hin; repeat (destruct Hin as [<-|Hin]; [intros Heq _; first [discriminate Heq|injection Heq; intros <-; discriminate]|]); destruct Hin].
Lemma bad_ready : everywhere ready_props bad_cal.
Proof. repeat (first [apply everywhere_intro; [ready_tac|]|apply Forall_nil|apply Forall_cons]). Qed.
Ltac status_tac := let Hin := fresh in intros _ ? Hin; vm_compute in Hin; repeat (destruct Hin as [<-|Hin]; [eexists; left; reflexivity|]); destruct Hin.
Lemma bad_status : everywhere status_props bad_cal.
Proof. repeat (first [apply everywhere_intro; [status_tac|]|apply Forall_nil|apply Forall_cons]). Qed.
Lemma bad_starts : starts_ok tz_none bad_cal.
Proof.
  constructor; [discriminate|]. constructor; [|constructor]. constructor.
  - intros d E. injection E as <-. split; [vm_compute; intuition discriminate|left; reflexivity].
  - constructor; [|constructor]. constructor; [discriminate|constructor].
Qed.
Definition repairs : list bytes :=
  [lit "[VEVENT] Too many properties: STATUS"; lit "[VALARM] Missing required property: DESCRIPTION";
   lit "[VEVENT] Value types must match: DTSTART, UNTIL"; lit "[VEVENT] Properties must not both be present: DTEND, DURATION"].
Definition seq2 : bytes := lit "[VEVENT] Too many properties present: SEQUENCE".
Definition end2 : bytes := lit "[VEVENT] Too many properties present: DTEND".
Example C42_readonly_ex : validate tz_none (fun l => l) false None bad_cal = (bad_cal, Ok ([],
  [lit "[VEVENT] Too many properties present: SEQUENCE"; lit "[VEVENT] Too many properties present: DTEND"; lit "[VEVENT] Too many properties: STATUS";
   lit "[VALARM] Missing required property: DESCRIPTION"; lit "[VEVENT] Value types must match: DTSTART, UNTIL";
   lit "[VEVENT] Properties must not both be present: DTEND, DURATION"])).
Proof. vm_compute. reflexivity. Qed.
Example C42_fix_ex : tidy bad_cal /\ starts_ok tz_none bad_cal /\
  exists c', validate tz_none (fun l => l) true None bad_cal = (c', Ok (repairs, [seq2; end2])) /\ c' <> bad_cal.
Proof.
  split; [exact bad_tidy|]. split; [exact bad_starts|]. eexists. split; [vm_compute; reflexivity|discriminate].
Qed.
Example C42_converges_ex : tidy bad_cal /\ everywhere ready_props bad_cal /\ everywhere status_props bad_cal /\
  let c' := fst (validate tz_none (fun l => l) true None bad_cal) in
  validate tz_none (fun l => l) true None c' = (c', Ok ([], [seq2])) /\ validate tz_none (@rev _) false None c' = (c', Ok ([], [seq2])).
Proof. split; [exact bad_tidy|]. split; [exact bad_ready|]. split; [exact bad_status|]. split; vm_compute; reflexivity. Qed.
Example C42_raise_ex : snd (container_validate tz_none (fun l => l) true true bad_cal) = Raise ValidationError.
Proof. vm_compute. reflexivity. Qed.

(** A problem may be reported as not fixed although it is gone. *)
Theorem C42_same_unfixed_refuted : exists c c' f u,
  tidy c /\ everywhere ready_props c /\ everywhere status_props c /\
  validate tz_none (fun l => l) true None c = (c', Ok (f, u)) /\ In end2 u /\
  exists u2, validate tz_none (fun l => l) false None c' = (c', Ok ([], u2)) /\ ~ In end2 u2.
Proof.
  exists bad_cal. do 3 eexists. split; [exact bad_tidy|]. split; [exact bad_ready|]. split; [exact bad_status|].
  split; [vm_compute; reflexivity|]. split; [vm_compute; tauto|]. eexists. split; [vm_compute; reflexivity|].
  intros [H|[]]. discriminate H.
Qed.
Print Assumptions C42_same_unfixed_refuted.

(** A calendar that was read may make validate(doFix=True) raise another exception than ValidationError: several STATUS
    properties, one of them with a value that is not text.  Without doFix the same calendar is reported on. *)
Theorem C42_total_refuted : exists text c, parseTextData tz_none default_ctx fl0 uuids0 text = Ok (Some c) /\ tidy c /\
  snd (container_validate tz_none (fun l => l) true false c) = Raise AttributeError /\
  exists u, snd (container_validate tz_none (fun l => l) false false c) = Ok ([], u).
Proof.
  exists (lines [lit "BEGIN:VCALENDAR"; lit "VERSION:2.0"; lit "BEGIN:VEVENT"; lit "UID:a";
    lit "STATUS;VALUE=INTEGER:1"; lit "STATUS:CONFIRMED"; lit "END:VEVENT"; lit "END:VCALENDAR"]).
  eexists. split; [vm_compute; reflexivity|]. split; [tidy_tree|]. split; [vm_compute; reflexivity|]. eexists. vm_compute. reflexivity.
Qed.
Print Assumptions C42_total_refuted.

(** The repair of UNTIL may cut off the last occurrence.  The event starts at 20:00 five hours west of UTC, that is at
    01:00 UTC the next day; UNTIL, which was the 10th and takes in the evening of the 10th, becomes the 10th, 01:00 UTC,
    which is the evening of the 9th. *)
Definition west : tzid -> Z -> Z -> Z -> Z -> Z -> Z -> bool -> bool -> Z := fun _ _ _ _ _ _ _ _ _ => -18000.
Definition evening (d : Z) : dt := newDateTime 2026 1 d 20 0 0 false (TzName (lit "West")).
Definition until_10 : rule :=
  mkRule DAILY false 0 true (Some (newDate 2026 1 10 false TzNone)) 1 None None None None None None None None None 1.
Theorem C42_until_last_refuted : exists c k s ps p r u,
  validate west (fun l => l) true None c = (Comp k s ps [], Ok ([lit "[VEVENT] Value types must match: DTSTART, UNTIL"], u)) /\
  sStart s = Some (evening 9) /\ named (lit "RRULE") ps = [p] /\ pValue p = Some (Single (VRecur r)) /\
  exists v0 v, rUntil until_10 = Some v0 /\ dt_lt west v0 (evening 10) = Ok false /\ rUntil r = Some v /\ dt_lt west v (evening 10) = Ok true.
Proof.
  exists (Comp VEVENT (mkState (lit "x") (lit "a") (Some (lit "u:a")) [] (Some (evening 9)) None 1)
    [several (lit "DTSTAMP") [VDateTime nine_thirty]; several (lit "UID") [VText (lit "a")];
     several (lit "DTSTART") [VDateTime (evening 9)]; several (lit "RRULE") [VRecur until_10]] []).
  do 6 eexists. split; [vm_compute; reflexivity|]. split; [reflexivity|]. split; [reflexivity|]. split; [reflexivity|]. do 2 eexists. split; [reflexivity|]. split; [vm_compute; reflexivity|]. split; [reflexivity|]. vm_compute. reflexivity.
Qed.
Print Assumptions C42_until_last_refuted.

(** ** C55. *)

(** validate(doFix=False) of a component reports the problems of it and of the components in it, and nothing else. *)
Theorem C55_reports : forall tzo order parent c,
  (forall l, Permutation (order l) l) -> tidy c -> (forall pp, parent = Some pp -> tidy_props pp) -> everywhere ready_props c ->
  exists u, validate tzo order false parent c = (c, Ok ([], u)) /\ forall m, In m u <-> exists o, tree_problem parent c o m.
Proof.
  intros tzo order parent c O T TP R. destruct (total tzo order O false c parent T TP R ltac:(discriminate)) as (c' & f & u & V).
  destruct (reports tzo order O false c parent c' f u T TP V) as (_ & _ & F & U).
  pose proof (readonly tzo order c parent) as E. rewrite V in E. cbn [fst] in E. subst c'.
  assert (f = []) as ->. { destruct f as [|m f]; [reflexivity|]. destruct (proj1 (F m) (or_introl eq_refl)) as [D _]. discriminate D. }
  exists u. split; [exact V|exact U].
Qed.
Print Assumptions C55_reports.
Example C55_reports_ex : tidy bad_cal /\ everywhere ready_props bad_cal /\
  exists u, validate tz_none (fun l => l) false None bad_cal = (bad_cal, Ok ([], u)) /\ List.length u = 6%nat /\
    tree_problem None bad_cal GoneReported end2.
Proof.
  split; [exact bad_tidy|]. split; [exact bad_ready|]. eexists. split; [vm_compute; reflexivity|]. split; [reflexivity|].
  eapply tp_below; [left; reflexivity|]. apply tp_here. apply (p_too_many_gone _ VEVENT _ _ _ (lit "DTEND")).
  - eexists. split; [vm_compute; do 20 right; left; reflexivity|left; reflexivity].
  - vm_compute. constructor.
  - do 3 eexists. split; [left; reflexivity|]. split; [left; reflexivity|]. split; discriminate.
Qed.

(** All of this can be said of every calendar that was read from text. *)
Theorem C55_read : forall tzo ctx fl uuids text c, parseTextData tzo ctx fl uuids text = Ok (Some c) ->
  tidy c /\ everywhere ready_props c.
Proof.
  intros tzo ctx fl uuids text c H. pose proof (sound_read tzo ctx fl uuids text c H) as S.
  split; [exact (sound_tidy c S)|exact (sound_ready c S)].
Qed.
Print Assumptions C55_read.
(** So a calendar that was read can be asked for its problems without an exception. *)
Theorem C55_asked : forall tzo ctx fl uuids text c order, parseTextData tzo ctx fl uuids text = Ok (Some c) -> (forall l, Permutation (order l) l) ->
  exists u, container_validate tzo order false false c = (c, Ok ([], u)) /\ forall m, In m u <-> exists o, tree_problem None c o m.
Proof.
  intros tzo ctx fl uuids text c order H O. destruct (C55_read tzo ctx fl uuids text c H) as [T R].
  destruct (C55_reports tzo order None c O T ltac:(discriminate) R) as (u & V & U).
  exists u. split; [|exact U]. unfold container_validate. rewrite V. reflexivity.
Qed.
Print Assumptions C55_asked.
Example C55_read_ex : exists c, parseTextData tz_none default_ctx fl0 uuids0 (lines
  [lit "BEGIN:VCALENDAR"; lit "VERSION:2.0"; lit "BEGIN:VEVENT"; lit "dtend:20200101"; lit "DTEND:20200102";
   lit "RRULE:FREQ=DAILY;UNTIL=20200105"; lit "END:VEVENT"; lit "END:VCALENDAR"]) = Ok (Some c) /\
  snd (validate tz_none (fun l => l) false None c) = Ok ([],
    [lit "[VCALENDAR] Missing or too many required property: PRODID"; lit "[VEVENT] Missing or too many required property: DTSTAMP";
     lit "[VEVENT] Missing or too many required property: UID"; lit "[VEVENT] Too many properties present: DTEND";
     lit "[VEVENT] Missing required property: DTSTART"]).
Proof.
  eexists. split; [vm_compute; reflexivity|]. vm_compute. reflexivity.
Qed.

Example C55_asked_ex : exists c u, parseTextData tz_none default_ctx fl0 uuids0 (lines
  [lit "BEGIN:VCALENDAR"; lit "VERSION:2.0"; lit "BEGIN:VTODO"; lit "UID:a"; lit "DUE:20200101"; lit "DURATION:PT1H"; lit "END:VTODO"; lit "END:VCALENDAR"]) = Ok (Some c) /\
  container_validate tz_none (fun l => l) false false c = (c, Ok ([], u)) /\ List.length u = 4%nat.
Proof. do 2 eexists. split; [vm_compute; reflexivity|]. split; vm_compute; reflexivity. Qed.

(** RFC 5545 allows one DTSTART in an event; an event with two of them has no problem here. *)
Theorem C55_start_refuted : exists c k s ps, c = Comp VCALENDAR (newState []) [several (lit "VERSION") [VText (lit "2.0")]; several (lit "PRODID") [VText (lit "me")]] [Comp k s ps []] /\
  k = VEVENT /\ many (lit "DTSTART") ps = 2%nat /\
  tidy c /\ container_validate tz_none (fun l => l) false true c = (c, Ok ([], [])).
Proof.
  do 4 eexists. split; [reflexivity|]. split; [reflexivity|].
  instantiate (1 := [several (lit "DTSTAMP") [VDateTime nine_thirty]; several (lit "UID") [VText (lit "a")]; several (lit "DTSTART") [VDateTime nine_thirty; VDateTime nine_thirty]]).
  instantiate (1 := mkState (lit "x") (lit "a") (Some (lit "u:a")) [] (Some nine_thirty) None 1).
  split; [reflexivity|]. split; [tidy_tree|]. vm_compute. reflexivity.
Qed.
Print Assumptions C55_start_refuted.
