(** Properties of alarms: C66. *)
From Verif Require Import PyBase PyProofs DateTimeModel DurationModel PropertyModel PropertySpec ComponentModel ComponentSpec ComponentProofs2 ValidateSpec DeriveModel EditModel
  MakeModel AlarmModel AlarmSpec AlarmProofs PropComponent PropRecur2 PropTiming PropEdit.

(** If a new alarm with the properties of this one is the same alarm, then that is so after any number of calls of editStatus,
    editAction, editTriggerOn, editTriggerBy and editRepeats; no other property is changed. *)
Theorem C66_edits : forall l ps a b, Forall fair l -> tidy_props ps -> alarm_load ps newAlarm = Ok b -> same_alarm a b ->
  exists ps' a' b', edit_all l (ps, a) = ((ps', a'), Ok tt) /\ alarm_load ps' newAlarm = Ok b' /\ same_alarm a' b' /\
    tidy_props ps' /\ kept_but (flat_map touched l) ps ps'.
Proof. exact edits_done. Qed.
Print Assumptions C66_edits.
(** Each call sets what it is given and nothing else, in memory and in the properties. *)
Theorem C66_given : forall e ps a, fair e -> tidy_props ps ->
  exists ps' a', edit_alarm e (ps, a) = ((ps', a'), Ok tt) /\ given e a a' /\ says e ps' /\ kept_but (touched e) ps ps'.
Proof.
  intros e ps a F T. destruct (edit_done e ps a F T) as (ps' & a' & E & _ & K & _). exists ps', a'. split; [exact E|].
  split; [exact (given_ok e ps a ps' a' E)|]. split; [exact (says_ok e ps a ps' a' F T E)|exact K].
Qed.
Print Assumptions C66_given.
(** An alarm with the same properties, as it is after it was written and read (C39), is the same alarm: dates and durations denote the same. *)
Theorem C66_read : forall k s s' ps ps' subs subs' a b, same_tree (Comp k s ps subs) (Comp k s' ps' subs') -> one_related ps -> one_related ps' ->
  alarm_load ps a = Ok b -> exists b', alarm_load ps' a = Ok b' /\ alike b b'.
Proof. intros k s s' ps ps' subs subs' a b T. inversion T; subst. apply read_alike. assumption. Qed.
Print Assumptions C66_read.
(** The key by which alarms are ordered is made of the action and the trigger. *)
Theorem C66_key : forall s ps b, sAction s = 1 -> alarm_load ps newAlarm = Ok b ->
  exists s', alarm_finalise s ps = Ok s' /\
    sMapKey s' = Some (pystr (aAction b) ++ lit ":" ++ if aAbsolute b then getText (aOn b) else dur_generate (aBy b)).
Proof. exact key_ok. Qed.
Print Assumptions C66_key.

(** ** Examples: alarms read from text *)
Definition with_alarm (l : list bytes) : list bytes := vevent ([lit "DTSTART:19700101T090000Z"; lit "BEGIN:VALARM"] ++ l ++ [lit "END:VALARM"]).
Definition the_alarm (l : list bytes) : comp := nth 0 (cSubs (object_of (read (with_alarm l)) 0)) (event [] []).
Definition alarm_read (l : list bytes) : res valarm := alarm_load (cProps (the_alarm l)) newAlarm.
Definition alarm_edit (es : list edit_call) (l : list bytes) : option (bytes * res unit * res valarm * res valarm) :=
  match alarm_read l with
  | Ok a =>
    let '((ps, a), r) := edit_all es (cProps (the_alarm l), a) in
    match generate fl0 (Comp VALARM (cState (the_alarm l)) ps []) with
    | Some (Ok text) => Some (text, r, Ok a, alarm_load ps newAlarm)
    | _ => None
    end
  | Raise _ => None
  end.
Definition alarm_lines (l : list bytes) : bytes := lines ([lit "BEGIN:VALARM"] ++ l ++ [lit "END:VALARM"]).
Definition minutes n : dur := mkDur true 0 0 0 n 0.
Definition before n : dur := mkDur false 0 0 0 n 0.
Definition alarm1 : list bytes := [lit "ACTION:DISPLAY"; lit "DESCRIPTION:now"; lit "TRIGGER:-PT15M"; lit "X-A:1"].
Definition props1 : props := Eval vm_compute in cProps (the_alarm alarm1).
Definition loaded1 : valarm := mkAlarm 1 false true newDefault (before 15) 0 (setDuration 300) false 0 newDefault 0 (Display (Some (lit "now"))).
Definition calls1 : list edit_call :=
  [EditAction 2 (Email (Some (lit "b,c")) (Some (lit "s")) (Some [Some (lit "mailto:a@b.c"); Some (lit "mailto:d@b.c")])); EditTriggerOn (utc 1970 1 1 8);
   EditRepeats 3 (minutes 10); EditStatus 2].
Lemma props1_tidy : tidy_props props1.
Proof. split; [repeat constructor; no_in|]. repeat constructor; discriminate. Qed.
Lemma calls1_fair : Forall fair calls1.
Proof.
  apply Forall_cons; [repeat split; try discriminate; repeat constructor; discriminate|]. apply Forall_cons; [exact I|].
  apply Forall_cons; [discriminate|]. apply Forall_cons; [split; discriminate|]. apply Forall_nil.
Qed.
Example C66_edits_ex : Forall fair calls1 /\ tidy_props props1 /\ cProps (the_alarm alarm1) = props1 /\ alarm_load props1 newAlarm = Ok loaded1 /\ same_alarm loaded1 loaded1 /\
  (let a := mkAlarm 2 true true (utc 1970 1 1 8) (before 15) 3 (minutes 10) false 2 newDefault 0
              (Email (Some (lit "b,c")) (Some (lit "s")) (Some [Some (lit "mailto:a@b.c"); Some (lit "mailto:d@b.c")])) in
   let b := mkAlarm 2 true true (utc 1970 1 1 8) (setDuration 3600) 3 (minutes 10) false 2 newDefault 0 (aData a) in
   alarm_edit calls1 alarm1 =
     Some (alarm_lines [lit "ACTION:EMAIL"; lit "ATTENDEE:mailto:a@b.c"; lit "ATTENDEE:mailto:d@b.c"; lit "DESCRIPTION:b\,c"; lit "DURATION:PT10M"; lit "REPEAT:3";
                        lit "SUMMARY:s"; lit "TRIGGER;VALUE=DATE-TIME:19700101T080000Z"; lit "X-A:1"; lit "X-MULBERRY-ALARM-STATUS:DISABLED"], Ok tt, Ok a, Ok b) /\
   same_alarm a b).
Proof.
  split; [exact calls1_fair|]. split; [exact props1_tidy|]. split; [vm_compute; reflexivity|]. split; [vm_compute; reflexivity|].
  split; [repeat split; reflexivity|]. cbv zeta. split; [vm_compute; reflexivity|]. repeat split; reflexivity.
Qed.
Example C66_given_ex : fair (EditTriggerBy (minutes 5) false) /\ tidy_props props1 /\
  alarm_edit [EditTriggerBy (minutes 5) false] alarm1 =
    (let a := mkAlarm 1 false false newDefault (minutes 5) 0 (setDuration 300) false 0 newDefault 0 (Display (Some (lit "now"))) in
     Some (alarm_lines [lit "ACTION:DISPLAY"; lit "DESCRIPTION:now"; lit "TRIGGER;RELATED=END:PT5M"; lit "X-A:1"], Ok tt, Ok a, Ok a)) /\
  alarm_edit [EditRepeats 3 (minutes 5); EditTriggerOn (day 3); EditRepeats 0 (minutes 5)] alarm1 =
    Some (alarm_lines [lit "ACTION:DISPLAY"; lit "DESCRIPTION:now"; lit "TRIGGER;VALUE=DATE:19700103"; lit "X-A:1"], Ok tt,
          Ok (mkAlarm 1 true true (day 3) (before 15) 0 (minutes 5) false 0 newDefault 0 (Display (Some (lit "now")))),
          Ok (mkAlarm 1 true true (day 3) (setDuration 3600) 0 (setDuration 300) false 0 newDefault 0 (Display (Some (lit "now"))))).
Proof. split; [exact I|]. split; [exact props1_tidy|]. split; vm_compute; reflexivity. Qed.
Example C66_read_ex : exists s s' ps ps' b b', same_tree (Comp VALARM s ps []) (Comp VALARM s' ps' []) /\ one_related ps /\ one_related ps' /\ ps <> ps' /\
  alarm_load ps newAlarm = Ok b /\ alarm_load ps' newAlarm = Ok b' /\ b <> b' /\ aRepeats b = 2.
Proof.
  set (ps := [entry (lit "TRIGGER") (VDuration (mkDur false 0 0 0 90 0)); entry (lit "REPEAT") (VInteger 2); entry (lit "DURATION") (VDuration (minutes 60))]).
  set (ps' := [entry (lit "TRIGGER") (VDuration (mkDur false 0 0 1 30 0)); entry (lit "REPEAT") (VInteger 2); entry (lit "DURATION") (VDuration (hours 1))]).
  exists (newState []), (newState []), ps, ps'. do 2 eexists. split.
  - apply (same_comp VALARM _ _ _ _ [] [] []); [|constructor|constructor]. intro name. unfold getProperties, ps, ps', entry. cbn [assoc].
    repeat match goal with |- context [if ?b then _ else _] => destruct b end; repeat constructor.
  - split; [exact I|]. split; [exact I|]. split; [discriminate|]. split; [vm_compute; reflexivity|]. split; [vm_compute; reflexivity|]. split; [discriminate|reflexivity].
Qed.
Example C66_key_ex : alarm_load props1 newAlarm = Ok loaded1 /\ sAction (newState []) = 1 /\ sMapKey (cState (the_alarm alarm1)) = Some (lit "1:-PT15M").
Proof. repeat split; vm_compute; reflexivity. Qed.

(** ** What does not hold *)

(** getNextTrigger is to give the time of the next alarm.  It always raises AttributeError. *)
Theorem C66_next_raises : forall c, snd (getNextTrigger c) = Raise AttributeError.
Proof. intros [ps a]. unfold getNextTrigger, initNextTrigger. destruct (aStatusInit a); [reflexivity|]. destruct (aStatus a =? 1); reflexivity. Qed.
Print Assumptions C66_next_raises.
Theorem C66_next_refuted : exists l b, alarm_read l = Ok b /\ aStatus b = 0 /\ aAbsolute b = true /\ snd (getNextTrigger (cProps (the_alarm l), b)) = Raise AttributeError.
Proof. exists [lit "ACTION:DISPLAY"; lit "TRIGGER;VALUE=DATE-TIME:19700101T080000Z"]. eexists. split; [vm_compute; reflexivity|]. repeat split; reflexivity. Qed.
Print Assumptions C66_next_refuted.
(** alarmTriggered is to record the alarm.  It raises, having removed what was recorded: read again, the alarm that was switched off is pending. *)
Theorem C66_triggered_refuted : exists l a ps b, alarm_read l = Ok a /\ aStatus a = 2 /\
  alarmTriggered (cProps (the_alarm l), a) = ((ps, a), Raise AttributeError) /\ alarm_load ps newAlarm = Ok b /\ aStatus b = 0 /\ aLast b <> aLast a.
Proof.
  exists (alarm1 ++ [lit "X-MULBERRY-ALARM-STATUS:DISABLED"; lit "X-MULBERRY-LAST-TRIGGER:19700101T080000Z"]). do 3 eexists. split; [vm_compute; reflexivity|].
  split; [reflexivity|]. split; [vm_compute; reflexivity|]. split; [vm_compute; reflexivity|]. split; [reflexivity|]. vm_compute. discriminate.
Qed.
Print Assumptions C66_triggered_refuted.
(** An alarm with an action of its own kind has the action unknown, 4.  editAction with that action writes PROCEDURE. *)
Theorem C66_unknown_action_refuted : exists l a, alarm_read l = Ok a /\ aAction a = 4 /\
  exists text a' b, alarm_edit [EditAction (aAction a) (aData a)] l = Some (text, Ok tt, Ok a', Ok b) /\ aAction a' = 4 /\ aAction b = 3.
Proof. exists [lit "ACTION:X-BEEP"; lit "TRIGGER:PT0S"]. eexists. split; [vm_compute; reflexivity|]. split; [reflexivity|]. do 3 eexists. split; [vm_compute; reflexivity|]. split; reflexivity. Qed.
Print Assumptions C66_unknown_action_refuted.
(** ACTION and RELATED are case-insensitive (RFC 5545 section 2).  In lower case the first is unknown, the second without effect. *)
Theorem C66_case_refuted : exists l m a b, alarm_read l = Ok a /\ alarm_read m = Ok b /\
  map (map (fun c => upper [c])) l = map (map (fun c => upper [c])) m /\ (aAction a, aOnStart a) = (1, false) /\ (aAction b, aOnStart b) = (4, true).
Proof.
  exists [lit "ACTION:DISPLAY"; lit "TRIGGER;RELATED=END:PT1H"], [lit "ACTION:display"; lit "TRIGGER;RELATED=end:PT1H"]. do 2 eexists.
  split; [vm_compute; reflexivity|]. split; [vm_compute; reflexivity|]. split; [vm_compute; reflexivity|]. split; reflexivity.
Qed.
Print Assumptions C66_case_refuted.
(** A sound alarm without a text to speak, given its own action again, gets a property for it without a value, which is read as the empty text. *)
Theorem C66_audio_refuted : exists l a, alarm_read l = Ok a /\ aAction a = 0 /\ aData a = Audio None /\
  exists a' b, alarm_edit [EditAction (aAction a) (aData a)] l =
    Some (alarm_lines [lit "ACTION:AUDIO"; lit "TRIGGER:PT0S"; lit "X-MULBERRY-SPEAK-TEXT:"], Ok tt, Ok a', Ok b) /\ aData a' = aData a /\
    option_map aData match alarm_read [lit "ACTION:AUDIO"; lit "TRIGGER:PT0S"; lit "X-MULBERRY-SPEAK-TEXT:"] with Ok c => Some c | Raise _ => None end = Some (Audio (Some [])).
Proof.
  exists [lit "ACTION:AUDIO"; lit "TRIGGER:PT0S"]. eexists. split; [vm_compute; reflexivity|]. split; [reflexivity|]. split; [reflexivity|].
  do 2 eexists. split; [vm_compute; reflexivity|]. split; vm_compute; reflexivity.
Qed.
Print Assumptions C66_audio_refuted.
(** An e-mail alarm made without attendees raises TypeError when it is set; the old action is gone. *)
Theorem C66_email_refuted : exists ps a ps' a' e, tidy_props ps /\ alarm_load ps newAlarm = Ok a /\ aAction a = 1 /\
  editAction 2 (Email (Some (lit "b")) (Some (lit "s")) None) (ps, a) = ((ps', a'), Raise e) /\ aAction a' = 2 /\ getProperties (lit "DESCRIPTION") ps' <> getProperties (lit "DESCRIPTION") ps.
Proof.
  exists props1, loaded1. do 3 eexists. split; [exact props1_tidy|]. split; [vm_compute; reflexivity|]. split; [reflexivity|]. split; [vm_compute; reflexivity|].
  split; [reflexivity|]. vm_compute. discriminate.
Qed.
Print Assumptions C66_email_refuted.
(** editRepeats with a negative number is not read back, nor is the interval when there are no repetitions. *)
Theorem C66_repeats_refuted : exists l n i text a b, alarm_edit [EditRepeats n i] l = Some (text, Ok tt, Ok a, Ok b) /\ aRepeats a = n /\ aRepeats b = 0 /\ n < 0 /\ aInterval a <> aInterval b.
Proof.
  exists alarm1, (-1), (minutes 10). do 3 eexists. split; [vm_compute; reflexivity|]. split; [reflexivity|]. split; [reflexivity|]. split; [reflexivity|discriminate].
Qed.
Print Assumptions C66_repeats_refuted.
