(** Properties of the summary, the status and the completion of components: C71. *)
From Coq Require Import Lia.
From Verif Require Import PyBase PyProofs ParserCtx LineSpec DateTimeModel DateTimeSpec DateTimeSpec2 PeriodSpec RecurUnionSpec PropertyModel PropertySpec ComponentModel ComponentSpec ValidateModel ValidateSpec
  AdjustSpec AdjustProofs RecurCacheProofs StatusModel StatusSpec StatusProofs StatusProofs2 PropComponent PropRecur2 PropTiming PropDerive PropEdit.

(** Each call sets what it is given, in memory and in the properties, and changes nothing else. *)
Theorem C71_given : forall tzo k x ps e, fair_detail k x -> tidy_props ps ->
  exists ps' e', edit_detail tzo k x (ps, e) = ((ps', e'), Ok tt) /\ detail_given tzo k x ps ps' e e' /\ kept_but (touched_by x) ps ps'.
Proof.
  intros tzo k x ps e F T. destruct (detail_step tzo k x ps e F T) as (ps' & e' & E & _ & K & G & _). exists ps', e'. split; [exact E|]. split; assumption.
Qed.
Print Assumptions C71_given.
(** If a new component with the properties of this one has the same summary, status, priority, percentage and completion, then that is
    so after any number of calls of editSummary, editDetails, editStatus and editCompleted. *)
Theorem C71_edits : forall tzo k l ps e, Forall (fair_detail k) l -> tidy_props ps -> in_step k ps e ->
  exists ps' e', edit_details tzo k l (ps, e) = ((ps', e'), Ok tt) /\ in_step k ps' e' /\ tidy_props ps' /\ kept_but (flat_map touched_by l) ps ps'.
Proof. exact details_steps. Qed.
Print Assumptions C71_edits.
(** A component of a calendar is edited; then the calendar is written and read: it has a component with the properties of that
    one, and its summary, status, priority, percentage and completion are those that the edited component has in memory. *)
Theorem C71_written : forall tzo ctx fl uuids k s cs cps before after ps subs e l, is_recur k = true ->
  calendar_ok ctx fl (Comp VCALENDAR cs cps (before ++ Comp k s ps subs :: after)) -> in_step k ps e ->
  Forall (fair_detail k) l -> Forall (writable tzo) l ->
  exists ps' e' text cal c, edit_details tzo k l (ps, e) = ((ps', e'), Ok tt) /\
    generate fl (Comp VCALENDAR cs cps (before ++ Comp k s ps' subs :: after)) = Some (Ok text) /\
    parseTextData tzo ctx fl uuids text = Ok (Some cal) /\
    In c (cSubs cal) /\ same_tree (Comp k s ps' subs) c /\ details_rel same_when k e' (details_finalise k (cProps c) newDetails).
Proof. exact written. Qed.
Print Assumptions C71_written.
(** A completion given in a zone is stored as the same time in UTC. *)
Theorem C71_completed : forall tzo t d x ps e, tz_true t = true -> instant (InZone false t) d x -> honest tzo d -> tidy_props ps ->
  exists ps' e' u, editCompleted tzo d (ps, e) = ((ps', e'), Ok tt) /\ eHasCompleted e' = true /\ eCompleted e' = u /\
    one_prop (lit "COMPLETED") (VDateTime u) [(lit "TZID", [])] ps' /\ instant (InZone true TzNone) u (x - zone_offset tzo (false, t) d).
Proof.
  intros tzo t d x ps e Z I H T. destruct (completed_done tzo d ps e T) as (ps' & e' & E & _ & _ & (_ & _ & _ & _ & A & B & C) & _).
  exists ps', e', (adjustToUTC tzo d). repeat (split; [assumption|]). apply to_utc; assumption.
Qed.
Print Assumptions C71_completed.
(** getDescription and getLocation after editDetails: the texts that it was given; the empty text for None. *)
Theorem C71_texts : forall d l ps e, tidy_props ps -> exists ps', editDetails d l (ps, e) = ((ps', e), Ok tt) /\
  text_or_empty (lit "DESCRIPTION") ps' = match d with Some t => t | None => [] end /\ text_or_empty (lit "LOCATION") ps' = match l with Some t => t | None => [] end.
Proof.
  intros d l ps e T. destruct (details_done tz_none VEVENT d l ps e T) as (ps' & e' & E & _ & _ & (_ & _ & A & B & ->) & _). exists ps'. split; [exact E|].
  unfold text_or_empty. rewrite (loaded_text _ _ _ A), (loaded_text _ _ _ B). destruct d as [[|]|], l as [[|]|]; split; reflexivity.
Qed.
Print Assumptions C71_texts.
(** The status that is read: that of the first STATUS, if its text is one of those of RFC 5545; otherwise it stays. *)
Theorem C71_read : forall k ps e, k = VEVENT \/ k = VTODO ->
  (forall p r t s, getProperties (lit "STATUS") ps = p :: r -> pValue p = Some (Single (VText t)) -> status_word k s = Some t ->
     eStatus (details_finalise k ps e) = s) /\
  (forall p r t, getProperties (lit "STATUS") ps = p :: r -> pValue p = Some (Single (VText t)) -> (forall s, status_word k s <> Some t) ->
     eStatus (details_finalise k ps e) = eStatus e) /\
  (getProperties (lit "STATUS") ps = [] -> eStatus (details_finalise k ps e) = eStatus e).
Proof.
  intros k ps e K. split; [|split].
  - intros p r t s G V W. assert (L : loadString (lit "STATUS") ps = Some t) by (unfold loadString, load, findFirstProperty; rewrite G; cbn [hd_error]; rewrite V; reflexivity).
    destruct K as [-> | ->]; cbn [details_finalise eStatus]; unfold load_status; rewrite L; unfold status_word in W;
      repeat (match type of W with match ?p with _ => _ end = _ => destruct p; try discriminate W end); injection W as <-; reflexivity.
  - intros p r t G V W. assert (L : loadString (lit "STATUS") ps = Some t) by (unfold loadString, load, findFirstProperty; rewrite G; cbn [hd_error]; rewrite V; reflexivity).
    destruct K as [-> | ->]; cbn [details_finalise eStatus]; unfold load_status; rewrite L; unfold vevent_status, vtodo_status;
      repeat match goal with |- context [beq t ?w] => let B := fresh "B" in destruct (beq t w) eqn:B; [apply beq_eq in B; subst t; exfalso; first [apply (W 1); reflexivity|apply (W 2); reflexivity|apply (W 3); reflexivity|apply (W 4); reflexivity]|] end; reflexivity.
  - intro G. assert (L : loadString (lit "STATUS") ps = None) by (unfold loadString, load, findFirstProperty; rewrite G; reflexivity).
    destruct K as [-> | ->]; cbn [details_finalise eStatus]; unfold load_status; rewrite L; reflexivity.
Qed.
Print Assumptions C71_read.
(** The state of completion of a to-do without a due date. *)
Theorem C71_state : forall e, getCompletionState e false =
  Ok match status_word VTODO (eStatus e) with
     | None => None
     | Some t => Some (if beq t (lit "COMPLETED") then DONE else if beq t (lit "CANCELLED") then DROPPED else DUE_NOW)
     end.
Proof.
  intro e. unfold getCompletionState. destruct (eStatus e) as [|p|p]; [reflexivity| |reflexivity].
  destruct p as [[p|p|]|[p|[p|p|]|]|]; reflexivity.
Qed.
Print Assumptions C71_state.

(** ** Examples *)
(** The component of this text is edited; then its lines, its details, how the calls ended, and the details of a new component. *)
Definition edit_text (es : list detail_call) (l : list bytes) :=
  let c := object_of (read l) 0 in
  let '((ps, e), r) := edit_details no_zones (cKind c) es (cProps c, details_finalise (cKind c) (cProps c) newDetails) in
  match generate fl0 (Comp (cKind c) (cState c) ps (cSubs c)) with
  | Some (Ok s) => Some (s, e, r, details_finalise (cKind c) ps newDetails)
  | _ => None
  end.
Definition chore : list bytes := vtodo [lit "SUMMARY:s"; lit "STATUS:IN-PROCESS"; lit "PRIORITY:3"; lit "LOCATION:here"; lit "X-A:1"].
Definition chore_props : props := Eval vm_compute in cProps (object_of (read chore) 0).
Definition chore_details : details := mkDetails (Some (lit "s")) 2 (Some 3) None newDefault false.
Definition chore_calls : list detail_call :=
  [CallStatus 4; CallSummary (Some (lit "a, b")); CallCompleted (utc 1970 1 3 9); CallDetails (Some (lit "d")) None].
Lemma chore_tidy : tidy_props chore_props.
Proof. split; [repeat constructor; no_in|]. repeat constructor; discriminate. Qed.
Lemma chore_fair : Forall (fair_detail VTODO) chore_calls.
Proof. apply Forall_cons; [right; split; [reflexivity|tauto]|]. apply Forall_cons; [discriminate|]. apply Forall_cons; [reflexivity|]. apply Forall_cons; [exact I|]. apply Forall_nil. Qed.
Example C71_edits_ex : Forall (fair_detail VTODO) chore_calls /\ tidy_props chore_props /\ cProps (object_of (read chore) 0) = chore_props /\
  in_step VTODO chore_props chore_details /\
  let e := mkDetails (Some (lit "a, b")) 4 (Some 3) None (utc 1970 1 3 9) true in
  edit_text chore_calls chore =
    Some (lines [lit "BEGIN:VTODO"; lit "UID:a"; lit "COMPLETED:19700103T090000Z"; lit "DESCRIPTION:d"; lit "PRIORITY:3"; lit "STATUS:CANCELLED"; lit "SUMMARY:a\, b"; lit "X-A:1"; lit "END:VTODO"],
          e, Ok tt, e).
Proof. split; [exact chore_fair|]. split; [exact chore_tidy|]. split; [vm_compute; reflexivity|]. split; [repeat split; try reflexivity; discriminate|]. vm_compute. reflexivity. Qed.
Example C71_given_ex : fair_detail VTODO (CallStatus 4) /\ tidy_props chore_props /\
  match vtodo_editStatus 4 (chore_props, chore_details) with
  | ((ps, e), Ok _) => eStatus e = 4 /\ getProperties (lit "STATUS") ps = [mkProp (lit "STATUS") [] (Some (Single (VText (lit "CANCELLED"))))]
  | _ => False
  end.
Proof. split; [right; split; [reflexivity|tauto]|]. split; [exact chore_tidy|]. vm_compute. split; reflexivity. Qed.
Definition e_acute : bytes := [ascii_of_nat 195; ascii_of_nat 169].
Definition calls2 : list detail_call := [CallSummary (Some (e_acute ++ lit "t" ++ e_acute ++ [LF] ++ lit "x")); CallStatus 3; CallDetails None (Some (lit "there"))].
Example C71_written_ex : is_recur VEVENT = true /\
  calendar_ok default_ctx fl0 (Comp VCALENDAR (cState cal1) (cProps cal1)
    ([unknown (lit "X-OUTER") [unknown (lit "X-INNER") []]] ++ Comp VEVENT (cState (event (lit "b") [alarm])) (cProps (event (lit "b") [alarm])) [alarm] :: [event (lit "a") []])) /\
  in_step VEVENT (cProps (event (lit "b") [alarm])) (mkDetails (Some (lit "one, two")) 0 None None newDefault false) /\
  Forall (fair_detail VEVENT) calls2 /\ Forall (writable tz_none) calls2 /\
  edit_text calls2 (vevent [lit "SUMMARY:one"; lit "STATUS:TENTATIVE"]) =
    let e := mkDetails (Some (e_acute ++ lit "t" ++ e_acute ++ [LF] ++ lit "x")) 3 (Some 0) (Some 0) newDefault false in
    Some (lines [lit "BEGIN:VEVENT"; lit "UID:a"; lit "LOCATION:there"; lit "STATUS:CANCELLED"; lit "SUMMARY:" ++ e_acute ++ lit "t" ++ e_acute ++ lit "\nx"; lit "END:VEVENT"], e, Ok tt, e).
Proof.
  split; [reflexivity|]. split; [exact cal1_ok|]. split; [repeat split; reflexivity|]. split; [|split].
  - apply Forall_cons; [discriminate|]. apply Forall_cons; [left; split; [reflexivity|lia]|]. apply Forall_cons; [exact I|]. apply Forall_nil.
  - apply Forall_cons; [|apply Forall_cons; [exact I|apply Forall_cons; [|apply Forall_nil]]].
    + apply utf8_app; [|apply utf8_app; [|apply utf8_app]]; try (apply utf8_ascii; repeat constructor; cbn; lia);
        (exists [e_acute]; split; [|reflexivity]; constructor; [|constructor]; eexists; eexists; split; [reflexivity|]; split; [unfold continuation; cbn; lia|]; split; [repeat constructor; cbn; lia|cbn; lia]).
    + split; [exact I|]. apply utf8_ascii. repeat constructor; cbn; lia.
  - vm_compute. reflexivity.
Qed.
(** Two hours ahead of UTC. *)
Definition two_hours : tzid -> Z -> Z -> Z -> Z -> Z -> Z -> bool -> bool -> Z := fun _ _ _ _ _ _ _ _ _ => 7200.
Definition cairo (d h : Z) : dt := newDateTime 1970 1 d h 0 0 false (TzName (lit "Africa/Cairo")).
Example C71_completed_ex : tz_true (TzName (lit "Africa/Cairo")) = true /\ instant (InZone false (TzName (lit "Africa/Cairo"))) (cairo 3 1) 176400 /\ honest two_hours (cairo 3 1) /\ tidy_props chore_props /\
  zone_offset two_hours (false, TzName (lit "Africa/Cairo")) (cairo 3 1) = 7200 /\
  match editCompleted two_hours (cairo 3 1) (chore_props, chore_details) with
  | ((ps, e), Ok _) => visible (eCompleted e) = visible (utc 1970 1 2 23) /\ map (prop_line fl0) (getProperties (lit "COMPLETED") ps) = [Ok (lit "COMPLETED:19700102T230000Z")]
  | _ => False
  end.
Proof.
  split; [reflexivity|]. split; [|split; [|split; [exact chore_tidy|split; [reflexivity|vm_compute; split; reflexivity]]]].
  - split; [repeat split; vm_compute; congruence|]. split; [reflexivity|]. split; [reflexivity|]. split; [reflexivity|]. exists 2. split; [left; split; [lia|reflexivity]|reflexivity].
  - split; discriminate.
Qed.
Example C71_read_ex : getProperties (lit "STATUS") chore_props <> [] /\ status_word VTODO 2 = Some (lit "IN-PROCESS") /\ eStatus (details_finalise VTODO chore_props newDetails) = 2 /\
  (forall s, status_word VTODO s <> Some (lit "CONFIRMED")) /\ eStatus (details_finalise VTODO [entry (lit "STATUS") (VText (lit "CONFIRMED"))] chore_details) = 2.
Proof. split; [discriminate|]. split; [reflexivity|]. split; [reflexivity|]. split; [|reflexivity]. intros s H. cbn in H. repeat match type of H with match ?p with _ => _ end = _ => destruct p; try discriminate H end. Qed.
Example C71_texts_ex : tidy_props chore_props /\ text_or_empty (lit "LOCATION") chore_props = lit "here" /\ text_or_empty (lit "DESCRIPTION") chore_props = [].
Proof. split; [exact chore_tidy|]. split; reflexivity. Qed.
Example C71_state_ex : eStatus chore_details = 2 /\ getCompletionState chore_details false = Ok (Some DUE_NOW) /\ getCompletionState (put_status chore_details 3 true) false = Ok (Some DONE).
Proof. split; [|split]; reflexivity. Qed.

(** ** What does not hold *)

(** A to-do is given the status COMPLETED: the call raises; the to-do is completed in memory, has no date of completion there, and is
    written without any status. *)
Theorem C71_complete_refuted : exists l e, edit_text [CallStatus 3] l =
    Some (lines [lit "BEGIN:VTODO"; lit "UID:a"; lit "LOCATION:here"; lit "PRIORITY:3"; lit "SUMMARY:s"; lit "X-A:1"; lit "END:VTODO"],
          mkDetails (Some (lit "s")) 3 (Some 3) None newDefault false, Raise AttributeError, e) /\ eStatus e = 0.
Proof. exists chore. eexists. split; [vm_compute; reflexivity|reflexivity]. Qed.
Print Assumptions C71_complete_refuted.

(** The status is taken from a to-do: an empty STATUS is written, which RFC 5545 does not have; an event has none then. *)
Theorem C71_none_refuted : exists l text e e', edit_text [CallStatus 0] l = Some (text, e, Ok tt, e') /\ status_word VTODO 0 = None /\
  text = lines [lit "BEGIN:VTODO"; lit "UID:a"; lit "LOCATION:here"; lit "PRIORITY:3"; lit "STATUS:"; lit "SUMMARY:s"; lit "X-A:1"; lit "END:VTODO"].
Proof. exists chore. do 3 eexists. split; [vm_compute; reflexivity|]. split; reflexivity. Qed.
Print Assumptions C71_none_refuted.

(** The texts of a status are compared as they are written: STATUS:cancelled is no status. *)
Theorem C71_case_refuted : exists l, In (lit "STATUS:cancelled") l /\ eStatus (details_finalise VEVENT (cProps (object_of (read l) 0)) newDetails) = 0 /\
  edit_text [CallStatus 0] l = Some (lines [lit "BEGIN:VEVENT"; lit "UID:a"; lit "STATUS:cancelled"; lit "END:VEVENT"], newDetails, Ok tt, newDetails).
Proof. exists (vevent [lit "STATUS:cancelled"]). split; [cbn; tauto|]. split; vm_compute; reflexivity. Qed.
Print Assumptions C71_case_refuted.

(** The properties are removed and finalise is called: the status and the summary stay. *)
Theorem C71_stale_refuted : exists ps e, in_step VEVENT ps e /\ let ps' := removeProperties (lit "STATUS") (removeProperties (lit "SUMMARY") ps) in
  getProperties (lit "STATUS") ps' = [] /\ getProperties (lit "SUMMARY") ps' = [] /\
  eStatus (details_finalise VEVENT ps' e) = 3 /\ eSummary (details_finalise VEVENT ps' e) = Some (lit "s") /\
  eStatus (details_finalise VEVENT ps' newDetails) = 0 /\ eSummary (details_finalise VEVENT ps' newDetails) = None.
Proof.
  exists [entry (lit "STATUS") (VText (lit "CANCELLED")); entry (lit "SUMMARY") (VText (lit "s"))], (mkDetails (Some (lit "s")) 3 (Some 0) (Some 0) newDefault false).
  split; [repeat split; reflexivity|]. vm_compute. repeat split.
Qed.
Print Assumptions C71_stale_refuted.

(** validate makes a cancelled event of one that is cancelled and confirmed; its status in memory is still that it is confirmed. *)
Theorem C71_fixed_refuted : exists ps e ps' r, in_step VEVENT ps e /\ check_STATUS VEVENT true ps = (ps', Ok r) /\
  getProperties (lit "STATUS") ps' = [mkProp (lit "STATUS") [] (Some (Single (VText (lit "CANCELLED"))))] /\ eStatus e = 1 /\ ~ in_step VEVENT ps' e.
Proof.
  exists (cProps (object_of (read (vevent [lit "STATUS:CONFIRMED"; lit "STATUS:CANCELLED"])) 0)), (mkDetails None 1 (Some 0) (Some 0) newDefault false). do 2 eexists.
  split; [vm_compute; repeat split|]. split; [vm_compute; reflexivity|]. split; [reflexivity|]. split; [reflexivity|]. intros (_ & H & _). discriminate H.
Qed.
Print Assumptions C71_fixed_refuted.

(** The status that a component has in memory is not written again: another STATUS beside it stays. *)
Theorem C71_same_refuted : exists l e, edit_text [CallStatus 1] l =
  Some (lines [lit "BEGIN:VEVENT"; lit "UID:a"; lit "STATUS:CONFIRMED"; lit "STATUS:TENTATIVE"; lit "END:VEVENT"], e, Ok tt, e).
Proof. exists (vevent [lit "STATUS:CONFIRMED"; lit "STATUS:TENTATIVE"]). eexists. vm_compute. reflexivity. Qed.
Print Assumptions C71_same_refuted.

(** A date of completion without a zone, or without a time, is not in UTC, as it must be (RFC 5545 section 3.8.2.1). *)
Theorem C71_utc_refuted :
  (exists d text e e', edit_text [CallCompleted d] (vtodo []) = Some (text, e, Ok tt, e') /\ text = lines [lit "BEGIN:VTODO"; lit "UID:a"; lit "COMPLETED:19700103T090000"; lit "END:VTODO"]) /\
  (exists d text e e', edit_text [CallCompleted d] (vtodo []) = Some (text, e, Ok tt, e') /\ text = lines [lit "BEGIN:VTODO"; lit "UID:a"; lit "COMPLETED;VALUE=DATE:19700103"; lit "END:VTODO"]).
Proof.
  split; [exists (newDateTime 1970 1 3 9 0 0 false TzNone)|exists (day 3)]; do 3 eexists; (split; [vm_compute; reflexivity|reflexivity]).
Qed.
Print Assumptions C71_utc_refuted.

(** An empty summary is there in memory, and none is there when the component is read. *)
Theorem C71_empty_refuted : exists l text e e', edit_text [CallSummary (Some [])] l = Some (text, e, Ok tt, e') /\ eSummary e = Some [] /\ eSummary e' = None.
Proof. exists chore. do 3 eexists. split; [vm_compute; reflexivity|]. split; reflexivity. Qed.
Print Assumptions C71_empty_refuted.

(** The state of a to-do that is not done and has a due date, the text of the status of any to-do, and the order of any two: these
    calls raise. *)
Theorem C71_display_refuted : exists e, eStatus e = 1 /\ getCompletionState e true = Raise AttributeError /\
  (forall e, exists x, getStatusText e = Raise x) /\ (forall a b, exists x, sort_for_display a b = Raise x).
Proof. exists (put_status newDetails 1 false). split; [reflexivity|]. split; [reflexivity|]. split; intros; eexists; reflexivity. Qed.
Print Assumptions C71_display_refuted.
