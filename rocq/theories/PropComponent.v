(** Properties of component trees: C39, C40 and C41. *)
From Verif Require Import PyBase PyProofs ParserCtx LineModel LineSpec DateTimeModel DateTimeSpec2 DurationModel PropertyModel PropertySpec
  ComponentModel ComponentSpec ComponentProofs ComponentProofs2 ComponentProofs5 ComponentProofs6 ComponentProofs7.

(** For the examples: no time zone differs from UTC, floats are integers, the n-th uuid is n times the letter u. *)
Definition tz_none : tzid -> Z -> Z -> Z -> Z -> Z -> Z -> bool -> bool -> Z := fun _ _ _ _ _ _ _ _ _ => 0.
Definition fl0 : floats := mkFloats (fun s => match pyint s with Ok n => Some n | Raise _ => None end) pystr Z.eqb.
Definition uuids0 (n : nat) : bytes := repeat "u"%char n.
Definition lines (l : list bytes) : bytes := List.concat (map (fun s => s ++ [CR; LF]) l).
(** A property with one value and no parameters, as dictionary entry. *)
Definition entry (name : bytes) (v : item) : bytes * list prop := (name, [mkProp name [] (Some (Single v))]).

(** A calendar of properties and components nested to any depth is written as text that is read as a calendar with the
    same properties of every name in the same order and the same components, in every component of it. *)
Theorem C39_round_trip : forall tzo ctx fl uuids c, calendar_ok ctx fl c ->
  exists text c', generate fl c = Some (Ok text) /\ parseTextData tzo ctx fl uuids text = Ok (Some c') /\ same_tree c c'.
Proof.
  intros tzo ctx fl uuids c H. destruct (calendar_round tzo ctx fl uuids c H) as (text & c' & G & P & M).
  exists text, c'. split; [exact G|]. split; [exact P|]. exact (calendar_same tzo ctx fl c c' H M).
Qed.
Print Assumptions C39_round_trip.

(** If each component is as finalise left it, and its place among the others comes from its properties, then what was
    read is written as the same text. *)
Theorem C39_stable : forall tzo ctx fl uuids c, calendar_ok ctx fl c -> finalised tzo c -> keyed c ->
  exists text c', generate fl c = Some (Ok text) /\ parseTextData tzo ctx fl uuids text = Ok (Some c') /\ same_tree c c' /\
    generate fl c' = Some (Ok text).
Proof.
  intros tzo ctx fl uuids c H F K. destruct (calendar_round tzo ctx fl uuids c H) as (text & c' & G & P & M).
  exists text, c'. split; [exact G|]. split; [exact P|]. split; [exact (calendar_same tzo ctx fl c c' H M)|].
  rewrite (calendar_again tzo ctx fl c c' H M F K). exact G.
Qed.
Print Assumptions C39_stable.

(** An event with an alarm, an event before it in the order of the UIDs, and an unknown component in an unknown component. *)
Definition alarm : comp :=
  Comp VALARM (mkState (lit "x") [] (Some (lit "1:-PT15M")) [] None None 1)
    [entry (lit "ACTION") (VText (lit "DISPLAY")); entry (lit "TRIGGER") (VDuration (mkDur false 0 0 0 15 0))] [].
Definition nine_thirty : dt := newDateTime 2020 1 31 9 30 0 true TzNone.
Definition event (uid : bytes) (subs : list comp) : comp :=
  Comp VEVENT (mkState (lit "x") uid (Some (lit "u:" ++ uid)) [] (Some nine_thirty) None 1)
    [entry (lit "SUMMARY") (VText (lit "one, two")); entry (lit "DTSTART") (VDateTime nine_thirty); entry (lit "UID") (VText uid)] subs.
Definition unknown (t : bytes) (subs : list comp) : comp :=
  Comp (UNKNOWN t) (newState (lit "x")) [entry (lit "X-A") (VPlain PUnknown (Some (lit "1")))] subs.
Definition calendar (subs : list comp) : comp :=
  Comp VCALENDAR (newState []) [entry (lit "VERSION") (VText (lit "2.0"))] subs.
Definition cal1 : comp := calendar [unknown (lit "X-OUTER") [unknown (lit "X-INNER") []]; event (lit "b") [alarm]; event (lit "a") []].

Lemma ascii_line s : loose_line s -> forallb (fun c => (nat_of_ascii c <? 128)%nat) s = true -> one_line s.
Proof.
  intros L A. split; [assumption|]. exists (map (fun c => [c]) s). split.
  - rewrite Forall_map. apply Forall_forall. intros c I. rewrite forallb_forall in A. apply A, Nat.ltb_lt in I.
    exists c, []. split; [reflexivity|]. split; [intros [H _]; revert I; apply Nat.le_ngt; assumption|]. split; [constructor|apply Nat.le_0_l].
  - clear. induction s as [|c s IH]; [reflexivity|]. cbn [map List.concat app]. f_equal. exact IH.
Qed.
Ltac no_in := vm_compute; let H := fresh in intro H; repeat (destruct H as [H|H]; [discriminate H|]); exact H.
Ltac known := split; [no_in|split; [split; discriminate|split; [split; discriminate|split;
  [first [intros _; discriminate | let t := fresh in let H := fresh in intros [t H] _; revert H; destruct t; no_in]
  |first [intros _; discriminate | let H := fresh in intros H _; apply (H T_TEXT); vm_compute; tauto]]]]].
Ltac fine := split; [discriminate|split; [discriminate|split; [discriminate|constructor; [|constructor]]]]; split; [reflexivity|]; split;
  [split; [repeat split; first [discriminate|no_in]|split; [split; constructor|eexists; exists None; split; [reflexivity|split; [apply PropertySpec.tz_none; reflexivity|split; [known|]]]]]
  |eexists; split; [vm_compute; reflexivity|apply ascii_line; [split; [reflexivity|split; no_in]|vm_compute; reflexivity]]].
Lemma cal1_ok : calendar_ok default_ctx fl0 cal1.
Proof.
  split; [reflexivity|]. split; [|split; [discriminate|split]].
  - split; [repeat constructor; no_in|]. constructor; [fine; exact I|constructor].
  - constructor; [|constructor]. split; [reflexivity|discriminate].
  - constructor; [|constructor; [|constructor; [|constructor]]].
    + constructor.
      * split; [no_in|repeat split; first [discriminate|no_in]].
      * split; [repeat constructor; no_in|]. constructor; [fine; discriminate|constructor].
      * exact I.
      * repeat constructor.
      * constructor; [|constructor]. constructor.
        -- split; [no_in|repeat split; first [discriminate|no_in]].
        -- split; [repeat constructor; no_in|]. constructor; [fine; discriminate|constructor].
        -- exact I.
        -- constructor.
        -- constructor.
    + constructor; [exact I| |exact I|repeat constructor|].
      * split; [repeat constructor; no_in|]. constructor; [fine; exact I|constructor; [fine|constructor; [fine; exact I|constructor]]].
        split; [vm_compute; intuition discriminate|right; reflexivity].
      * constructor; [|constructor]. constructor; [exact I| |exact I|constructor|constructor].
        split; [repeat constructor; no_in|]. constructor; [fine; exact I|constructor; [fine|constructor]].
        right. vm_compute. intuition discriminate.
    + constructor; [exact I| |exact I|constructor|constructor].
      split; [repeat constructor; no_in|]. constructor; [fine; exact I|constructor; [fine|constructor; [fine; exact I|constructor]]].
      split; [vm_compute; intuition discriminate|right; reflexivity].
Qed.
Definition text1 : bytes := lines
  [lit "BEGIN:VCALENDAR"; lit "VERSION:2.0"; 
   lit "BEGIN:VEVENT"; lit "UID:a"; lit "DTSTART:20200131T093000Z"; lit "SUMMARY:one\, two"; lit "END:VEVENT";
   lit "BEGIN:VEVENT"; lit "UID:b"; lit "DTSTART:20200131T093000Z"; lit "SUMMARY:one\, two";
   lit "BEGIN:VALARM"; lit "ACTION:DISPLAY"; lit "TRIGGER:-PT15M"; lit "END:VALARM"; lit "END:VEVENT";
   lit "BEGIN:X-OUTER"; lit "X-A:1"; lit "BEGIN:X-INNER"; lit "X-A:1"; lit "END:X-INNER"; lit "END:X-OUTER";
   lit "END:VCALENDAR"].
(** The events are written first, in the order of their keys. *)
Example C39_round_trip_ex : calendar_ok default_ctx fl0 cal1 /\ generate fl0 cal1 = Some (Ok text1) /\
  exists c', parseTextData tz_none default_ctx fl0 uuids0 text1 = Ok (Some c') /\
    map cKind (cSubs c') = [VEVENT; VEVENT; UNKNOWN (lit "X-OUTER")] /\
    map (fun c => map cKind (cSubs c)) (cSubs c') = [[]; [VALARM]; [UNKNOWN (lit "X-INNER")]].
Proof.
  split; [exact cal1_ok|]. split; [vm_compute; reflexivity|]. eexists. split; [vm_compute; reflexivity|]. split; reflexivity.
Qed.
Example C39_stable_ex : calendar_ok default_ctx fl0 cal1 /\ finalised tz_none cal1 /\ keyed cal1 /\
  exists c', parseTextData tz_none default_ctx fl0 uuids0 text1 = Ok (Some c') /\ c' <> cal1 /\ generate fl0 c' = Some (Ok text1).
Proof.
  split; [exact cal1_ok|]. split; [repeat constructor|]. split.
  - repeat constructor; try (do 3 eexists; split; [reflexivity|split; [reflexivity|discriminate]]).
    do 2 eexists. split; [reflexivity|]. right. eexists. reflexivity.
  - eexists. split; [vm_compute; reflexivity|]. split; [discriminate|vm_compute; reflexivity].
Qed.

(** Without UIDs the place of an event depends on its uuid, which is another one after reading: the text changes. *)
Definition nameless (uuid summary : bytes) : comp :=
  Comp VEVENT (mkState uuid [] None [] None None 1) [entry (lit "SUMMARY") (VText summary)] [].
Theorem C39_stable_refuted : exists uuids c text c',
  calendar_ok default_ctx fl0 c /\ finalised tz_none c /\ generate fl0 c = Some (Ok text) /\
  parseTextData tz_none default_ctx fl0 uuids text = Ok (Some c') /\ same_tree c c' /\ generate fl0 c' <> Some (Ok text).
Proof.
  set (c := calendar [nameless (lit "a") (lit "one"); nameless (lit "b") (lit "two")]).
  set (uuids := fun n : nat => match n with O => lit "z" | _ => lit "y" end).
  assert (H : calendar_ok default_ctx fl0 c).
  { split; [reflexivity|]. split; [|split; [discriminate|split]].
    - split; [repeat constructor; no_in|]. constructor; [fine; exact I|constructor].
    - constructor; [|constructor]. split; [reflexivity|discriminate].
    - constructor; [|constructor; [|constructor]]; (constructor; [exact I| |exact I|constructor|constructor];
        split; [repeat constructor; no_in|]; constructor; [fine; exact I|constructor]). }
  destruct (C39_round_trip tz_none default_ctx fl0 uuids c H) as (text & c' & G & P & S).
  exists uuids, c, text, c'. split; [assumption|]. split; [repeat constructor|]. split; [assumption|]. split; [assumption|].
  split; [assumption|].
  assert (Some (Ok text) = Some (Ok (lines [lit "BEGIN:VCALENDAR"; lit "VERSION:2.0"; lit "BEGIN:VEVENT"; lit "SUMMARY:one"; lit "END:VEVENT";
     lit "BEGIN:VEVENT"; lit "SUMMARY:two"; lit "END:VEVENT"; lit "END:VCALENDAR"]))) as E by (rewrite <- G; vm_compute; reflexivity).
  injection E as ->. clear G S H.
  match type of P with ?x = _ => let y := eval vm_compute in x in assert (Q : x = y) by (vm_compute; reflexivity) end.
  rewrite Q in P. clear Q. injection P as <-. vm_compute. discriminate.
Qed.
Print Assumptions C39_stable_refuted.

(** The component parser is a pushdown automaton for this grammar: it returns an object exactly for the lines that are
    calendars one after the other, whose contents put together are properties, blank lines and complete components, and
    possibly components that are cut off at the end of the last calendar, which are dropped; and that include a VERSION. *)
Theorem C40_exactly : forall tzo ctx fl uuids text c,
  parseTextData tzo ctx fl uuids text = Ok (Some c) <->
  let all := read_lines (S (List.length text)) None text in
  exists inner, file_of ctx all inner /\ Exists (fun l => l <> []) all /\
    cut_body tzo ctx fl uuids None 0 (Comp VCALENDAR (newState []) [] []) inner c /\ hasProperty (lit "VERSION") (cProps c) = true.
Proof. exact accepted_iff. Qed.
Print Assumptions C40_exactly.
(** Nested components and blank lines; and texts that are rejected. *)
Definition read0 (l : list bytes) : res (option comp) := parseTextData tz_none default_ctx fl0 uuids0 (lines l).
Example C40_exactly_ex :
  (exists c e a, read0 [[]; lit "BEGIN:VCALENDAR"; lit "BEGIN:VEVENT"; lit "BEGIN:VALARM"; lit "UID:1"; lit "END:VALARM"; []; lit "UID:2"; lit "END:VEVENT";
     lit "VERSION:2.0"; lit "END:VCALENDAR"; []] = Ok (Some c) /\ cSubs c = [e] /\ cSubs e = [a] /\
     loadString (lit "UID") (cProps e) = Some (lit "2") /\ loadString (lit "UID") (cProps a) = Some (lit "1")) /\
  read0 [[]; []] = Ok None /\
  read0 [lit "BEGIN:VCALENDAR"; lit "VERSION:2.0"] = Raise InvalidData /\
  read0 [lit "BEGIN:VCALENDAR"; lit "END:VCALENDAR"] = Raise InvalidData /\
  read0 [lit "BEGIN:VCALENDAR"; lit "VERSION:2.0"; lit "END:VCALENDAR"; lit "VERSION:2.0"] = Raise InvalidData /\
  read0 [lit "BEGIN:VCALENDAR"; lit "VERSION:1.0"; lit "END:VCALENDAR"] = Raise InvalidData /\
  read0 [lit "BEGIN:VCALENDAR"; lit "VERSION:2.0"; lit "BEGIN:VEVENT"; lit "BEGIN:VEVENT"; lit "END:VEVENT"; lit "END:VEVENT"; lit "END:VCALENDAR"] = Raise ValueError.
Proof.
  split; [|repeat split; vm_compute; reflexivity]. do 3 eexists. split; [vm_compute; reflexivity|]. repeat split; reflexivity.
Qed.

(** An event that is not closed before the end of the calendar is accepted, and left out. *)
Theorem C40_balanced_refuted : exists l c, In (lit "BEGIN:VEVENT") l /\ ~ In (lit "END:VEVENT") l /\
  read0 l = Ok (Some c) /\ cSubs c = [].
Proof.
  exists [lit "BEGIN:VCALENDAR"; lit "VERSION:2.0"; lit "BEGIN:VEVENT"; lit "UID:1"; lit "SUMMARY:lost"; lit "END:VCALENDAR"]. eexists.
  split; [vm_compute; tauto|]. split; [no_in|]. split; [vm_compute; reflexivity|reflexivity].
Qed.
Print Assumptions C40_balanced_refuted.

(** The END of another component does not close, and is not rejected: it is a property of the open component. *)
Theorem C40_matching_refuted : exists l c e p, In (lit "END:VTODO") l /\ ~ In (lit "BEGIN:VTODO") l /\
  read0 l = Ok (Some c) /\ cSubs c = [e] /\ findFirstProperty (lit "END") (cProps e) = Some p /\
  pValue p = Some (Single (VPlain PUnknown (Some (lit "VTODO")))).
Proof.
  exists [lit "BEGIN:VCALENDAR"; lit "VERSION:2.0"; lit "BEGIN:VEVENT"; lit "UID:1"; lit "END:VTODO"; lit "END:VEVENT"; lit "END:VCALENDAR"].
  do 3 eexists. split; [vm_compute; tauto|]. split; [no_in|]. split; [vm_compute; reflexivity|]. repeat split; reflexivity.
Qed.
Print Assumptions C40_matching_refuted.

(** An event can begin in one calendar and end in the next. *)
Theorem C40_one_calendar_refuted : exists c e,
  read0 [lit "BEGIN:VCALENDAR"; lit "VERSION:2.0"; lit "BEGIN:VEVENT"; lit "UID:1"; lit "END:VCALENDAR";
         lit "BEGIN:VCALENDAR"; lit "SUMMARY:2"; lit "END:VEVENT"; lit "END:VCALENDAR"] = Ok (Some c) /\ cSubs c = [e] /\
  loadString (lit "UID") (cProps e) = Some (lit "1") /\ loadString (lit "SUMMARY") (cProps e) = Some (lit "2").
Proof. do 2 eexists. split; [vm_compute; reflexivity|]. repeat split; reflexivity. Qed.
Print Assumptions C40_one_calendar_refuted.

(** A calendar in a calendar ends both. *)
Theorem C40_nested_refuted : exists c,
  read0 [lit "BEGIN:VCALENDAR"; lit "VERSION:2.0"; lit "BEGIN:VCALENDAR"; lit "END:VCALENDAR"] = Ok (Some c) /\ cSubs c = [] /\
  read0 [lit "BEGIN:VCALENDAR"; lit "VERSION:2.0"; lit "BEGIN:VCALENDAR"; lit "END:VCALENDAR"; lit "END:VCALENDAR"] = Raise InvalidData.
Proof. eexists. split; [vm_compute; reflexivity|]. split; [reflexivity|vm_compute; reflexivity]. Qed.
Print Assumptions C40_nested_refuted.

(** Every name is written once; first the names that the component type fixes, as far as they are there and in that
    order, then the others in the order of their bytes. *)
Theorem C41_names : forall k ps, NoDup (map fst ps) -> let keys := sortedPropertyKeys k ps in
  Permutation keys (map fst ps) /\
  exists fixed rest, keys = fixed ++ rest /\ picked (fun n => In n (map fst ps)) (first_names k) fixed /\
    (forall n, In n rest -> ~ In n (first_names k)) /\ (forall a x b y c, rest = a ++ x :: b ++ y :: c -> text_lt x y).
Proof. exact keys_listed. Qed.
Print Assumptions C41_names.
Example C41_names_ex :
  let ps := [(lit "SUMMARY", []); (lit "DTEND", []); (lit "CLASS", []); (lit "UID", []); (lit "X-A", []); (lit "ATTENDEE", [])] in
  NoDup (map fst ps) /\
  sortedPropertyKeys VEVENT ps = [lit "UID"; lit "DTEND"; lit "ATTENDEE"; lit "CLASS"; lit "SUMMARY"; lit "X-A"] /\
  sortedPropertyKeys VALARM ps = [lit "ATTENDEE"; lit "CLASS"; lit "DTEND"; lit "SUMMARY"; lit "UID"; lit "X-A"].
Proof. cbv zeta. split; [repeat constructor; no_in|]. split; vm_compute; reflexivity. Qed.

(** The components are written once each, in the order of their ranks: in a calendar by type (time zones, events, to-dos,
    journals, free-busy times, availabilities, then the others by name) and by sort key; equal ranks keep their order. *)
Theorem C41_components : forall k l r, r = sortedComponents (fun c => c) k l ->
  Permutation r l /\
  (forall a x b y c, r = a ++ x :: b ++ y :: c -> ~ rank_lt (rank k y) (rank k x)) /\
  (forall P, (forall x y, P x = true -> P y = true -> rank k x = rank k y) -> filter P r = filter P l).
Proof. exact components_sorted. Qed.
Print Assumptions C41_components.
Example C41_components_ex :
  sortedComponents (fun c => c) VCALENDAR (cSubs cal1) = [event (lit "a") []; event (lit "b") [alarm]; unknown (lit "X-OUTER") [unknown (lit "X-INNER") []]] /\
  rank_lt (rank VCALENDAR (event (lit "a") [])) (rank VCALENDAR (event (lit "b") [alarm])) /\
  rank_lt (rank VCALENDAR (event (lit "b") [alarm])) (rank VCALENDAR (unknown (lit "A-FIRST") [])).
Proof.
  split; [vm_compute; reflexivity|]. split.
  - apply rl_tail, rl_tail, rl_head, vl_strs, tl_tail, tl_tail, tl_head. apply Nat.ltb_lt. reflexivity.
  - apply rl_head, vl_ints. reflexivity.
Qed.
