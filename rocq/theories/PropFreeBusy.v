(** Properties of VFREEBUSY components: C67. *)
From Coq Require Import Lia.
From Verif Require Import PyBase PyProofs CalSpec DateTimeModel DateTimeSpec DateTimeSpec2 DurationModel PeriodModel PeriodSpec PropertyModel ComponentModel CalendarModel RecurModel
  RecurExpand RecurSetModel RecurUnionSpec TimingModel TimingSpec ValidateSpec DeriveModel DeriveSpec EditModel EditSpec FreeBusyModel FreeBusySpec FreeBusyProofs MakeModel CalendarSpec
  PropComponent PropCalendar PropRecur2 PropRecur4 PropRecur5 PropTiming PropDerive PropEdit.

(** A component that was read, with busy times, asked for a window: it is in the list if and only if the window has a moment in
    common with the time from x to y.  x is DTSTART, or the start of the earliest busy time if there is none; y is DTEND, or the
    end of the latest.  Afterwards getSpanPeriod is that time, getBusyTime the busy times in order, and any further window is
    answered from them in the same way. *)
Theorem C67_expand : forall tzo sc i ps window busy x y w v,
  lists_busy (getProperties (lit "FREEBUSY") ps) busy -> all_on sc busy -> busy <> [] ->
  bound sc (lit "DTSTART") ps (earliest sc busy) x -> bound sc (lit "DTEND") ps (latest sc busy) y -> spans sc window w v ->
  let b := vfb_finalise ps new_vfb in
  exists b', expandPeriodComp tzo i ps window b = (b', Ok (if in_view w v x y then [i] else [])) /\ same_bounds b b' /\
    (exists p, bSpan b' = Some p /\ spans sc p x y) /\ (exists l, bTime b' = Some (as_items l) /\ by_start sc busy l) /\
    forall window' w' v', spans sc window' w' v' ->
      expandPeriodComp tzo i ps window' b' = (b', Ok (if in_view w' v' x y then [i] else [])).
Proof.
  intros tzo sc i ps window busy x y w v L A N X Y W b.
  destruct (expand_fresh tzo sc i ps window b busy x y w v (read_fresh ps) L A N (read_bounded sc ps busy x y X Y) W) as (b' & E & S & F).
  exists b'. split; [exact E|]. split; [exact S|]. split; [apply F|]. split; [apply F|].
  intros window' w' v' W'. apply (expand_filled tzo sc i ps window' b' busy x y w' v' F W').
Qed.
Print Assumptions C67_expand.

(** So no busy time is overlooked: if one of them has a moment in common with the window, and is not outside of DTSTART and
    DTEND, the component is in the list. *)
Theorem C67_found : forall tzo sc i ps window busy x y w v t a c,
  lists_busy (getProperties (lit "FREEBUSY") ps) busy -> all_on sc busy ->
  bound sc (lit "DTSTART") ps (earliest sc busy) x -> bound sc (lit "DTEND") ps (latest sc busy) y -> spans sc window w v ->
  In t busy -> spans sc (snd t) a c -> w < c -> a < v ->
  (getProperties (lit "DTSTART") ps <> [] -> x <= a) -> (getProperties (lit "DTEND") ps <> [] -> c <= y) ->
  exists b', expandPeriodComp tzo i ps window (vfb_finalise ps new_vfb) = (b', Ok [i]).
Proof.
  intros tzo sc i ps window busy x y w v t a c L A X Y W I S wc av Hx Hy.
  assert (N : busy <> []) by (intros ->; destruct I).
  destruct (C67_expand tzo sc i ps window busy x y w v L A N X Y W) as (b' & E & _). exists b'. rewrite E.
  assert (x <= a). { destruct X as [(p & r & d & G & _)|[_ X]]; [apply Hx; rewrite G; discriminate|]. destruct X as [_ X]. apply (X t a c I S). }
  assert (c <= y). { destruct Y as [(p & r & d & G & _)|[_ Y]]; [apply Hy; rewrite G; discriminate|]. destruct Y as [_ Y]. apply (Y t a c I S). }
  unfold in_view. destruct (Z.ltb_spec w y); [|lia]. destruct (Z.ltb_spec x v); [|lia]. reflexivity.
Qed.
Print Assumptions C67_found.

(** A component without busy times is never in the list. *)
Theorem C67_free : forall tzo i ps window, lists_busy (getProperties (lit "FREEBUSY") ps) [] ->
  exists b', expandPeriodComp tzo i ps window (vfb_finalise ps new_vfb) = (b', Ok []) /\ bTime b' = None.
Proof.
  intros tzo i ps window L. destruct (cache_empty tzo ps (vfb_finalise ps new_vfb) L) as (b' & E & _ & _ & T). exists b'.
  unfold expandPeriodComp, with_cache. rewrite read_fresh, E. unfold meets. rewrite T. split; reflexivity.
Qed.
Print Assumptions C67_free.

(** A copy of it, made before or after it was asked, answers in the same way. *)
Theorem C67_copy : forall tzo sc i ps window busy x y w v,
  lists_busy (getProperties (lit "FREEBUSY") ps) busy -> all_on sc busy -> busy <> [] ->
  bound sc (lit "DTSTART") ps (earliest sc busy) x -> bound sc (lit "DTEND") ps (latest sc busy) y -> spans sc window w v ->
  let b := vfb_finalise ps new_vfb in
  forall b1, b1 = b \/ (exists j window' w' v' r, spans sc window' w' v' /\ expandPeriodComp tzo j ps window' b = (b1, r)) ->
  exists b', expandPeriodComp tzo i ps window (vfb_duplicate b1) = (b', Ok (if in_view w v x y then [i] else [])) /\
    (exists l, bTime b' = Some (as_items l) /\ by_start sc busy l).
Proof.
  intros tzo sc i ps window busy x y w v L A N X Y W b b1 H.
  assert (B := read_bounded sc ps busy x y X Y). fold b in B.
  assert (S : same_bounds b b1).
  { destruct H as [->|(j & window' & w' & v' & r & W' & E)]; [repeat split|].
    destruct (expand_fresh tzo sc j ps window' b busy x y w' v' (read_fresh ps) L A N B W') as (b2 & E2 & S & _). congruence. }
  destruct (expand_fresh tzo sc i ps window (vfb_duplicate b1) busy x y w v eq_refl L A N) as (b' & E & _ & F).
  - eapply bounded_same; [|exact B]. eapply same_trans; [exact S|apply dup_same].
  - exact W.
  - exists b'. split; [exact E|apply F].
Qed.
Print Assumptions C67_copy.

(** editTimingStartEnd with a start before the end: DTSTART and DTEND are these (no DTEND if it is from one date to the next)
    and there is no DURATION; the other properties stay.  So do the cached busy times. *)
Theorem C67_start_end : forall tzo sc start e x y ps b, tidy_props ps -> instant sc start x -> instant sc e y -> x < y ->
  exists ps' b', vfb_editTimingStartEnd tzo start e (ps, b) = ((ps', b'), Ok tt) /\
    (forall name, ~ In name [lit "DTSTART"; lit "DTEND"; lit "DURATION"] -> getProperties name ps' = getProperties name ps) /\
    one_date (lit "DTSTART") ps' start /\ absent (lit "DURATION") ps' /\ (if one_day sc x y then absent (lit "DTEND") ps' else one_date (lit "DTEND") ps' e) /\
    bHasStart b' = true /\ bStart b' = start /\ bHasEnd b' = true /\ bEnd b' = e /\ bDuration b' = false /\ cache_kept b b' /\
    (one_day sc x y = false -> same_bounds (vfb_finalise ps' new_vfb) b').
Proof.
  intros tzo sc start e x y ps b T I J L. destruct (vfb_start_end_ok tzo sc start e x y ps b T I J L) as (ps' & E & K & S & D & F & G).
  exists ps'. eexists. split; [exact E|]. split; [exact K|]. split; [exact S|]. split; [exact D|]. split; [exact F|]. repeat (split; [reflexivity|]). split; [repeat split|].
  intro O. specialize (G new_vfb). cbv zeta in G. rewrite O in G. destruct G as (G1 & G2 & G3 & G4 & G5). unfold same_bounds. rewrite G1, G2, G3, G4, G5. repeat split.
Qed.
Print Assumptions C67_start_end.

(** editTimingStartDuration: DTSTART and DURATION, and neither DTEND nor DUE; the end is as long after the start as the duration
    is.  DURATION is left out if the start is a date and the duration has neither weeks nor more than one day. *)
Theorem C67_start_duration : forall start du ps b, tidy_props ps ->
  exists ps' b', vfb_editTimingStartDuration start du (ps, b) = ((ps', b'), Ok tt) /\
    others_kept ps ps' /\ one_date (lit "DTSTART") ps' start /\ absent (lit "DTEND") ps' /\ absent (lit "DUE") ps' /\
    (if negb (mDateOnly start) || negb (dWeeks du =? 0) || (1 <? dDays du) then one_duration (lit "DURATION") ps' du else absent (lit "DURATION") ps') /\
    bHasStart b' = true /\ bStart b' = start /\ bHasEnd b' = false /\ bDuration b' = true /\ after start (getTotalSeconds du) (bEnd b') /\ cache_kept b b' /\
    (mDateOnly start = false \/ dWeeks du <> 0 \/ 1 < dDays du -> same_bounds (vfb_finalise ps' new_vfb) b').
Proof.
  intros start du ps b T. destruct (vfb_start_duration_ok start du ps b T) as (ps' & e & E & A & K & S & D & U & F & G).
  exists ps'. eexists. split; [exact E|]. split; [exact K|]. split; [exact S|]. split; [exact D|]. split; [exact U|]. split; [exact F|]. repeat (split; [reflexivity|]). split; [exact A|]. split; [repeat split|].
  intro O. specialize (G new_vfb). cbv zeta in G. assert (W : negb (mDateOnly start) || negb (dWeeks du =? 0) || (1 <? dDays du) = true).
  { destruct O as [->|[O|O]]; [reflexivity| |].
    - destruct (Z.eqb_spec (dWeeks du) 0); [contradiction|]. destruct (mDateOnly start); reflexivity.
    - destruct (Z.ltb_spec 1 (dDays du)); [|lia]. apply Bool.orb_true_r. }
  rewrite W in G. destruct G as (G1 & G2 & G3 & G4 & G5). unfold same_bounds. rewrite G1, G2, G3, G4, G5. repeat split.
Qed.
Print Assumptions C67_start_duration.

(** The free-busy methods of a calendar never return: getFreeBusy raises for every calendar and window, and getVFreeBusyList
    whenever there is a VFREEBUSY to list. *)
Theorem C67_calendar_raises : forall tzo order fuel linked range c tim tim' r,
  getFreeBusy tzo order fuel linked range c tim = Some (tim', r) -> exists e, r = Raise e.
Proof.
  intros tzo order fuel linked range c tim tim' r. unfold getFreeBusy. destruct (getVEvents _ _ _ _ _ _ _ _) as [[tim1 [xs|e]]|]; [| |discriminate].
  - intro H. injection H as <- <-. destruct (busy_instances xs); cbn; eexists; reflexivity.
  - intro H. injection H as <- <-. eexists. reflexivity.
Qed.
Print Assumptions C67_calendar_raises.

(** ** Examples *)
Definition vfreebusy (l : list bytes) : list bytes := [lit "BEGIN:VFREEBUSY"; lit "UID:a"] ++ l ++ [lit "END:VFREEBUSY"].
Definition only (l : list bytes) : props := cProps (object_of (read (vfreebusy l)) 0).
(** What is in the list for each of these windows, one after the other, and then the busy times. *)
Fixpoint asked (ps : props) (l : list period) (b : vfb) : vfb * list (res (list nat)) :=
  match l with
  | [] => (b, [])
  | w :: r => let (b, x) := expandPeriodComp no_zones 0 ps w b in let (b, xs) := asked ps r b in (b, x :: xs)
  end.
Definition ask (lines : list bytes) (l : list period) : list (res (list nat)) := snd (asked (only lines) l (vfb_finalise (only lines) new_vfb)).
Definition p31 : period := newPeriodEnd (utc 1970 1 3 9) (utc 1970 1 3 11).
Definition p12 : period := newPeriodDur (utc 1970 1 1 9) (hours 2).
Definition p21 : period := newPeriodDur (utc 1970 1 2 9) (hours 1).
Definition week : list bytes := [lit "FREEBUSY:19700103T090000Z/19700103T110000Z,19700101T090000Z/PT2H"; lit "FREEBUSY;FBTYPE=FREE:19700109T090000Z/PT1H";
  lit "FREEBUSY;FBTYPE=busy-tentative:19700102T090000Z/PT1H"].
Definition three : list (Z * period) := [(3, p31); (3, p12); (1, p21)].
Definition zulu : scale := InZone true TzNone.
Lemma spans_31 : spans zulu p31 205200 212400.
Proof. split; [apply (utc_jan 3 9); lia|]. eexists. split; [reflexivity|apply (utc_jan 3 11); lia]. Qed.
Lemma spans_12 : spans zulu p12 32400 39600.
Proof. split; [apply (utc_jan 1 9); lia|]. eexists. split; [vm_compute; reflexivity|]. apply (utc_jan 1 11); lia. Qed.
Lemma spans_21 : spans zulu p21 118800 122400.
Proof. split; [apply (utc_jan 2 9); lia|]. eexists. split; [vm_compute; reflexivity|]. apply (utc_jan 2 10); lia. Qed.
Lemma three_on : all_on zulu three.
Proof.
  repeat apply Forall_cons; [| | |apply Forall_nil]; cbn [snd].
  - split; [eexists; left; eexists; reflexivity|]. do 2 eexists. exact spans_31.
  - split; [eexists; right; eexists; reflexivity|]. do 2 eexists. exact spans_12.
  - split; [eexists; right; eexists; reflexivity|]. do 2 eexists. exact spans_21.
Qed.
Lemma three_bounds : earliest zulu three 32400 /\ latest zulu three 212400.
Proof.
  assert (F := spans_fun no_zones zulu). split.
  - split; [exists (3, p12), 39600; split; [right; left; reflexivity|exact spans_12]|]. intros t a b [<-|[<-|[<-|[]]]] S;
      [destruct (F _ _ _ _ _ spans_31 S)|destruct (F _ _ _ _ _ spans_12 S)|destruct (F _ _ _ _ _ spans_21 S)]; lia.
  - split; [exists (3, p31), 205200; split; [left; reflexivity|exact spans_31]|]. intros t a b [<-|[<-|[<-|[]]]] S;
      [destruct (F _ _ _ _ _ spans_31 S)|destruct (F _ _ _ _ _ spans_12 S)|destruct (F _ _ _ _ _ spans_21 S)]; lia.
Qed.
Lemma week_lists : lists_busy (getProperties (lit "FREEBUSY") (only week)) three.
Proof.
  vm_compute (getProperties _ _).
  apply (lists_times _ 3 [p31; p12] _ [(1, p21)]); [left; split; reflexivity|reflexivity|].
  apply lists_free; [eexists; split; [eexists; split; reflexivity|no_in]|].
  apply (lists_times _ 1 [p21] [] []); [right; eexists; split; [eexists; split; reflexivity|vm_compute; tauto]|reflexivity|constructor].
Qed.
Example C67_expand_ex : lists_busy (getProperties (lit "FREEBUSY") (only week)) three /\ all_on zulu three /\
  bound zulu (lit "DTSTART") (only week) (earliest zulu three) 32400 /\ bound zulu (lit "DTEND") (only week) (latest zulu three) 212400 /\
  spans zulu (january 1 2) 0 86400 /\
  ask week [january 1 2; january 3 4; january 4 5] = [Ok [0%nat]; Ok [0%nat]; Ok []] /\
  bTime (fst (asked (only week) [january 1 2] (vfb_finalise (only week) new_vfb))) = Some (as_items [(3, p12); (1, p21); (3, p31)]).
Proof.
  split; [exact week_lists|]. split; [exact three_on|]. split; [right; split; [vm_compute; reflexivity|apply three_bounds]|]. split; [right; split; [vm_compute; reflexivity|apply three_bounds]|].
  split; [split; [apply (utc_jan 1 0); lia|eexists; split; [apply range_end|apply (utc_jan 2 0); lia]]|]. split; vm_compute; reflexivity.
Qed.
Example C67_found_ex : In (1, p21) three /\ spans zulu p21 118800 122400 /\ spans zulu (january 2 3) 86400 172800 /\
  getProperties (lit "DTSTART") (only week) = [] /\ ask week [january 2 3] = [Ok [0%nat]].
Proof.
  split; [right; right; left; reflexivity|]. split; [exact spans_21|].
  split; [split; [apply (utc_jan 2 0); lia|eexists; split; [apply range_end|apply (utc_jan 3 0); lia]]|]. split; vm_compute; reflexivity.
Qed.
Example C67_free_ex : lists_busy (getProperties (lit "FREEBUSY") (only [lit "FREEBUSY;FBTYPE=FREE:19700109T090000Z/PT1H"])) [] /\
  ask [lit "FREEBUSY;FBTYPE=FREE:19700109T090000Z/PT1H"] [january 1 31] = [Ok []].
Proof. split; [|vm_compute; reflexivity]. vm_compute (getProperties _ _). apply lists_free; [eexists; split; [eexists; split; reflexivity|no_in]|constructor]. Qed.
Example C67_copy_ex : let b := vfb_finalise (only week) new_vfb in exists b1,
  expandPeriodComp no_zones 0 (only week) (january 3 4) b = (b1, Ok [0%nat]) /\ bCached b1 = true /\
  snd (expandPeriodComp no_zones 1 (only week) (january 3 4) (vfb_duplicate b1)) = Ok [1%nat] /\
  snd (expandPeriodComp no_zones 1 (only week) (january 4 5) (vfb_duplicate b1)) = Ok [].
Proof. eexists. split; [vm_compute; reflexivity|]. split; [reflexivity|]. split; vm_compute; reflexivity. Qed.
(** The only component of this text is edited; then its lines, its start and end, how the call ended, and the start and end as
    they are read again. *)
Definition bounds_of (b : vfb) := (bHasStart b, visible (bStart b), bHasEnd b, visible (bEnd b)).
Definition edit_fb (f : props * vfb -> (props * vfb) * res unit) (l : list bytes) :=
  let c := object_of (read (vfreebusy l)) 0 in
  let '((ps, b), r) := f (cProps c, vfb_finalise (cProps c) new_vfb) in
  match generate fl0 (Comp (cKind c) (cState c) ps (cSubs c)) with
  | Some (Ok s) => Some (s, bounds_of b, r, bounds_of (vfb_finalise ps new_vfb))
  | _ => None
  end.
Definition dated_fb : list bytes := [lit "DTSTART:19700101T000000Z"; lit "DURATION:P2D"; lit "FREEBUSY:19700101T090000Z/PT2H"].
Lemma dated_tidy : tidy_props (only dated_fb).
Proof. vm_compute (only _). split; [repeat constructor; no_in|]. repeat constructor; discriminate. Qed.
Example C67_start_end_ex : tidy_props (only dated_fb) /\ instant zulu (utc 1970 1 3 9) 205200 /\ instant zulu (utc 1970 1 3 11) 212400 /\
  edit_fb (vfb_editTimingStartEnd no_zones (utc 1970 1 3 9) (utc 1970 1 3 11)) dated_fb =
    Some (lines (vfreebusy [lit "DTSTART:19700103T090000Z"; lit "DTEND:19700103T110000Z"; lit "FREEBUSY:19700101T090000Z/PT2H"]),
          (true, visible (utc 1970 1 3 9), true, visible (utc 1970 1 3 11)), Ok tt, (true, visible (utc 1970 1 3 9), true, visible (utc 1970 1 3 11))).
Proof. split; [exact dated_tidy|]. split; [apply (utc_jan 3 9); lia|]. split; [apply (utc_jan 3 11); lia|]. vm_compute. reflexivity. Qed.
Example C67_start_duration_ex : tidy_props (only dated_fb) /\
  edit_fb (vfb_editTimingStartDuration (utc 1970 1 3 9) (hours 2)) dated_fb =
    Some (lines (vfreebusy [lit "DTSTART:19700103T090000Z"; lit "DURATION:PT2H"; lit "FREEBUSY:19700101T090000Z/PT2H"]),
          (true, visible (utc 1970 1 3 9), false, visible (utc 1970 1 3 11)), Ok tt, (true, visible (utc 1970 1 3 9), false, visible (utc 1970 1 3 11))).
Proof. split; [exact dated_tidy|]. vm_compute. reflexivity. Qed.
(** One event in the window, and one VFREEBUSY in the calendar. *)
Example C67_calendar_raises_ex :
  let cs := read (timed [lit "DURATION:PT1H"]) in
  events_in true (january 1 2) cs = Some (Ok [shows 0 (utc 1970 1 1 9) (utc 1970 1 1 10)]) /\
  option_map snd (getFreeBusy no_zones (fun l => l) 20 (fun _ => true) (january 1 2) (filled_with cs) (timings cs)) = Some (Raise TypeError) /\
  option_map snd (getFreeBusy no_zones (fun l => l) 20 (fun _ => true) (january 4 5) (filled_with cs) (timings cs)) = Some (Raise AttributeError) /\
  getVFreeBusyList (filled_with (read (vfreebusy week))) = Raise AttributeError.
Proof. repeat split; vm_compute; reflexivity. Qed.

(** ** What does not hold *)

(** expandPeriodFB is to add the busy times.  It adds one object for each, but none of them has a period, and their types are
    not numbers. *)
Theorem C67_items_refuted : exists ps window b' x y z, expandPeriodFB no_zones ps window (vfb_finalise ps new_vfb) = (b', Ok [x; y; z]) /\
  bTime b' = Some (as_items [(3, p12); (1, p21); (3, p31)]) /\ map fb_getPeriod [x; y; z] = [None; None; None] /\ (forall n, fb_getType x <> Kind n).
Proof. exists (only week), (january 1 5). do 4 eexists. split; [vm_compute; reflexivity|]. split; [reflexivity|]. split; [reflexivity|intro n; discriminate]. Qed.
Print Assumptions C67_items_refuted.

(** DURATION does not count: from the same start to the same end, with DTEND the window is met and with DURATION it is not. *)
Theorem C67_duration_refuted : exists a b w,
  bounds_of (vfb_finalise (only a) new_vfb) = (true, visible (utc 1970 1 1 0), true, visible (utc 1970 1 3 0)) /\
  bounds_of (vfb_finalise (only b) new_vfb) = (true, visible (utc 1970 1 1 0), false, visible (utc 1970 1 3 0)) /\
  getProperties (lit "FREEBUSY") (only a) = getProperties (lit "FREEBUSY") (only b) /\ ask a [w] = [Ok [0%nat]] /\ ask b [w] = [Ok []].
Proof.
  exists [lit "DTSTART:19700101T000000Z"; lit "DTEND:19700103T000000Z"; lit "FREEBUSY:19700101T090000Z/PT2H"], dated_fb, (january 2 3).
  repeat split; vm_compute; reflexivity.
Qed.
Print Assumptions C67_duration_refuted.

(** Once it was asked, a component does not notice that its times are edited; read again it would. *)
Theorem C67_stale_refuted : exists ps start e w b1 ps2 b2,
  expandPeriodComp no_zones 0 ps w (vfb_finalise ps new_vfb) = (b1, Ok []) /\
  vfb_editTimingStartEnd no_zones start e (ps, b1) = ((ps2, b2), Ok tt) /\
  expandPeriodComp no_zones 0 ps2 w b2 = (b2, Ok []) /\ snd (expandPeriodComp no_zones 0 ps2 w (vfb_finalise ps2 new_vfb)) = Ok [0%nat].
Proof.
  exists (only dated_fb), (utc 1970 1 1 0), (utc 1970 1 3 0), (january 2 3). do 3 eexists.
  split; [vm_compute; reflexivity|]. split; [vm_compute; reflexivity|]. split; vm_compute; reflexivity.
Qed.
Print Assumptions C67_stale_refuted.

(** A property made from one period is written like one that was read, but the component is not busy until it is read again. *)
Theorem C67_single_refuted : exists zero p, make zero (lit "FREEBUSY") (PyPeriod p12) None = Ok p /\
  prop_line fl0 p = Ok (lit "FREEBUSY:19700101T090000Z/PT2H") /\
  snd (expandPeriodComp no_zones 0 [(lit "FREEBUSY", [p])] (january 1 2) (vfb_finalise [(lit "FREEBUSY", [p])] new_vfb)) = Ok [] /\
  ask [lit "FREEBUSY:19700101T090000Z/PT2H"] [january 1 2] = [Ok [0%nat]].
Proof. exists 0. eexists. split; [reflexivity|]. split; [vm_compute; reflexivity|]. split; vm_compute; reflexivity. Qed.
Print Assumptions C67_single_refuted.

(** From one date to the next: the end that was given is gone when the component is read again; the end is the start. *)
Theorem C67_one_day_refuted : exists l, edit_fb (vfb_editTimingStartEnd no_zones (day 3) (day 4)) l =
  Some (lines (vfreebusy [lit "DTSTART;VALUE=DATE:19700103"]), (true, visible (day 3), true, visible (day 4)), Ok tt, (true, visible (day 3), false, visible (day 3))).
Proof. exists []. vm_compute. reflexivity. Qed.
Print Assumptions C67_one_day_refuted.

(** editTiming is to remove the times.  It raises, and leaves the properties; the component no longer has a start in memory. *)
Theorem C67_none_refuted : exists ps b b', bHasStart b = true /\ getProperties (lit "DTSTART") ps <> [] /\
  vfb_editTiming (ps, b) = ((ps, b'), Raise AttributeError) /\ bHasStart b' = false.
Proof. exists (only dated_fb), (vfb_finalise (only dated_fb) new_vfb). eexists. split; [vm_compute; reflexivity|]. split; [vm_compute; discriminate|]. split; [vm_compute; reflexivity|reflexivity]. Qed.
Print Assumptions C67_none_refuted.
