(** Properties C31-C33 and C48: expansion of recurrence rules and its cache.  [tzo] is the
    timezone database, an arbitrary function; fuel is a number of loop rounds that is large
    enough. *)
From Coq Require Import Lia ZifyBool Sorting.Sorted.
From Verif Require Import PyBase ParserCtx CalSpec DateTimeModel DateTimeSpec DateTimeSpec2 PeriodModel PeriodSpec RecurModel RecurExpand
  RecurExpandSpec RecurCacheSpec RecurComplexSpec.
From Verif Require RecurSimpleProofs RecurCacheProofs RecurMiscProofs.

(** For the examples: a rule from its text, and times in UTC. *)
Definition rule_of (s : string) : rule := match rule_parse default_ctx (lit s) with Ok r => r | Raise _ => rule_init end.
Definition utc (y m d h : Z) : dt := newDateTime y m d h 0 0 true TzNone.
Definition day (y m d : Z) : dt := newDate y m d false TzNone.
Definition no_zones : tzid -> Z -> Z -> Z -> Z -> Z -> Z -> bool -> bool -> Z := fun _ _ _ _ _ _ _ _ _ => 0.

(** C31. Expansion of a rule without BY parts returns exactly its instances in the window, in
    increasing order and each once, and the result says whether instances were left out. *)
Theorem C31_expand : forall tzo sc off r start range lim w b,
  call_ok sc off r start range lim w b ->
  exists N, forall fuel, (N <= fuel)%nat -> exists c items limited,
    expand tzo fuel r cache_init start range off None = Some (c, (items, Ok limited)) /\
    enumerates sc items (fun x => instances sc r lim start x /\ w <= x < b) /\
    (limited = true <-> exists x, instances sc r lim start x /\ ~ (w <= x < b)).
Proof. exact RecurMiscProofs.simple_fresh. Qed.
Print Assumptions C31_expand.
(** Every third day, four times, in January 1970, from 5 January on. *)
Example C31_expand_ex :
  call_ok (InZone true TzNone) 0 (rule_of "FREQ=DAILY;INTERVAL=3;COUNT=4") (utc 1970 1 1 9)
    (newPeriodEnd (utc 1970 1 5 0) (utc 1970 1 9 0)) None 345600 691200 /\
  (forall tzo, exists c, expand tzo 9 (rule_of "FREQ=DAILY;INTERVAL=3;COUNT=4") cache_init (utc 1970 1 1 9)
    (newPeriodEnd (utc 1970 1 5 0) (utc 1970 1 9 0)) 0 None = Some (c, ([utc 1970 1 7 9], Ok true))) /\
  instances (InZone true TzNone) (rule_of "FREQ=DAILY;INTERVAL=3;COUNT=4") None (utc 1970 1 1 9) 550800.
Proof.
  split; [|split].
  - repeat split; try discriminate; try (vm_compute; congruence); try reflexivity.
    + exists 32400. repeat split; try (vm_compute; congruence). exists 0. split; [left; split; [lia|reflexivity]|reflexivity].
    + eexists. split; [reflexivity|]. repeat split; try (vm_compute; congruence). exists 8. split; [left; split; [lia|reflexivity]|reflexivity].
    + exists 4. split; [left; split; [lia|reflexivity]|reflexivity].
  - intro tzo. eexists. vm_compute. reflexivity.
  - exists 32400, 86400. split; [|split; [reflexivity|]].
    + repeat split; try (vm_compute; congruence). exists 0. split; [left; split; [lia|reflexivity]|reflexivity].
    + exists 2. split; [lia|]. split; [reflexivity|]. right. split; [vm_compute; auto|discriminate].
Qed.
(** On the 31st: February has none, and COUNT does not count it. *)
Example C31_expand_ex2 :
  call_ok Dates 0 (rule_of "FREQ=MONTHLY;COUNT=2") (day 1970 1 31) (newPeriodEnd (day 1970 1 1) (day 1970 6 1)) None 0 151 /\
  (forall tzo, exists c, expand tzo 9 (rule_of "FREQ=MONTHLY;COUNT=2") cache_init (day 1970 1 31)
    (newPeriodEnd (day 1970 1 1) (day 1970 6 1)) 0 None = Some (c, ([day 1970 1 31; day 1970 3 31], Ok false))) /\
  instances Dates (rule_of "FREQ=MONTHLY;COUNT=2") None (day 1970 1 31) 89.
Proof.
  split; [|split].
  - split; [discriminate|]. split; [reflexivity|]. split; [split; [vm_compute; congruence|split; vm_compute; split; congruence]|].
    split; [|split; [|split; [|reflexivity]]].
    + exists 30. repeat split; try (vm_compute; congruence). left; split; [lia|reflexivity].
    + eexists. split; [reflexivity|]. repeat split; try (vm_compute; congruence). left; split; [lia|reflexivity].
    + repeat split; try (vm_compute; congruence). left; split; [lia|reflexivity].
  - intro tzo. eexists. vm_compute. reflexivity.
  - exists 2%nat, (day 1970 3 31). split; [|split].
    + repeat split; try (vm_compute; congruence).
    + repeat split; try (vm_compute; congruence). left; split; [lia|reflexivity].
    + right. split; [intros _; vm_compute; reflexivity|discriminate].
Qed.

(** The limit on the number of instances counts those before the end of the window. *)
Theorem C31_max_instances : forall tzo sc off r start range lim w b,
  call_ok sc off r start range lim w b ->
  exists N recs, enumerates sc recs (fun x => instances sc r lim start x /\ x < b) /\
  forall fuel m, (N <= fuel)%nat ->
    (room (Some m) (List.length recs) ->
     expand tzo fuel r cache_init start range off (Some m) = expand tzo fuel r cache_init start range off None) /\
    (1 <= m < Z.of_nat (List.length recs) ->
     exists c, expand tzo fuel r cache_init start range off (Some m) = Some (c, ([], Raise TooManyInstancesError))).
Proof. exact RecurMiscProofs.simple_max. Qed.
Print Assumptions C31_max_instances.
Example C31_max_instances_ex : forall tzo,
  (exists c, expand tzo 9 (rule_of "FREQ=DAILY") cache_init (utc 1970 1 1 9)
    (newPeriodEnd (utc 1970 1 1 0) (utc 1970 1 4 0)) 0 (Some 2) = Some (c, ([], Raise TooManyInstancesError))) /\
  (exists c, expand tzo 9 (rule_of "FREQ=DAILY") cache_init (utc 1970 1 1 9)
    (newPeriodEnd (utc 1970 1 1 0) (utc 1970 1 4 0)) 0 (Some 3) = Some (c, ([utc 1970 1 1 9; utc 1970 1 2 9; utc 1970 1 3 9], Ok true))).
Proof. intro tzo. split; eexists; vm_compute; reflexivity. Qed.

(** A step in hours, minutes or seconds does not move a date: the call never returns. *)
Theorem C31_returns_refuted : exists r start range, hasBy r = false /\ valid_dt start /\ 1 <= rInterval r /\
  forall tzo fuel, expand tzo fuel r cache_init start range 0 None = None.
Proof.
  exists RecurMiscProofs.hourly, RecurMiscProofs.day1, RecurMiscProofs.two_days.
  split; [reflexivity|]. split; [repeat split; vm_compute; congruence|]. split; [vm_compute; congruence|].
  exact RecurMiscProofs.hourly_stuck.
Qed.
Print Assumptions C31_returns_refuted.
(** FREQ=YEARLY;INTERVAL=400 from 29 February 1700 (a leap year of the code's calendar) looks
    for the next leap year for ever. *)
Theorem C31_returns_yearly_refuted : exists r start range, hasBy r = false /\ valid_dt start /\ 1 <= rInterval r /\
  step_months r <> None /\ forall tzo fuel, expand tzo fuel r cache_init start range 0 None = None.
Proof.
  exists RecurMiscProofs.leap400, RecurMiscProofs.leapday, RecurMiscProofs.century17.
  split; [reflexivity|]. split; [repeat split; vm_compute; congruence|]. split; [vm_compute; congruence|]. split; [discriminate|].
  exact RecurMiscProofs.leap_stuck.
Qed.
Print Assumptions C31_returns_yearly_refuted.

(** C32. Rules with BY parts: no item before the start, outside the window or after UNTIL; each
    comes from the set generated for some interval; with COUNT n there are at most n - 1 (the
    start itself is counted but not returned). *)
Theorem C32_bounds : forall tzo fuel r start range off max c items res,
  hasBy r = true -> expand tzo fuel r cache_init start range off max = Some (c, (items, res)) ->
  Forall (fun it => dt_lt tzo it (normalise start) = Ok false /\ isDateWithinPeriod tzo range it = Ok true /\
                    (forall u, until_used r (normalise start) off u -> dt_gt tzo it u = Ok false) /\
                    exists k set, generate_set tzo r (interval_start r (normalise start) k) = Ok set /\ In it set) items /\
  (rUseCount r = true -> Z.of_nat (List.length items) <= Z.max 0 (rCount r - 1)).
Proof. exact RecurMiscProofs.complex_bounds. Qed.
Print Assumptions C32_bounds.
(** The weekdays from a Thursday on. *)
Example C32_bounds_ex : exists c items,
  expand no_zones 9 (rule_of "FREQ=WEEKLY;BYDAY=MO,WE,TH,FR;COUNT=4") cache_init (utc 1970 1 1 9)
    (newPeriodEnd (utc 1970 1 1 0) (utc 1970 2 1 0)) 0 None = Some (c, (items, Ok false)) /\
  map ymd items = [(1970, 1, 2); (1970, 1, 5); (1970, 1, 7)] /\
  hasBy (rule_of "FREQ=WEEKLY;BYDAY=MO,WE,TH,FR;COUNT=4") = true.
Proof. eexists. eexists. vm_compute. repeat split; reflexivity. Qed.

(** The items are the candidates of the intervals, in order, from the start on, up to the
    point where the end of the window, UNTIL or COUNT stops the expansion. *)
Theorem C32_exact : forall tzo fuel r start range off max items full,
  complexExpand tzo fuel r start range off max = Some (items, Ok full) ->
  (rUseCount r = true /\ rCount r <= 1 /\ items = [] /\ full = true) \/
  exists sets seen rest,
    (forall k set, nth_error sets k = Some set -> generate_set tzo r (interval_start r start k) = Ok set) /\
    List.concat sets = seen ++ rest /\
    items = (let l := filter (fun it => no (dt_lt tzo it start)) seen in
             if rUseCount r then drop_while (fun it => yes (dt_eq tzo start it)) l else l) /\
    (forall it, In it seen -> dt_lt tzo it start = Ok false ->
       isDateAfterPeriod tzo range it = Ok false /\ forall u, until_used r start off u -> dt_gt tzo it u = Ok false) /\
    ((full = true /\ rUseCount r = true /\ rCount r = 1 + Z.of_nat (List.length items) /\ items <> []) \/
     (exists it rest' u, full = true /\ rest = it :: rest' /\ dt_lt tzo it start = Ok false /\ isDateAfterPeriod tzo range it = Ok false /\
        until_used r start off u /\ dt_gt tzo it u = Ok true) \/
     (exists it rest', full = false /\ rest = it :: rest' /\ dt_lt tzo it start = Ok false /\ isDateAfterPeriod tzo range it = Ok true) \/
     (full = false /\ rest = [] /\ sets <> [] /\ isDateAfterPeriod tzo range (interval_start r start (List.length sets - 1)) = Ok true)).
Proof. exact RecurMiscProofs.complex_exact. Qed.
Print Assumptions C32_exact.
Example C32_exact_ex : exists items,
  complexExpand no_zones 9 (rule_of "FREQ=MONTHLY;BYMONTHDAY=1,31;UNTIL=19700401T090000Z") (utc 1970 1 2 9)
    (newPeriodEnd (utc 1970 1 1 0) (utc 1971 1 1 0)) 0 None = Some (items, Ok true) /\
  map ymd items = [(1970, 1, 31); (1970, 2, 1); (1970, 3, 1); (1970, 3, 31); (1970, 4, 1)].
Proof. eexists. vm_compute. split; reflexivity. Qed.

(** Rules without BY parts return at most COUNT items (always at least the start). *)
Theorem C32_count : forall tzo fuel r start range off max c items res,
  hasBy r = false -> rUseCount r = true -> expand tzo fuel r cache_init start range off max = Some (c, (items, res)) ->
  Z.of_nat (List.length items) <= Z.max 1 (rCount r).
Proof. exact RecurMiscProofs.simple_count. Qed.
Print Assumptions C32_count.
Example C32_count_ex : exists c items,
  expand no_zones 9 (rule_of "FREQ=HOURLY;COUNT=3") cache_init (newDateTime 2020 3 8 0 0 0 false (TzName (lit "X")))
    (newPeriodEnd (newDateTime 2020 1 1 0 0 0 false (TzName (lit "X"))) (newDateTime 2021 1 1 0 0 0 false (TzName (lit "X")))) 0 None
    = Some (c, (items, Ok false)) /\ map mHours items = [0; 1; 2].
Proof. eexists. eexists. vm_compute. split; reflexivity. Qed.

(** The start is returned even when UNTIL is before it. *)
Theorem C32_until_refuted : exists tzo fuel r start range c u,
  hasBy r = false /\ rUseUntil r = true /\ rUntil r = Some u /\ dt_gt tzo start u = Ok true /\
  expand tzo fuel r cache_init start range 0 None = Some (c, ([start], Ok false)).
Proof.
  exists no_zones, 9%nat, (rule_of "FREQ=DAILY;UNTIL=19690101T000000Z"), (utc 1970 1 1 9), (newPeriodEnd (utc 1970 1 1 0) (utc 1971 1 1 0)).
  eexists. exists (utc 1969 1 1 0). vm_compute. repeat split; reflexivity.
Qed.
Print Assumptions C32_until_refuted.
(** An instance can be returned twice: the 31st and the last day. *)
Theorem C32_once_refuted : exists tzo fuel r start range c d,
  hasBy r = true /\ expand tzo fuel r cache_init start range 0 None = Some (c, ([d; d], Ok true)).
Proof.
  exists no_zones, 9%nat, (rule_of "FREQ=MONTHLY;BYMONTHDAY=31,-1"), (utc 1970 1 1 9), (newPeriodEnd (utc 1970 1 1 0) (utc 1970 2 1 0)).
  eexists. eexists. vm_compute. split; reflexivity.
Qed.
Print Assumptions C32_once_refuted.

(** C33. After any calls of expand (with one float offset and no limit on the number of
    instances) and of setters, a rule without BY parts gives the same instants and the same
    result as a new rule object would. *)
Theorem C33_transparent : forall tzo sc off r c start range lim w b,
  reachable tzo sc (floating start) off r c -> call_ok sc off r start range lim w b ->
  exists N xs limited, forall fuel, (N <= fuel)%nat -> exists c1 c2 items1 items2,
    expand tzo fuel r c start range off None = Some (c1, (items1, Ok limited)) /\
    expand tzo fuel r cache_init start range off None = Some (c2, (items2, Ok limited)) /\
    Forall2 (instant sc) items1 xs /\ Forall2 (instant sc) items2 xs.
Proof. exact RecurCacheProofs.transparent. Qed.
Print Assumptions C33_transparent.
(** A wide window, then a narrow one that is served from the cache. *)
Example C33_transparent_ex : forall tzo, exists c1 o1 c2,
  expand tzo 20 (rule_of "FREQ=DAILY") cache_init (utc 1970 1 1 9) (newPeriodEnd (utc 1970 1 1 0) (utc 1970 1 11 0)) 0 None = Some (c1, o1) /\
  expand tzo 0 (rule_of "FREQ=DAILY") c1 (utc 1970 1 1 9) (newPeriodEnd (utc 1970 1 2 0) (utc 1970 1 3 0)) 0 None
    = Some (c2, ([utc 1970 1 2 9], Ok true)) /\
  reachable tzo (InZone true TzNone) false 0 (rule_of "FREQ=DAILY") c1 /\
  call_ok (InZone true TzNone) 0 (rule_of "FREQ=DAILY") (utc 1970 1 1 9) (newPeriodEnd (utc 1970 1 2 0) (utc 1970 1 3 0)) None 86400 172800.
Proof.
  intro tzo.
  assert (K : forall d1 d2 y1 y2, instant (InZone true TzNone) (utc 1970 1 d1 0) y1 -> instant (InZone true TzNone) (utc 1970 1 d2 0) y2 ->
    call_ok (InZone true TzNone) 0 (rule_of "FREQ=DAILY") (utc 1970 1 1 9) (newPeriodEnd (utc 1970 1 d1 0) (utc 1970 1 d2 0)) None y1 y2).
  { intros d1 d2 y1 y2 I1 I2. split; [discriminate|]. split; [reflexivity|]. split; [split; [vm_compute; congruence|vm_compute; discriminate]|].
    split; [|split; [eexists; split; [reflexivity|exact I2]|split; [exact I1|reflexivity]]].
    exists 32400. repeat split; try (vm_compute; congruence). exists 0. split; [left; split; [lia|reflexivity]|reflexivity]. }
  eexists. eexists. eexists. split; [|split; [|split]].
  - vm_compute. reflexivity.
  - vm_compute. reflexivity.
  - eapply (reach_expand _ _ _ _ _ cache_init) with (start := utc 1970 1 1 9) (fuel := 20%nat); [apply reach_new|apply (K 1 11 0 864000)|reflexivity|vm_compute; reflexivity].
    + repeat split; try (vm_compute; congruence). exists 0. split; [left; split; [lia|reflexivity]|reflexivity].
    + repeat split; try (vm_compute; congruence). exists 10. split; [left; split; [lia|reflexivity]|reflexivity].
  - apply K; repeat split; try (vm_compute; congruence).
    + exists 1. split; [left; split; [lia|reflexivity]|reflexivity].
    + exists 2. split; [left; split; [lia|reflexivity]|reflexivity].
Qed.

(** The float offset is not part of the cache key. *)
Theorem C33_offset_refuted : exists tzo r start range c1 o1 c2 items c3 items',
  expand tzo 9 r cache_init start range 0 None = Some (c1, o1) /\
  expand tzo 9 r c1 start range 86400 None = Some (c2, (items, Ok false)) /\
  expand tzo 9 r cache_init start range 86400 None = Some (c3, (items', Ok false)) /\
  List.length items = 3%nat /\ List.length items' = 4%nat.
Proof.
  exists no_zones, (rule_of "FREQ=DAILY;UNTIL=19700103T000000Z"), (newDateTime 1970 1 1 0 0 0 false TzNone),
    (newPeriodEnd (newDateTime 1970 1 1 0 0 0 false TzNone) (newDateTime 1970 2 1 0 0 0 false TzNone)).
  do 6 eexists. split; [vm_compute; reflexivity|]. split; [vm_compute; reflexivity|]. split; [vm_compute; reflexivity|].
  vm_compute. split; reflexivity.
Qed.
Print Assumptions C33_offset_refuted.
(** A date and midnight on it count as the same start: times are returned for a date. *)
Theorem C33_start_refuted : exists tzo r start start' range c1 o1 c2 items c3 items' l l',
  expand tzo 9 r cache_init start range 0 None = Some (c1, o1) /\
  expand tzo 9 r c1 start' range 0 None = Some (c2, (items, Ok l)) /\
  expand tzo 9 r cache_init start' range 0 None = Some (c3, (items', Ok l')) /\
  map mDateOnly items = [false; false] /\ map mDateOnly items' = [true; true].
Proof.
  exists no_zones, (rule_of "FREQ=DAILY"), (newDateTime 1970 1 1 0 0 0 false TzNone), (day 1970 1 1),
    (newPeriodEnd (day 1970 1 1) (day 1970 1 3)).
  do 8 eexists. split; [vm_compute; reflexivity|]. split; [vm_compute; reflexivity|]. split; [vm_compute; reflexivity|].
  vm_compute. split; reflexivity.
Qed.
Print Assumptions C33_start_refuted.
(** After a call that raised TooManyInstancesError the rule answers from a truncated cache. *)
Theorem C33_exception_refuted : exists tzo r start narrow wide c1 items c2 c3 items' l l',
  expand tzo 9 r cache_init start narrow 0 None = Some (c1, (items, Ok l)) /\
  expand tzo 9 r c1 start wide 0 (Some 1) = Some (c2, ([], Raise TooManyInstancesError)) /\
  expand tzo 9 r c2 start narrow 0 None = Some (c3, (items', Ok l')) /\
  List.length items = 3%nat /\ List.length items' = 2%nat.
Proof.
  exists no_zones, (rule_of "FREQ=DAILY"), (utc 1970 1 1 9), (newPeriodEnd (utc 1970 1 1 0) (utc 1970 1 4 0)), (newPeriodEnd (utc 1970 1 1 0) (utc 1970 1 5 0)).
  do 7 eexists. split; [vm_compute; reflexivity|]. split; [vm_compute; reflexivity|]. split; [vm_compute; reflexivity|].
  vm_compute. split; reflexivity.
Qed.
Print Assumptions C33_exception_refuted.
(** With BY parts: the sets of two years can overlap, and what is returned for a window
    depends on the windows asked for before. *)
Theorem C33_by_parts_refuted : exists tzo r start narrow wide c1 o1 c2 items c3 items' l l',
  expand tzo 9 r cache_init start wide 0 None = Some (c1, o1) /\
  expand tzo 9 r c1 start narrow 0 None = Some (c2, (items, Ok l)) /\
  expand tzo 9 r cache_init start narrow 0 None = Some (c3, (items', Ok l')) /\
  map ymd items = [(2018, 12, 31); (2018, 12, 31)] /\ map ymd items' = [(2018, 12, 31)].
Proof.
  exists no_zones, (rule_of "FREQ=YEARLY;BYWEEKNO=1,53;BYDAY=MO,SU"), (utc 2018 6 1 9),
    (newPeriodEnd (utc 2018 7 1 0) (utc 2019 1 1 0)), (newPeriodEnd (utc 2018 7 1 0) (utc 2021 1 1 0)).
  do 8 eexists. split; [vm_compute; reflexivity|]. split; [vm_compute; reflexivity|]. split; [vm_compute; reflexivity|].
  vm_compute. split; reflexivity.
Qed.
Print Assumptions C33_by_parts_refuted.

(** C48. A setter other than setUntil assigns the value, and drops the cache unless the rule
    had that value already. *)
Theorem C48_setter : forall tzo s r c, (forall d, s <> SetUntil d) -> exists c',
  setAndClear tzo s (r, c) = Ok (setter_assign s r, c') /\ (c' = cache_clear c \/ (c' = c /\ setter_assign s r = r)).
Proof. exact RecurMiscProofs.setter_works. Qed.
Print Assumptions C48_setter.
(** After setInterval the next expansion uses the new interval. *)
Example C48_setter_ex : exists c1 o1 r2 c2 c3,
  expand no_zones 20 (rule_of "FREQ=DAILY") cache_init (utc 1970 1 1 9) (newPeriodEnd (utc 1970 1 1 0) (utc 1970 1 11 0)) 0 None = Some (c1, o1) /\
  setAndClear no_zones (SetInterval 4) (rule_of "FREQ=DAILY", c1) = Ok (r2, c2) /\ rInterval r2 = 4 /\
  expand no_zones 20 r2 c2 (utc 1970 1 1 9) (newPeriodEnd (utc 1970 1 1 0) (utc 1970 1 8 0)) 0 None
    = Some (c3, ([utc 1970 1 1 9; utc 1970 1 5 9], Ok true)).
Proof.
  do 5 eexists. split; [vm_compute; reflexivity|]. split; [vm_compute; reflexivity|]. split; vm_compute; reflexivity.
Qed.
(** setUntil does nothing when the new value compares equal to the old one, such as midnight
    on the date. *)
Theorem C48_until_refuted : exists tzo r u, rUseUntil r = true /\
  setAndClear tzo (SetUntil u) (r, cache_init) = Ok (r, cache_init) /\
  rule_generate r <> rule_generate (setter_assign (SetUntil u) r).
Proof.
  exists no_zones, (rule_of "FREQ=DAILY;UNTIL=19700103"), (newDateTime 1970 1 3 0 0 0 false TzNone).
  split; [reflexivity|]. split; [vm_compute; reflexivity|]. vm_compute. discriminate.
Qed.
Print Assumptions C48_until_refuted.
(** A copy of a rule with an unused UNTIL value differs from the rule. *)
Theorem C48_duplicate_refuted : exists tzo r r', rule_duplicate r = Ok r' /\ rule_equals tzo r r' = Ok false.
Proof.
  exists no_zones, (set_use_until false (rule_of "FREQ=DAILY;UNTIL=19700103")). eexists. split; vm_compute; reflexivity.
Qed.
Print Assumptions C48_duplicate_refuted.
