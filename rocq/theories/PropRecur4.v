(** Property C49: expansion of rules with BY parts.  [tzo] is the timezone database, an
    arbitrary function; fuel is a number of loop rounds that is large enough. *)
From Coq Require Import Lia ZifyBool Sorting.Sorted.
From Verif Require Import PyBase ParserCtx CalSpec DateTimeModel DateTimeSpec DateTimeSpec2 PeriodModel PeriodSpec RecurModel RecurSpec
  RecurExpand RecurExpandSpec RecurSetSpec RecurByPartsSpec PropRecur2.
From Verif Require RecurByPartsProofs3.

(** C49. Expansion of a rule with BY parts (and without COUNT and BYSETPOS) returns exactly the
    times in the window that the parts select, in order; and when the result says that nothing
    was left out, then the rule has no instances outside the window. *)
Theorem C49_by_parts : forall tzo sc off r start range lim a w b,
  by_call sc off r start range lim a w b -> clock_ordered tzo sc ->
  exists N, forall fuel, (N <= fuel)%nat -> exists c items limited,
    expand tzo fuel r cache_init start range off None = Some (c, (items, Ok limited)) /\
    lists_in_order sc items (fun x => by_instances sc r lim start a x /\ w <= x < b) /\
    (limited = false -> forall x, by_instances sc r lim start a x -> w <= x < b).
Proof. exact RecurByPartsProofs3.by_parts_le. Qed.
Print Assumptions C49_by_parts.

Lemma utc_at y m d h k : valid_dt (utc y m d h) -> days_between hist_leap (1970, 1, 1) (y, m, d) k ->
  instant (InZone true TzNone) (utc y m d h) (86400 * k + 3600 * h).
Proof.
  intros V D. split; [exact V|]. split; [reflexivity|]. split; [reflexivity|]. split; [reflexivity|]. exists k. split; [exact D|].
  unfold secs_of_day. cbn [utc newDateTime mHours mMinutes mSeconds]. lia.
Qed.
(** The last Friday of each month, in the first quarter of 1970. *)
Example C49_by_parts_ex :
  let r := rule_of "FREQ=MONTHLY;BYDAY=-1FR" in
  let range := newPeriodEnd (utc 1970 1 1 0) (utc 1970 4 1 0) in
  by_call (InZone true TzNone) 0 r (utc 1970 1 1 9) range None 32400 0 7776000 /\
  (exists c items, expand no_zones 9 r cache_init (utc 1970 1 1 9) range 0 None = Some (c, (items, Ok true)) /\
     map ymd items = [(1970, 1, 30); (1970, 2, 27); (1970, 3, 27)]) /\
  by_instances (InZone true TzNone) r None (utc 1970 1 1 9) 32400 (86400 * 57 + 32400).
Proof.
  intros r range. vm_compute in r. split; [|split].
  - split; [discriminate|]. split; [reflexivity|]. split.
    + unfold r. split; [|split; [|split; [|split; [|split; [|split]]]]]; try reflexivity; try (cbn; tauto); try discriminate.
      repeat split; try (cbn; lia); try exact I. constructor; [cbn; lia|constructor].
    + split; [exact (utc_at 1970 1 1 9 0 ltac:(repeat split; vm_compute; congruence) ltac:(left; split; [lia|vm_compute; reflexivity]))|].
      split; [cbn; lia|]. split.
      * exists (utc 1970 4 1 0). split; [reflexivity|]. split.
        -- exact (utc_at 1970 4 1 0 90 ltac:(repeat split; vm_compute; congruence) ltac:(left; split; [lia|vm_compute; reflexivity])).
        -- exists 12, (utc 1971 1 1 9). split; [lia|]. split; [|cbn; lia]. unfold r. repeat split; cbn; lia.
      * split; [|reflexivity]. exact (utc_at 1970 1 1 0 0 ltac:(repeat split; vm_compute; congruence) ltac:(left; split; [lia|vm_compute; reflexivity])).
  - eexists. eexists. vm_compute. split; reflexivity.
  - split; [lia|]. split; [discriminate|]. exists 1, (utc 1970 2 1 9), (utc 1970 2 27 9). split; [lia|].
    split; [unfold r; repeat split; cbn; lia|].
    split; [|exact (utc_at 1970 2 27 9 57 ltac:(repeat split; vm_compute; congruence) ltac:(left; split; [lia|vm_compute; reflexivity]))].
    unfold r. split; [repeat split|]. split; [repeat split|]. split; [exact I|].
    split; [vm_compute; repeat split; congruence|]. split; [reflexivity|]. split; [reflexivity|]. split; [exact I|].
    split; [|cbn; tauto]. exists (-1, 5). split; [left; reflexivity|]. split; [|split].
    + exists 57. split; [left; split; [lia|vm_compute; reflexivity]|reflexivity].
    + cbn. lia.
    + intros _. apply nth_last with (k := 1); [vm_compute; repeat split; congruence|lia|left; split; [lia|reflexivity]|].
      exists 57. split; [left; split; [lia|vm_compute; reflexivity]|reflexivity].
Qed.

(** Each once when the parts only limit the intervals; in any zone. *)
Theorem C49_limits : forall tzo sc off r start range lim a w b,
  by_call sc off r start range lim a w b -> only_limits r ->
  exists N, forall fuel, (N <= fuel)%nat -> exists c items limited,
    expand tzo fuel r cache_init start range off None = Some (c, (items, Ok limited)) /\
    enumerates sc items (fun x => by_instances sc r lim start a x /\ w <= x < b) /\
    (limited = false -> forall x, by_instances sc r lim start a x -> w <= x < b).
Proof. exact RecurByPartsProofs3.by_parts_lt. Qed.
Print Assumptions C49_limits.
(** Every six hours on Thursdays, at 6 and 18 o'clock. *)
Example C49_limits_ex :
  let r := rule_of "FREQ=HOURLY;INTERVAL=6;BYHOUR=6,18;BYDAY=TH" in
  let range := newPeriodEnd (utc 1970 1 1 0) (utc 1970 1 10 0) in
  by_call (InZone true TzNone) 0 r (utc 1970 1 1 12) range None 43200 0 777600 /\ only_limits r /\
  (forall tzo, exists c items, expand tzo 99 r cache_init (utc 1970 1 1 12) range 0 None = Some (c, (items, Ok true)) /\
     map visible items = map visible [utc 1970 1 1 18; utc 1970 1 8 6; utc 1970 1 8 18]) /\
  by_instances (InZone true TzNone) r None (utc 1970 1 1 12) 43200 (86400 * 7 + 21600).
Proof.
  intros r range. vm_compute in r. split; [|split; [|split]].
  - split; [discriminate|]. split; [reflexivity|]. split.
    + unfold r. split; [|split; [|split; [|split; [|split; [|split]]]]]; try reflexivity; try (cbn; tauto); try discriminate; try exact I.
      repeat split; try (cbn; lia); try exact I; repeat constructor; cbn; lia.
    + split; [exact (utc_at 1970 1 1 12 0 ltac:(repeat split; vm_compute; congruence) ltac:(left; split; [lia|vm_compute; reflexivity]))|].
      split; [cbn; lia|]. split.
      * exists (utc 1970 1 10 0). split; [reflexivity|]. split.
        -- exact (utc_at 1970 1 10 0 9 ltac:(repeat split; vm_compute; congruence) ltac:(left; split; [lia|vm_compute; reflexivity])).
        -- exists 1460, (utc 1971 1 1 12). split; [lia|]. split; [|cbn; lia]. exists 3600. split; [reflexivity|].
           exact (utc_at 1971 1 1 12 365 ltac:(repeat split; vm_compute; congruence) ltac:(left; split; [lia|vm_compute; reflexivity])).
      * split; [|reflexivity]. exact (utc_at 1970 1 1 0 0 ltac:(repeat split; vm_compute; congruence) ltac:(left; split; [lia|vm_compute; reflexivity])).
  - unfold r. repeat split; try (left; reflexivity); cbn; intro H; try discriminate H; tauto.
  - intro tzo. eexists. eexists. vm_compute. split; reflexivity.
  - split; [lia|]. split; [discriminate|]. exists 27, (utc 1970 1 8 6), (utc 1970 1 8 6). split; [lia|].
    pose proof (utc_at 1970 1 8 6 7 ltac:(repeat split; vm_compute; congruence) ltac:(left; split; [lia|vm_compute; reflexivity])) as A.
    split; [exists 3600; split; [reflexivity|exact A]|]. split; [|exact A].
    unfold r. split; [repeat split|]. split; [repeat split; cbn; auto|]. split; [reflexivity|].
    split; [exact I|]. split; [exact I|]. split; [exact I|].
    exists (0, 4). split; [left; reflexivity|]. split; [|cbn; split; lia].
    exists 7. split; [left; split; [lia|vm_compute; reflexivity]|reflexivity].
Qed.

(** The clocks of UTC and of numeric zones are ordered, and so are dates if no zone changes its
    offset by a day or more. *)
Theorem C49_fixed_zone : forall tzo u t, u = true \/ (exists n, t = TzInt n) -> clock_ordered tzo (InZone u t).
Proof. exact RecurByPartsProofs3.fixed_ordered. Qed.
Print Assumptions C49_fixed_zone.
Example C49_fixed_zone_ex : clock_ordered (fun _ _ _ _ _ _ _ _ _ => 0) (InZone false (TzInt (-18000))).
Proof. apply C49_fixed_zone. right. eexists. reflexivity. Qed.
Theorem C49_dates : forall tzo, small_changes tzo -> clock_ordered tzo Dates.
Proof. exact RecurByPartsProofs3.dates_ordered. Qed.
Print Assumptions C49_dates.
(** A zone that is 5 hours behind UTC before 2 April 1970 and 4 hours from then on. *)
Example C49_dates_ex :
  let tzo := fun (_ : tzid) y m d (_ _ _ : Z) (_ _ : bool) => if 12 * y + m <? 12 * 1970 + 4 then -18000 else if (y =? 1970) && (m =? 4) && (d =? 1) then -18000 else -14400 in
  small_changes tzo /\
  snd (getPosixTime tzo (rebuilt (day 1970 4 1))) = Ok 7794000 /\ snd (getPosixTime tzo (rebuilt (day 1970 4 2))) = Ok 7876800.
Proof.
  intro tzo. split; [|split; vm_compute; reflexivity]. intros t y m d h mi s y' m' d' h' mi' s'. unfold tzo.
  destruct (12 * y + m <? _), (12 * y' + m' <? _); try destruct (_ && _ && _); try destruct (_ && _ && _); lia.
Qed.

(** Without an ordered clock an instance can be missing: the clock of this zone jumps from 2 to
    3 o'clock, and the time 2:30, which it never shows, is taken for one after 3:00. *)
Definition jumping : tzid -> Z -> Z -> Z -> Z -> Z -> Z -> bool -> bool -> Z :=
  fun _ _ _ _ h _ _ _ _ => if h <? 3 then -18000 else -14400.
Theorem C49_any_clock_refuted : exists tzo sc off r start range lim a w b x,
  by_call sc off r start range lim a w b /\ by_instances sc r lim start a x /\ w <= x < b /\
  forall fuel c items res, expand tzo fuel r cache_init start range off None = Some (c, (items, res)) ->
    Forall (fun d => ~ instant sc d x) items.
Proof.
  set (z := TzName (lit "Z")). set (at_ := fun h m => newDateTime 1970 1 1 h m 0 false z).
  set (r := rule_of "FREQ=DAILY;BYHOUR=2,3;BYMINUTE=0,30"). vm_compute in r.
  exists jumping, (InZone false z), 0, r, (at_ 0 0), (newPeriodEnd (at_ 0 0) (at_ 3 0)), None, 0, 0, 10800, 9000.
  assert (I : forall h m, 0 <= h < 24 -> 0 <= m < 60 -> instant (InZone false z) (at_ h m) (3600 * h + 60 * m)).
  { intros h m Hh Hm. split; [split; [vm_compute; repeat split; congruence|split; [split; [exact Hh|split; [exact Hm|cbn; lia]]|discriminate]]|].
    split; [reflexivity|]. split; [reflexivity|]. split; [reflexivity|]. exists 0. split; [left; split; [lia|reflexivity]|].
    unfold secs_of_day. cbn [at_ newDateTime mHours mMinutes mSeconds]. lia. }
  split; [|split; [|split; [lia|]]].
  - split; [discriminate|]. split; [reflexivity|]. split.
    + unfold r. split; [|split; [|split; [|split; [|split; [|split]]]]]; try reflexivity; try (cbn; tauto); try discriminate; try exact Logic.I.
      repeat split; try (cbn; lia); try exact Logic.I; repeat constructor; cbn; lia.
    + split; [exact (I 0 0 ltac:(lia) ltac:(lia))|]. split; [cbn; lia|]. split; [|split; [exact (I 0 0 ltac:(lia) ltac:(lia))|reflexivity]].
      exists (at_ 3 0). split; [reflexivity|]. split; [exact (I 3 0 ltac:(lia) ltac:(lia))|].
      exists 365, (newDateTime 1971 1 1 0 0 0 false z). split; [lia|]. split; [|cbn; lia]. exists 86400. split; [reflexivity|].
      split; [repeat split; vm_compute; congruence|]. repeat split; try (vm_compute; congruence). exists 365. split; [left; split; [lia|vm_compute; reflexivity]|reflexivity].
  - split; [lia|]. split; [discriminate|]. exists 0, (at_ 0 0), (at_ 2 30). split; [lia|].
    split; [exists 86400; split; [reflexivity|exact (I 0 0 ltac:(lia) ltac:(lia))]|].
    split; [|exact (I 2 30 ltac:(lia) ltac:(lia))]. unfold r. split; [repeat split|]. split; [split; [split; [cbn; auto|discriminate]|split; [split; [cbn; auto|discriminate]|reflexivity]]|].
    split; [reflexivity|]. repeat split; exact Logic.I.
  - intros fuel c items res H.
    assert (E : items = [] \/ map secs_of_day items = [7200]).
    { destruct fuel as [|fuel]; [vm_compute in H; discriminate H|]. vm_compute in H. injection H as _ <- _. right. reflexivity. }
    destruct E as [->|E]; [constructor|]. destruct items as [|d [|]]; try discriminate E. constructor; [|constructor].
    injection E as E. intros (_ & _ & _ & _ & k & _ & Q). rewrite E in Q. lia.
Qed.
Print Assumptions C49_any_clock_refuted.
