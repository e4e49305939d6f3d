(** Properties C37 and C50: time zone definitions.  [tzo] gives the offsets of all zones, among them the default zone, [order] and [torder] are
    the iteration orders of Python sets, all arbitrary; fuel is a number of loop rounds that is large enough. *)
From Coq Require Import Lia ZifyBool Sorting.Permutation.
From Verif Require Import PyBase ParserCtx CalSpec DateTimeModel DateTimeSpec DateTimeSpec2 PeriodModel PeriodSpec RecurModel RecurSpec RecurExpand
  RecurExpandSpec RecurSetSpec RecurByPartsSpec RecurSetModel RecurUnionSpec VTimezoneModel VTimezoneSpec PropRecur2.
From Verif Require VTimezoneProofs3.
Ltac Zify.zify_post_hook ::= Z.div_mod_to_equations.

(** C37. A time zone definition answers with the offset that the latest onset of its elements,
    not after the given time, leads to (0 before all onsets), whatever it was asked before. *)
Theorem C37_offset : forall tzo order torder, permutes order -> shuffles torder ->
  forall top, top <= 2099 -> clock_ordered tzo local_time ->
  forall es, Forall (elem_ok tzo top) es -> whole_minutes es ->
  forall z d rel t, asked tzo order torder top es z -> question es top d rel t ->
  exists N, forall fuel, (N <= fuel)%nat -> exists z' v,
    getTimezoneOffsetSeconds tzo order torder fuel z d rel = Some (z', Ok v) /\ in_force es rel t v.
Proof. exact VTimezoneProofs3.offset_in_force. Qed.
Print Assumptions C37_offset.

(** The answer does not depend on earlier questions or on the orders of sets, if simultaneous
    onsets agree. *)
Theorem C37_history : forall tzo top es, top <= 2099 -> clock_ordered tzo local_time -> Forall (elem_ok tzo top) es -> whole_minutes es ->
  forall order torder z order' torder' z' d rel t, permutes order -> shuffles torder -> permutes order' -> shuffles torder' ->
  asked tzo order torder top es z -> asked tzo order' torder' top es z' -> question es top d rel t -> unambiguous es rel ->
  exists N v, forall fuel, (N <= fuel)%nat -> exists z1 z2, getTimezoneOffsetSeconds tzo order torder fuel z d rel = Some (z1, Ok v) /\
    getTimezoneOffsetSeconds tzo order' torder' fuel z' d rel = Some (z2, Ok v).
Proof. exact VTimezoneProofs3.offset_history. Qed.
Print Assumptions C37_history.

(** The premise on the clock holds when the default zone has one offset. *)
Theorem C37_default_zone : forall tzo o, (forall y m d h mi s b, tzo TzNone y m d h mi s b false = o) -> clock_ordered tzo local_time.
Proof. exact VTimezoneProofs3.fixed_default. Qed.
Print Assumptions C37_default_zone.

Definition local_at (y m d h : Z) : dt := newDateTime y m d h 0 0 false TzNone.
(** A zone like New York in the 1970s. *)
Definition summer : elem := mkElem (local_at 1970 4 26 2) (-14400) (-18000) (lit "EDT")
  (mkRset [(rule_of "FREQ=YEARLY;BYMONTH=4;BYDAY=-1SU", cache_init)] [] [] [] [] []) None None.
Definition winter : elem := mkElem (local_at 1970 10 25 2) (-18000) (-14400) (lit "EST")
  (mkRset [(rule_of "FREQ=YEARLY;BYMONTH=10;BYDAY=-1SU", cache_init)] [] [] [] [] []) None None.
Notation same := (fun l => l).

Example C37_default_zone_ex : clock_ordered no_zones local_time.
Proof. apply (C37_default_zone no_zones 0). reflexivity. Qed.
Lemma local_is y m d h k : valid_dt (local_at y m d h) -> days_between hist_leap (1970, 1, 1) (y, m, d) k ->
  instant local_time (local_at y m d h) (86400 * k + 3600 * h).
Proof.
  intros V D. split; [exact V|]. split; [reflexivity|]. split; [reflexivity|]. split; [reflexivity|]. exists k. split; [exact D|].
  unfold secs_of_day. cbn [local_at newDateTime mHours mMinutes mSeconds]. lia.
Qed.
Lemma local_honest y m d h : honest no_zones (local_at y m d h).
Proof. split; discriminate. Qed.
Lemma seasons_ok : Forall (elem_ok no_zones 1980) [winter; summer].
Proof.
  unfold winter, summer. set (r := rule_of "FREQ=YEARLY;BYMONTH=10;BYDAY=-1SU"). vm_compute in r. set (s := rule_of "FREQ=YEARLY;BYMONTH=4;BYDAY=-1SU"). vm_compute in s.
  assert (B : by_ok local_time r /\ by_ok local_time s).
  { split; [unfold r|unfold s]; (split; [|split; [|split; [|split; [|split; [|split]]]]]; try reflexivity; try (cbn; tauto); try discriminate;
      [repeat split; try (cbn; lia); try exact I; (constructor; [cbn; lia|constructor])|intros _; split; [cbn; tauto|left; left; exact I]]). }
  constructor; [|constructor; [|constructor]].
  - apply (VTimezoneProofs3.yearly_elem_ok _ _ _ _ _ _ _ (86400 * 297 + 3600 * 2)); try reflexivity; [exact C37_default_zone_ex|apply B| |cbn; lia|apply local_honest].
    apply local_is; [repeat split; vm_compute; congruence|left; split; [lia|vm_compute; reflexivity]].
  - apply (VTimezoneProofs3.yearly_elem_ok _ _ _ _ _ _ _ (86400 * 115 + 3600 * 2)); try reflexivity; [exact C37_default_zone_ex|apply B| |cbn; lia|apply local_honest].
    apply local_is; [repeat split; vm_compute; congruence|left; split; [lia|vm_compute; reflexivity]].
Qed.
Lemma seasons_whole : whole_minutes [winter; summer].
Proof.
  assert (G : forall h e, In e [winter; summer] -> onset_of e h (eFrom e) (eTo e) -> h mod 60 = 0).
  { intros x e [<-|[<-|[]]] (_ & _ & a & Ia & _ & [->|[(r & c & [E|[]] & G)|(d & [] & _)]]).
    1, 3: apply VTimezoneProofs3.instant_minutes in Ia; [exact Ia|reflexivity].
    all: inversion E; subst r c; eapply VTimezoneProofs3.rule_minutes; [| | | |exact G]; reflexivity || (vm_compute; congruence). }
  intros x f o (e & He & O). pose proof O as (-> & -> & _). split; [eapply G; eassumption|]. destruct He as [<-|[<-|[]]]; reflexivity.
Qed.
Lemma seasons_agree : unambiguous [winter; summer] false.
Proof.
  assert (G : forall x f o, onset [winter; summer] x f o -> exists e, instant local_time e x /\ (mMonth e = 10 /\ o = -18000 \/ mMonth e = 4 /\ o = -14400)).
  { intros x f o (e & [<-|[<-|[]]] & O); [apply (VTimezoneProofs3.yearly_onset _ _ _ _ _ _ 10) in O|apply (VTimezoneProofs3.yearly_onset _ _ _ _ _ _ 4) in O];
      try reflexivity; try (cbn; lia); destruct O as (-> & -> & e & I & M); exists e; auto. }
  intros x f o y g o' O O' E. cbn in E. subst y. destruct (G _ _ _ O) as (d & Id & C), (G _ _ _ O') as (e & Ie & C').
  pose proof (VTimezoneProofs3.instant_month d e x Id Ie). lia.
Qed.
Lemma asked_1972 k d : days_between hist_leap (1970, 1, 1) (ymd d) k -> d = local_at (mYear d) (mMonth d) (mDay d) (mHours d) -> valid_dt d -> 1902 <= mYear d <= 1978 ->
  question [winter; summer] 1980 d false (86400 * k + 3600 * mHours d).
Proof.
  intros D E V Y. split; [|split; [lia|split; [lia|discriminate]]]. rewrite E in *. change (setTimezoneID ?x TzNone) with x. apply local_is; auto.
Qed.

(** Summer 1972, asked twice: first of a new object and then of one that was asked about an
    earlier year and for a name before. *)
Example C37_offset_ex :
  permutes same /\ shuffles same /\ clock_ordered no_zones local_time /\ Forall (elem_ok no_zones 1980) [winter; summer] /\ whole_minutes [winter; summer] /\
  unambiguous [winter; summer] false /\
  question [winter; summer] 1980 (local_at 1972 7 1 12) false (86400 * 912 + 3600 * 12) /\
  exists z1 r1 z2 r2 z3 z4,
  getTimezoneOffsetSeconds no_zones same same 9 (vtz_init [winter; summer]) (local_at 1970 12 1 0) false = Some (z1, r1) /\
  getTimezoneDescriptor no_zones same 9 z1 (local_at 1971 12 1 0) = Some (z2, r2) /\
  asked no_zones same same 1980 [winter; summer] z2 /\
  getTimezoneOffsetSeconds no_zones same same 9 (vtz_init [winter; summer]) (local_at 1972 7 1 12) false = Some (z3, Ok (-14400)) /\
  getTimezoneOffsetSeconds no_zones same same 9 z2 (local_at 1972 7 1 12) false = Some (z4, Ok (-14400)).
Proof.
  split; [intro; apply Permutation_refl|]. split; [intro; apply Permutation_refl|]. split; [exact C37_default_zone_ex|].
  split; [exact seasons_ok|]. split; [exact seasons_whole|]. split; [exact seasons_agree|].
  assert (Q : forall y m k h, days_between hist_leap (1970, 1, 1) (y, m, 1) k -> valid_dt (local_at y m 1 h) -> 1902 <= y <= 1978 ->
    question [winter; summer] 1980 (local_at y m 1 h) false (86400 * k + 3600 * h)).
  { intros y m k h D V Y. apply (asked_1972 k (local_at y m 1 h)); auto. }
  split; [apply Q; [left; split; [lia|vm_compute; reflexivity]|repeat split; vm_compute; congruence|lia]|].
  do 6 eexists. split; [vm_compute; reflexivity|]. split; [vm_compute; reflexivity|]. split; [|split; vm_compute; reflexivity].
  assert (R : forall y m k, days_between hist_leap (1970, 1, 1) (y, m, 1) k -> valid_dt (local_at y m 1 0) -> 1902 <= y <= 1978 -> question [winter; summer] 1980 (local_at y m 1 0) false (86400 * k + 3600 * 0)).
  { intros. apply Q; assumption. }
  eapply asked_name with (fuel := 9%nat) (d := local_at 1971 12 1 0);
    [eapply asked_offset with (fuel := 9%nat) (d := local_at 1970 12 1 0) (rel := false);
      [apply asked_new|apply (R 1970 12 334); [left; split; [lia|vm_compute; reflexivity]|repeat split; vm_compute; congruence|lia]|vm_compute; reflexivity]
    |apply (R 1971 12 699); [left; split; [lia|vm_compute; reflexivity]|repeat split; vm_compute; congruence|lia]|vm_compute; reflexivity].
Qed.

(** Elements that take effect once, at their DTSTART. *)
Definition once (start : dt) (from to : Z) (name : bytes) : elem := mkElem start to from name (mkRset [] [] [] [] [] []) None None.
Lemma once_onset start a from to name x f o : instant local_time start a -> onset_of (once start from to name) x f o <-> x = a /\ f = from /\ o = to.
Proof.
  intro I. split.
  - intros (-> & -> & b & Ib & _ & G). apply (VTimezoneProofs3.instant_one _ _ _ I) in Ib. subst b.
    destruct G as [->|[(r & c & [] & _)|(d & [] & _)]]. auto.
  - intros (-> & -> & ->). split; [reflexivity|]. split; [reflexivity|]. exists a. split; [exact I|]. split; [lia|auto].
Qed.
Lemma once_ok start a from to name : instant local_time start a -> 1902 <= mYear start -> honest no_zones start -> elem_ok no_zones 1980 (once start from to name).
Proof.
  intros I Y H. unfold elem_ok. cbn. do 8 (split; [auto|]). split; [constructor|]. split; [constructor|]. exists a. split; [exact I|]. constructor.
Qed.
Ltac date_is := apply local_is; [repeat split; vm_compute; congruence|left; split; [lia|vm_compute; reflexivity]].

(** A question about UTC: 7 o'clock UTC on the day when the clock goes forward at 2 o'clock. *)
Example C37_offset_utc_ex :
  let es := [once (local_at 1970 10 25 2) (-14400) (-18000) (lit "EST"); once (local_at 1970 4 26 2) (-18000) (-14400) (lit "EDT")] in
  Forall (elem_ok no_zones 1980) es /\ whole_minutes es /\ unambiguous es true /\
  question es 1980 (local_at 1970 4 26 7) true (86400 * 115 + 3600 * 7) /\
  (exists z', getTimezoneOffsetSeconds no_zones same same 9 (vtz_init es) (local_at 1970 4 26 7) true = Some (z', Ok (-14400))) /\
  (exists z', getTimezoneOffsetSeconds no_zones same same 9 (vtz_init es) (local_at 1970 4 26 6) true = Some (z', Ok 0)).
Proof.
  intro es.
  assert (I1 : instant local_time (local_at 1970 10 25 2) (86400 * 297 + 3600 * 2)) by date_is.
  assert (I2 : instant local_time (local_at 1970 4 26 2) (86400 * 115 + 3600 * 2)) by date_is.
  assert (O : forall x f o, onset es x f o -> (x, f, o) = (86400 * 297 + 3600 * 2, -14400, -18000) \/ (x, f, o) = (86400 * 115 + 3600 * 2, -18000, -14400)).
  { intros x f o (e & [<-|[<-|[]]] & H); [apply (once_onset _ _ _ _ _ _ _ _ I1) in H|apply (once_onset _ _ _ _ _ _ _ _ I2) in H]; destruct H as (-> & -> & ->); auto. }
  split; [constructor; [|constructor; [|constructor]]; eapply once_ok; eauto; try (cbn; lia); apply local_honest|].
  split; [intros x f o H; apply O in H as [H|H]; injection H as -> -> ->; split; reflexivity|].
  split; [intros x f o y g o' H H' E; cbn in E; apply O in H as [H|H], H' as [H'|H']; injection H as -> -> ->; injection H' as -> -> ->; lia|].
  split; [|split; eexists; vm_compute; reflexivity].
  split; [change (setTimezoneID ?d TzNone) with d; date_is|]. split; [cbn; lia|]. split; [cbn; lia|]. intros _. split.
  - intros x f o y g o' n b H H' L _ _ _ _. apply O in H as [H|H], H' as [H'|H']; injection H as -> -> ->; injection H' as -> -> ->; lia.
  - intros x f o n y H L In MD Y. assert (E : 86400 * 365 + 3600 * 0 <= y).
    { apply (VTimezoneProofs3.midnight_le n (local_at 1971 1 1 0)); auto; [date_is|]. cbn in Y. unfold ymd. injection MD as -> ->. rewrite Y. reflexivity. }
    apply O in H as [H|H]; injection H as -> -> ->; lia.
Qed.

(** The key of the cache leaves out the seconds: a change in the middle of a minute is missed
    after a question about the time before it. *)
Theorem C37_seconds_refuted : exists tzo order torder top es z d t fuel z' v,
  permutes order /\ shuffles torder /\ top <= 2099 /\ clock_ordered tzo local_time /\ Forall (elem_ok tzo top) es /\
  asked tzo order torder top es z /\ question es top d false t /\
  getTimezoneOffsetSeconds tzo order torder fuel z d false = Some (z', Ok v) /\ ~ in_force es false t v.
Proof.
  set (at_ := fun s => newDateTime 1970 1 10 0 0 s false TzNone).
  assert (I : forall s, 0 <= s < 60 -> instant local_time (at_ s) (86400 * 9 + s)).
  { intros s Hs. split; [split; [repeat split; vm_compute; congruence|split; [unfold valid_time; cbn; lia|discriminate]]|]. split; [reflexivity|]. split; [reflexivity|]. split; [reflexivity|].
    exists 9. split; [left; split; [lia|vm_compute; reflexivity]|]. unfold secs_of_day. cbn [at_ newDateTime mHours mMinutes mSeconds]. lia. }
  set (es := [once (at_ 30) 0 3600 []]).
  assert (Q : forall s, 0 <= s < 60 -> question es 1980 (at_ s) false (86400 * 9 + s)).
  { intros s Hs. split; [exact (I s Hs)|]. split; [cbn; lia|]. split; [cbn; lia|discriminate]. }
  exists no_zones, same, same, 1980, es. eexists. exists (at_ 45), (86400 * 9 + 45), 9%nat. eexists. exists 0.
  split; [intro; apply Permutation_refl|]. split; [intro; apply Permutation_refl|]. split; [lia|]. split; [exact C37_default_zone_ex|].
  split; [constructor; [|constructor]; eapply once_ok; [apply I; lia|cbn; lia|split; discriminate]|].
  split; [eapply asked_offset with (fuel := 9%nat) (d := at_ 10) (rel := false); [apply asked_new|apply (Q 10); lia|vm_compute; reflexivity]|].
  split; [apply Q; lia|]. split; [vm_compute; reflexivity|].
  intros [[_ H]|(x & f & (e & [<-|[]] & O) & _)].
  - specialize (H (86400 * 9 + 30) 0 3600). cbn [change_at] in H. enough (86400 * 9 + 45 < 86400 * 9 + 30) by lia. apply H. eexists. split; [left; reflexivity|].
    apply (once_onset _ (86400 * 9 + 30)); [apply I; lia|auto].
  - destruct O as (_ & O & _). discriminate O.
Qed.
Print Assumptions C37_seconds_refuted.

(** The table ends with a local new year: a change soon after it, which in UTC is before it, is
    missed in a question about UTC if the table was made for an earlier year. *)
Theorem C37_utc_new_year_refuted : exists tzo order torder top es z d t fuel z' v,
  permutes order /\ shuffles torder /\ top <= 2099 /\ clock_ordered tzo local_time /\ Forall (elem_ok tzo top) es /\ whole_minutes es /\ utc_ordered es /\
  asked tzo order torder top es z /\ question es top d false t /\
  getTimezoneOffsetSeconds tzo order torder fuel z d true = Some (z', Ok v) /\ ~ in_force es true t v.
Proof.
  set (es := [once (local_at 1970 1 1 1) 7200 10800 []]).
  assert (I1 : instant local_time (local_at 1970 1 1 1) (86400 * 0 + 3600 * 1)) by date_is.
  assert (O : forall x f o, onset es x f o <-> x = 3600 /\ f = 7200 /\ o = 10800).
  { intros x f o. split; [intros (e & [<-|[]] & H); apply (once_onset _ _ _ _ _ _ _ _ I1) in H; exact H|].
    intro H. eexists. split; [left; reflexivity|]. apply (once_onset _ _ _ _ _ _ _ _ I1). exact H. }
  assert (Q : forall y m d h k, instant local_time (local_at y m d h) k -> 1902 <= y <= 1978 -> question es 1980 (local_at y m d h) false k).
  { intros y m d h k I Y. split; [exact I|]. split; [cbn; lia|]. split; [cbn; lia|discriminate]. }
  exists no_zones, same, same, 1980, es. eexists. exists (local_at 1969 12 31 23), (86400 * -1 + 3600 * 23), 9%nat. eexists. exists 0.
  split; [intro; apply Permutation_refl|]. split; [intro; apply Permutation_refl|]. split; [lia|]. split; [exact C37_default_zone_ex|].
  split; [constructor; [|constructor]; eapply once_ok; [exact I1|cbn; lia|apply local_honest]|].
  split; [intros x f o H; apply O in H as (-> & -> & ->); split; reflexivity|].
  split; [intros x f o y g o' H H' _; apply O in H as (-> & -> & ->), H' as (-> & -> & ->); lia|].
  split; [eapply asked_offset with (fuel := 9%nat) (d := local_at 1968 12 31 0) (rel := false) (t := 86400 * -366 + 3600 * 0);
    [apply asked_new|apply Q; [apply local_is; [repeat split; vm_compute; congruence|right; split; [lia|vm_compute; reflexivity]]|lia]|vm_compute; reflexivity]|].
  split; [apply Q; [apply local_is; [repeat split; vm_compute; congruence|right; split; [lia|vm_compute; reflexivity]]|lia]|]. split; [vm_compute; reflexivity|].
  intros [[_ H]|(x & f & G & _)].
  - specialize (H 3600 7200 10800 ltac:(apply O; auto)). cbn in H. lia.
  - apply O in G as (_ & _ & G). discriminate G.
Qed.
Print Assumptions C37_utc_new_year_refuted.

(** C50. The descriptor is the name (or offset) of the element in force, if in the year of the
    question there was no recurring onset before it. *)
Theorem C50_before_changes : forall tzo order torder, permutes order -> shuffles torder ->
  forall top, top <= 2099 -> clock_ordered tzo local_time ->
  forall es, Forall (elem_ok tzo top) es -> whole_minutes es ->
  forall z d t, asked tzo order torder top es z -> question es top d false t -> quiet es d t ->
  exists N, forall fuel, (N <= fuel)%nat -> exists z' s,
    getTimezoneDescriptor tzo order fuel z d = Some (z', Ok s) /\ named es t s.
Proof. exact VTimezoneProofs3.name_in_force. Qed.
Print Assumptions C50_before_changes.
(** February 1972; the other premises are those of [C37_offset_ex]. *)
Example C50_before_changes_ex :
  question [winter; summer] 1980 (local_at 1972 2 1 12) false (86400 * 761 + 3600 * 12) /\ quiet [winter; summer] (local_at 1972 2 1 12) (86400 * 761 + 3600 * 12) /\
  exists z', getTimezoneDescriptor no_zones same 9 (vtz_init [winter; summer]) (local_at 1972 2 1 12) = Some (z', Ok (lit "(EST)")).
Proof.
  assert (I : instant local_time (local_at 1972 2 1 12) (86400 * 761 + 3600 * 12)) by date_is.
  split; [split; [exact I|split; [cbn; lia|split; [cbn; lia|discriminate]]]|]. split; [|eexists; vm_compute; reflexivity].
  intros e x f o n y He O L In MD Y. left. destruct (Z.lt_ge_cases x y) as [|G]; [assumption|exfalso].
  assert (M : exists e', instant local_time e' x /\ (mMonth e' = 10 \/ mMonth e' = 4)).
  { destruct He as [<-|[<-|[]]]; [apply (VTimezoneProofs3.yearly_onset _ _ _ _ _ _ 10) in O|apply (VTimezoneProofs3.yearly_onset _ _ _ _ _ _ 4) in O];
      try reflexivity; try (cbn; lia); destruct O as (_ & _ & e & J & M); exists e; auto. }
  destruct M as (e' & J & M). pose proof (VTimezoneProofs3.month_le n _ e' y x _ In MD Y I J G L) as H. cbn in H. lia.
Qed.

(** In July the descriptor is the one of the winter: the code looks only at onsets before
    1 January. *)
Theorem C50_descriptor_refuted : exists tzo order torder top es d t fuel z' s,
  permutes order /\ shuffles torder /\ top <= 2099 /\ clock_ordered tzo local_time /\ Forall (elem_ok tzo top) es /\ whole_minutes es /\
  question es top d false t /\ getTimezoneDescriptor tzo order fuel (vtz_init es) d = Some (z', Ok s) /\ ~ named es t s.
Proof.
  exists no_zones, same, same, 1980, [winter; summer], (local_at 1972 7 1 12), (86400 * 912 + 3600 * 12), 9%nat. eexists. exists (lit "(EST)").
  assert (I : instant local_time (local_at 1972 7 1 12) (86400 * 912 + 3600 * 12)) by date_is.
  split; [intro; apply Permutation_refl|]. split; [intro; apply Permutation_refl|]. split; [lia|]. split; [exact C37_default_zone_ex|].
  split; [exact seasons_ok|]. split; [exact seasons_whole|].
  split; [split; [exact I|split; [cbn; lia|split; [cbn; lia|discriminate]]]|]. split; [vm_compute; reflexivity|].
  intros [[E _]|(e & x & He & O & L & D & M)]; [discriminate E|].
  assert (W : e = winter) by (destruct He as [<-|[<-|[]]]; [reflexivity|discriminate D]). subst e.
  apply (VTimezoneProofs3.yearly_onset _ _ _ _ _ _ 10) in O; try reflexivity; [|cbn; lia]. destruct O as (_ & _ & e & J & Me).
  assert (Y : instant local_time (local_at 1972 1 1 0) (86400 * 730 + 3600 * 0)) by date_is.
  assert (A : instant local_time (local_at 1972 4 30 2) (86400 * 850 + 3600 * 2)) by date_is.
  assert (G : 86400 * 850 + 3600 * 2 <= x).
  { apply (M _ (-18000) (-14400)); [|lia]. exists summer. split; [right; left; reflexivity|]. split; [reflexivity|]. split; [reflexivity|].
    exists (86400 * 115 + 3600 * 2). split; [date_is|]. split; [lia|]. right. left.
    exists (rule_of "FREQ=YEARLY;BYMONTH=4;BYDAY=-1SU"), cache_init. split; [left; reflexivity|]. set (r := rule_of "FREQ=YEARLY;BYMONTH=4;BYDAY=-1SU"). vm_compute in r.
    exists None. split; [reflexivity|]. change (hasBy r) with true. cbv iota. split; [lia|]. split; [discriminate|].
    exists 2, (local_at 1972 4 26 2), (local_at 1972 4 30 2). split; [lia|]. split; [unfold r; repeat split; cbn; lia|]. split; [|exact A].
    unfold r. split; [repeat split|]. split; [repeat split|]. split; [intros _|intro N; exfalso; apply N; left; exact Logic.I].
    exists 4. split; [left; reflexivity|]. split; [intro N; exfalso; apply N; exact Logic.I|].
    split; [vm_compute; repeat split; congruence|]. split; [reflexivity|]. split; [reflexivity|]. split; [exact Logic.I|].
    split; [|cbn; tauto]. exists (-1, 0). split; [left; reflexivity|]. split; [|split].
    - exists 850. split; [left; split; [lia|vm_compute; reflexivity]|reflexivity].
    - cbn. lia.
    - intros _. apply nth_last with (k := 0); [vm_compute; repeat split; congruence|lia|left; split; [lia|reflexivity]|].
      exists 850. split; [left; split; [lia|vm_compute; reflexivity]|reflexivity]. }
  pose proof (VTimezoneProofs3.month_le _ (local_at 1972 7 1 12) e _ x _ Y eq_refl eq_refl I J ltac:(lia) L) as H. cbn in H. lia.
Qed.
Print Assumptions C50_descriptor_refuted.
