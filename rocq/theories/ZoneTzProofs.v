(** Proofs about the VTIMEZONE components written by the tz compiler: the days of a rule. *)
From Coq Require Import Lia ZifyBool ZifyNat Sorting.Permutation Sorting.Sorted.
From Verif Require Import PyBase PyProofs CalModel CalSpec DateTimeModel DateTimeSpec DateTimeSpec2 CalProofs DateTimeProofs DateTimeProofs2
  DateTimeProofs3 DateTimeProofs4 PeriodSpec PeriodProofs RecurModel RecurSpec RecurExpand RecurExpandSpec RecurSetSpec RecurTextProofs2 RecurSimpleProofs RecurByPartsSpec RecurByPartsProofs3
  RecurSetModel RecurUnionSpec VTimezoneModel VTimezoneSpec
  ZonalModel ZonalProofs ZonalProofs2 ZonalProofs4 ZoneTzModel ZoneTzSpec ZoneProofs.
Ltac Zify.zify_post_hook ::= Z.div_mod_to_equations.
Notation on_selects := ZonalSpec.selects.

Definition wd_at (y m d : Z) : Z := (4 + (gdn (y, m, d) - gdn (1970, 1, 1))) mod 7.
(** The local day of the rule in the month. *)
Definition window (y m : Z) (o : on) (sh d : Z) : Prop :=
  match o with
  | Last w => month_len greg_leap y m - 6 + sh <= d <= month_len greg_leap y m + sh /\ wd_at y m d = (w + sh) mod 7
  | AtLeast w n => n + sh <= d <= n + sh + 6 /\ wd_at y m d = (w + sh) mod 7
  | AtMost _ _ => False
  | Day n => d = n + sh
  end.
Lemma len_common y m : 1 <= m <= 12 -> month_len greg_leap 2001 m <= month_len greg_leap y m /\ (m <> 2 -> month_len greg_leap y m = month_len greg_leap 2001 m).
Proof.
  intro H. assert (C : m = 1 \/ m = 2 \/ m = 3 \/ m = 4 \/ m = 5 \/ m = 6 \/ m = 7 \/ m = 8 \/ m = 9 \/ m = 10 \/ m = 11 \/ m = 12) by lia.
  repeat (destruct C as [->|C]); try subst m; unfold month_len; cbn; try (destruct (greg_leap y)); try lia.
Qed.
Lemma len_30 m : 1 <= m <= 12 -> 28 <= month_len greg_leap 2001 m <= 31.
Proof.
  intro H. assert (C : m = 1 \/ m = 2 \/ m = 3 \/ m = 4 \/ m = 5 \/ m = 6 \/ m = 7 \/ m = 8 \/ m = 9 \/ m = 10 \/ m = 11 \/ m = 12) by lia.
  repeat (destruct C as [->|C]); try subst m; unfold month_len; cbn; lia.
Qed.
Lemma window_fun y m o sh d e : window y m o sh d -> window y m o sh e -> d = e.
Proof.
  destruct o as [w|w n|w n|n]; cbn [window]; unfold wd_at; rewrite ?(gdn_first y m d), ?(gdn_first y m e); lia.
Qed.
Lemma window_valid f off std y d : 1 <= fmMonth f <= 12 -> stays f off std -> window y (fmMonth f) (fmOn f) (moved f off std) d ->
  valid_date greg_leap (y, fmMonth f, d).
Proof.
  intros Hm S W. destruct (len_common y _ Hm) as [L E]. pose proof (len_30 _ Hm). unfold stays in S. unfold valid_date. split; [exact Hm|].
  destruct (fmOn f) as [w|w n|w n|n]; cbn [window] in W; try lia; try contradiction.
Qed.
(** The number of a day, counted in its month. *)
Definition in_month (y m : Z) (dd : date) : Z := gdn dd - gdn (y, m, 1) + 1.
Lemma in_month_same y m d : in_month y m (y, m, d) = d.
Proof. unfold in_month. rewrite (gdn_first y m d). lia. Qed.
Lemma in_month_is y m dd d : valid_date greg_leap dd -> valid_date greg_leap (y, m, d) -> in_month y m dd = d -> dd = (y, m, d).
Proof.
  intros V V' E. apply (dn_inj greg_leap Lg Lg_step); [exact V|exact V'|]. change (gdn dd = gdn (y, m, d)). rewrite (gdn_first y m d). unfold in_month in E. lia.
Qed.
Definition selw (y m : Z) (o : on) (d : Z) : Prop :=
  match o with
  | Last w => month_len greg_leap y m - 6 <= d <= month_len greg_leap y m /\ wd_at y m d = w
  | AtLeast w n => n <= d <= n + 6 /\ wd_at y m d = w
  | AtMost _ _ => False
  | Day n => d = n
  end.
Lemma sel_in_month y m o dd : 1 <= m <= 12 -> on_ok y m o -> (forall w n, o <> AtMost w n) ->
  (on_selects y m o dd <-> valid_date greg_leap dd /\ selw y m o (in_month y m dd)).
Proof.
  intros Hm Ho Na. unfold in_month. destruct o as [w|w n|w n|n]; cbn [on_selects selw on_ok] in *.
  - pose proof (valid_last greg_leap y m Hm) as Vl. split.
    + intro N. apply nth_back_gdn in N as (V & _ & R & W); [|exact Vl]. split; [exact V|].
      rewrite (gdn_first y m (month_len greg_leap y m)) in R. split; [lia|]. unfold wd_at. rewrite gdn_first. lia.
    + intros (V & R & W). apply nth_back_iff; [exact Vl|exact V|]. rewrite (gdn_first y m (month_len greg_leap y m)). split; [lia|]. split; [lia|].
      unfold wd_at in W. rewrite gdn_first in W. lia.
  - assert (Vn : valid_date greg_leap (y, m, n)) by (unfold valid_date; lia). split.
    + intro N. apply nth_from_gdn in N as (V & _ & R & W); [|exact Vn]. split; [exact V|].
      rewrite (gdn_first y m n) in R. split; [lia|]. unfold wd_at. rewrite gdn_first. lia.
    + intros (V & R & W). apply nth_from_iff; [exact Vn|exact V|]. rewrite (gdn_first y m n). split; [lia|]. split; [lia|].
      unfold wd_at in W. rewrite gdn_first in W. lia.
  - exfalso. eapply Na. reflexivity.
  - assert (Vn : valid_date greg_leap (y, m, n)) by (unfold valid_date; lia). split.
    + intros ->. split; [exact Vn|]. rewrite (gdn_first y m n). lia.
    + intros (V & E). apply (in_month_is y m dd n V Vn). exact E.
Qed.
Lemma stays_ok f off std y : 1 <= fmMonth f <= 12 -> stays f off std -> on_ok y (fmMonth f) (fmOn f).
Proof.
  intros Hm S. destruct (len_common y _ Hm) as [L E]. unfold stays in S. destruct (fmOn f); cbn [on_ok]; try lia; contradiction.
Qed.
Lemma stays_na f off std : stays f off std -> forall w n, fmOn f <> AtMost w n.
Proof. intros S w n E. unfold stays in S. rewrite E in S. exact S. Qed.
Lemma sel_range f off std y d : 1 <= fmMonth f <= 12 -> stays f off std -> selw y (fmMonth f) (fmOn f) d -> 1 <= d.
Proof.
  intros Hm S W. destruct (len_common y _ Hm) as [L E]. pose proof (len_30 _ Hm). unfold stays in S. destruct (fmOn f); cbn [selw] in W; try lia.
Qed.
Lemma later_year y m dd : 1 <= m <= 12 -> valid_date greg_leap dd -> 1 <= in_month y m dd -> y <= year_of dd.
Proof.
  intros Hm V H. destruct dd as ((y', m'), d'). cbn [year_of fst]. destruct (Z.le_gt_cases y y') as [|G]; [assumption|exfalso].
  pose proof (dn_lt_year greg_leap Lg Lg_step y' m' d' y m 1 V (valid_first greg_leap y m Hm) ltac:(lia)) as Q. unfold in_month, gdn, dnd in H. lia.
Qed.
Lemma hist_days dd k : 1752 < year_of dd -> valid_date greg_leap dd -> (days_between hist_leap (1970, 1, 1) dd k <-> gdn dd = gdn (1970, 1, 1) + k).
Proof.
  intros Hy V. destruct dd as ((y, m), d). cbn [year_of fst] in Hy. assert (V' : valid_date hist_leap (y, m, d)) by (apply valid_greg_hist; auto).
  rewrite hb by (auto using valid_1970). rewrite !gdn_hdn by lia. unfold dnd, hdn. tauto.
Qed.
Lemma window_sel f off std y d : 1 <= fmMonth f <= 12 -> stays f off std ->
  (window y (fmMonth f) (fmOn f) (moved f off std) d <-> selw y (fmMonth f) (fmOn f) (d - moved f off std)).
Proof.
  intros Hm S. unfold stays in S. destruct (fmOn f) as [w|w n|w n|n]; cbn [window selw]; unfold wd_at; rewrite ?(gdn_first _ _ d), ?(gdn_first _ _ (d - _)); try lia; tauto.
Qed.
Lemma days_window f off std y : 1752 < y -> 1 <= fmMonth f <= 12 -> stays f off std -> forall k,
  (exists dd j, on_selects y (fmMonth f) (fmOn f) dd /\ days_between hist_leap (1970, 1, 1) dd j /\ k = j + moved f off std) <->
  exists d, window y (fmMonth f) (fmOn f) (moved f off std) d /\ days_between hist_leap (1970, 1, 1) (y, fmMonth f, d) k.
Proof.
  intros Hy Hm S k. pose proof (stays_ok f off std y Hm S) as Ho. pose proof (stays_na f off std S) as Na. split.
  - intros (dd & j & Sl & D & ->). apply sel_in_month in Sl as (V & W); auto. pose proof (sel_range f off std y _ Hm S W) as R.
    pose proof (later_year _ _ _ Hm V R) as Y. apply hist_days in D; [|lia|exact V].
    exists (in_month y (fmMonth f) dd + moved f off std).
    assert (W' : window y (fmMonth f) (fmOn f) (moved f off std) (in_month y (fmMonth f) dd + moved f off std)).
    { apply window_sel; auto. replace (_ + _ - _) with (in_month y (fmMonth f) dd) by lia. exact W. }
    split; [exact W'|]. pose proof (window_valid f off std y _ Hm S W') as Vd. apply hist_days; [exact Hy|exact Vd|]. rewrite gdn_first. unfold in_month. lia.
  - intros (d & W & D). pose proof (window_valid f off std y d Hm S W) as Vd. apply hist_days in D; [|exact Hy|exact Vd].
    assert (E : exists dd, valid_date greg_leap dd /\ gdn dd = gdn (y, fmMonth f, d) - moved f off std).
    { assert (C : moved f off std = 0 \/ moved f off std = 1 \/ moved f off std = -1 \/ exists n, fmOn f = Day n).
      { unfold stays in S. destruct (fmOn f); try lia; eauto. }
      destruct C as [C|[C|[C|(n & C)]]]; rewrite ?C.
      - exists (y, fmMonth f, d). split; [exact Vd|lia].
      - destruct (days_back _ 1 Vd) as (b & Vb & Eb). exists b. split; [exact Vb|lia].
      - destruct (days_fwd _ 1 Vd) as (b & Vb & Eb). exists b. split; [exact Vb|lia].
      - exists (y, fmMonth f, n). rewrite C in W, Ho. cbn [window on_ok] in W, Ho. split; [unfold valid_date; lia|]. rewrite (gdn_first y (fmMonth f) d), (gdn_first y (fmMonth f) n). lia. }
    destruct E as (dd & V & E). exists dd, (k - moved f off std).
    assert (W' : selw y (fmMonth f) (fmOn f) (in_month y (fmMonth f) dd)).
    { apply window_sel in W; auto. unfold in_month. rewrite E, (gdn_first y _ d). replace (_ - _ + 1) with (d - moved f off std) by lia. exact W. }
    split; [apply sel_in_month; auto|]. split; [|lia]. apply hist_days; [|exact V|lia].
    pose proof (later_year _ _ _ Hm V (sel_range f off std y _ Hm S W')). lia.
Qed.
