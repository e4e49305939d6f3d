(** More proofs about DateTime: day-of-year, day-of-month, weekdays, ISO weeks. *)
From Coq Require Import Lia ZifyBool ZifyNat.
From Verif Require Import PyBase CalModel CalSpec DateTimeModel DateTimeSpec CalProofs DateTimeProofs.
Ltac Zify.zify_post_hook ::= Z.div_mod_to_equations.

Definition gdn (dd : date) : Z := dnd greg_leap Lg dd.

Lemma gb a b n : valid_date greg_leap a -> valid_date greg_leap b ->
  (days_between greg_leap a b n <-> gdn b = gdn a + n).
Proof. apply (days_between_dn greg_leap Lg Lg_step). Qed.

Lemma hb a b n : valid_date hist_leap a -> valid_date hist_leap b ->
  (days_between hist_leap a b n <-> dnd hist_leap Lh b = dnd hist_leap Lh a + n).
Proof. apply (days_between_dn hist_leap Lh Lh_step). Qed.

(** Valid dates are closed under moving by days. *)
Lemma days_between_valid leap a b n : days_between leap a b n ->
  valid_date leap a -> 0 <= n -> valid_date leap b.
Proof.
  intros [[H E]|[H E]] Va Hn; [|lia]. rewrite <- E.
  clear -Va. induction (Z.to_nat n) as [|k IH]; [exact Va|].
  change (valid_date leap (next_day leap (Nat.iter k (next_day leap) a))). apply next_day_valid. exact IH.
Qed.

Lemma valid_first leap y m : 1 <= m <= 12 -> valid_date leap (y, m, 1).
Proof. intro H. pose proof (month_len_bounds leap y m). unfold valid_date. lia. Qed.
Lemma valid_last leap y m : 1 <= m <= 12 -> valid_date leap (y, m, month_len leap y m).
Proof. intro H. pose proof (month_len_bounds leap y m). unfold valid_date. lia. Qed.

(** The effect of normalising a date with a day number out of range. *)
Lemma normalise_day d y m k : 1 <= m <= 12 -> valid_time (mHours d) (mMinutes d) (mSeconds d) ->
  (mDateOnly d = true -> secs_of_day d = 0) ->
  let r := normalise (with_ymd d y m k) in
  valid_dt r /\ hdn (mYear r) (mMonth r) (mDay r) = hdn y m k /\
  (mHours r, mMinutes r, mSeconds r) = (mHours d, mMinutes d, mSeconds d) /\
  mDateOnly r = mDateOnly d /\ mTZUTC r = mTZUTC d /\ mTZID r = mTZID d.
Proof.
  intros Hm Ht Hd. set (e := with_ymd d y m k). cbv zeta.
  pose proof (normalise_inmonth e Hm) as (V' & E & S & D & U & T & _).
  change (mDateOnly e) with (mDateOnly d) in *.
  assert (S0 : secs_of_day e = secs_of_day d) by reflexivity.
  assert (R : 0 <= secs_of_day d < 86400) by (unfold secs_of_day, valid_time in *; lia).
  assert (S' : secs_of_day (normalise e) = secs_of_day d).
  { rewrite S, S0. destruct (mDateOnly d); [symmetry; auto|]. lia. }
  split; [exact V'|]. split; [|split; [|auto]].
  - rewrite E, S0. change (hdn (mYear e) (mMonth e) (mDay e)) with (hdn y m k). lia.
  - destruct V' as (_ & Tv' & _). destruct (hms_unique _ _ _ _ _ _ Tv' Ht S') as (-> & -> & ->). reflexivity.
Qed.

Definition same_time (a b : dt) : Prop :=
  (mHours a, mMinutes a, mSeconds a, mDateOnly a, mTZUTC a, mTZID a) =
  (mHours b, mMinutes b, mSeconds b, mDateOnly b, mTZUTC b, mTZID b).

Lemma normalise_day' d y m k : 1 <= m <= 12 -> valid_dt d ->
  let r := normalise (with_ymd d y m k) in
  valid_dt r /\ hdn (mYear r) (mMonth r) (mDay r) = hdn y m k /\ same_time r d.
Proof.
  intros Hm (V & Ht & H0). cbv zeta.
  destruct (normalise_day d y m k Hm Ht H0) as (A & B & C & D & E & F).
  split; [exact A|]. split; [exact B|]. unfold same_time. congruence.
Qed.

Definition yearlen (y : Z) : Z := 365 + (if hist_leap y then 1 else 0).

Lemma hdn_jan1_next y : hdn (y + 1) 1 1 = hdn y 1 1 + yearlen y.
Proof.
  unfold hdn, dn, yearlen. rewrite Lh_step.
  change (upto hist_leap (y+1) 1) with 0. change (upto hist_leap y 1) with 0. lia.
Qed.
Lemma hdn_dec31 y : hdn y 12 31 = hdn y 1 1 + yearlen y - 1.
Proof. unfold hdn, dn, yearlen, upto. cbn [Z.eqb]. change (12 =? 1) with false. cbn. destruct (hist_leap y); lia. Qed.

(** ** setYearDay *)
Lemma setYearDay_spec d n : valid_dt d -> n <> 0 ->
  let r := setYearDay d n false in
  valid_dt r /\ same_time r d /\
  (0 < n -> days_between hist_leap (mYear d, 1, 1) (ymd r) (n - 1)) /\
  (n < 0 -> days_between hist_leap (mYear d, 12, 31) (ymd r) (n + 1)).
Proof.
  intros V Hn. cbv zeta. unfold setYearDay.
  rewrite isLeapYear_hist.
  assert (V1 : valid_date hist_leap (mYear d, 1, 1)) by (apply valid_first; lia).
  assert (V2 : valid_date hist_leap (mYear d, 12, 31)) by (cbn; lia).
  pose proof (hdn_dec31 (mYear d)) as HD. unfold yearlen in HD.
  destruct (Z.eqb_spec n 366) as [E|E]; [|destruct (Z.eqb_spec n (-366)) as [E'|E'];
    [|destruct (Z.ltb_spec 0 n); [|destruct (Z.ltb_spec n 0); [|lia]]]]; cbn [negb];
  match goal with |- context [normalise (with_ymd d ?y ?m ?k)] =>
    destruct (normalise_day' d y m k ltac:(lia) V) as (A & B & C);
    set (r := normalise (with_ymd d y m k)) in *
  end;
  (split; [exact A|]); (split; [exact C|]);
  split; intro Hs; try lia; apply hb; auto; try apply A;
  unfold dnd, ymd; fold hdn; fold (hdn (mYear r) (mMonth r) (mDay r)); unfold hdn in *; rewrite B;
  unfold dn in *; change (upto hist_leap (mYear d) 1) with 0 in *; destruct (hist_leap (mYear d)); lia.
Qed.

Lemma getYearDay_spec d n : valid_dt d ->
  (getYearDay d = Ok n <-> days_between hist_leap (mYear d, 1, 1) (ymd d) (n - 1)).
Proof.
  intro V. pose proof (valid_month d V) as Hm. unfold getYearDay.
  rewrite daysUptoMonth_r_ok by exact Hm. cbn [rbind].
  rewrite hb; [|apply valid_first; lia|apply V].
  unfold dnd, ymd, dn. change (upto hist_leap (mYear d) 1) with 0.
  split; intro H; [injection H as H; lia|f_equal; lia].
Qed.

Lemma same_year_range y y' m' d' k : valid_date hist_leap (y', m', d') ->
  days_between hist_leap (y, 1, 1) (y', m', d') k -> 0 <= k < yearlen y -> y' = y.
Proof.
  intros V B Hk. apply hb in B; [|apply valid_first; lia|exact V].
  unfold dnd in B. fold hdn in B.
  change (hdn y' m' d' = hdn y 1 1 + k) in B.
  pose proof (hdn_jan1_next y) as HN.
  assert (~ y' < y).
  { intro C. pose proof (dn_lt_year hist_leap Lh Lh_step y' m' d' y 1 1 V ltac:(apply valid_first; lia) C).
    unfold hdn in *. lia. }
  assert (~ y < y').
  { intro C. assert (y + 1 = y' \/ y + 1 < y') as [C'|C'] by lia.
    - subst y'. destruct V as [Hm Hd]. pose proof (upto_bounds hist_leap (y+1) m' Hm).
      unfold hdn, dn in *. change (upto hist_leap (y+1) 1) with 0 in *. lia.
    - pose proof (dn_lt_year hist_leap Lh Lh_step (y+1) 1 1 y' m' d' ltac:(apply valid_first; lia) V C').
      unfold hdn in *. lia. }
  lia.
Qed.

(** ** setMonthDay *)
Lemma setMonthDay_spec d n : valid_dt d -> n <> 0 ->
  exists r, setMonthDay d n false = Ok r /\ valid_dt r /\ same_time r d /\
  (0 < n -> days_between hist_leap (mYear d, mMonth d, 1) (ymd r) (n - 1)) /\
  (n < 0 -> days_between hist_leap (mYear d, mMonth d, month_len hist_leap (mYear d) (mMonth d)) (ymd r) (n + 1)).
Proof.
  intros V Hn. pose proof (valid_month d V) as Hm. unfold setMonthDay.
  rewrite daysInMonth_r_ok by exact Hm. cbn [rbind negb].
  destruct (Z.ltb_spec 0 n); [|destruct (Z.ltb_spec n 0); [|lia]]; cbn [rbind];
  match goal with |- context [normalise (with_ymd d ?y ?m ?k)] =>
    destruct (normalise_day' d y m k Hm V) as (A & B & C);
    set (r := normalise (with_ymd d y m k)) in *
  end; exists r; (split; [reflexivity|]); (split; [exact A|]); (split; [exact C|]);
  split; intro Hs; try lia; apply hb; auto using valid_first, valid_last; try apply A;
  unfold dnd, ymd; unfold hdn in *; rewrite B; unfold dn; lia.
Qed.

Lemma isMonthDay_spec d n : valid_dt d ->
  exists b, isMonthDay d n = Ok b /\
  (b = true <-> (0 < n /\ mDay d = n) \/
                (n < 0 /\ mDay d = month_len hist_leap (mYear d) (mMonth d) + 1 + n)).
Proof.
  intro V. pose proof (valid_month d V) as Hm. unfold isMonthDay.
  rewrite daysInMonth_r_ok by exact Hm. cbn [rbind].
  destruct (Z.ltb_spec 0 n); [|destruct (Z.ltb_spec n 0)]; eexists; (split; [reflexivity|]); lia.
Qed.

(** ** Weekdays in 1901..2100 *)
Lemma is_weekday_gdn dd w : valid_date greg_leap dd ->
  (is_weekday dd w <-> w = (4 + (gdn dd - gdn (1970,1,1))) mod 7).
Proof.
  intro V. unfold is_weekday. split.
  - intros (n & B & ->). apply gb in B; auto using valid_1970g. rewrite B. f_equal. lia.
  - intros ->. exists (gdn dd - gdn (1970,1,1)). split; [|reflexivity]. apply gb; auto using valid_1970g. lia.
Qed.

Lemma gdn_hdn y m d : 1752 < y -> gdn (y, m, d) = hdn y m d.
Proof. intro H. apply dn_greg_hist. exact H. Qed.

Lemma wd_ok d : 1 <= mMonth d <= 12 -> 1901 <= mYear d <= 2100 ->
  getDayOfWeek d = Ok ((4 + (hdn (mYear d) (mMonth d) (mDay d) - hdn 1970 1 1)) mod 7).
Proof. intros Hm Hy. rewrite getDayOfWeek_ok by exact Hm. rewrite code_days_ok by exact Hy. reflexivity. Qed.

Lemma getDayOfWeek_spec d w : 1901 <= mYear d <= 2100 -> valid_date greg_leap (ymd d) ->
  (getDayOfWeek d = Ok w <-> is_weekday (ymd d) w).
Proof.
  intros Hy V. pose proof V as [Hm _].
  rewrite wd_ok by (auto; lia). rewrite is_weekday_gdn by exact V.
  unfold ymd. rewrite !gdn_hdn by lia. split; [intro H; injection H as H; auto|intros ->; reflexivity].
Qed.

(** Characterisation of the n-th weekday relations by day numbers. *)
Lemma nth_from_gdn base w n dd : valid_date greg_leap base ->
  nth_wd_from base w n dd ->
  valid_date greg_leap dd /\ 1 <= n /\ 7 * (n - 1) <= gdn dd - gdn base < 7 * n /\
  w = (4 + (gdn dd - gdn (1970,1,1))) mod 7.
Proof.
  intros Vb H. induction H as [dd k Hk B W | n dd dd' H IH B].
  - pose proof (days_between_valid _ _ _ _ B Vb ltac:(lia)) as V. apply gb in B; auto.
    apply is_weekday_gdn in W; auto. repeat split; auto; lia.
  - destruct IH as (V & Hn & HI & HW). pose proof (days_between_valid _ _ _ _ B V ltac:(lia)) as V'.
    apply gb in B; auto. repeat split; auto; lia.
Qed.

Lemma days_back a : forall n : nat, valid_date greg_leap a -> exists b, valid_date greg_leap b /\ gdn b = gdn a - Z.of_nat n.
Proof.
  intros n V. destruct a as [[y m] d].
  set (e := newDateTime y m d 0 0 0 false TzNone).
  (* one day back at a time *)
  induction n as [|n (b & Vb & E)].
  - exists (y, m, d). split; auto. lia.
  - destruct b as [[y' m'] d'].
    destruct (Z.ltb_spec 1 d') as [H|H].
    + exists (y', m', d' - 1). split; [unfold valid_date in *; lia|]. unfold gdn, dnd, dn in *. lia.
    + destruct (Z.ltb_spec 1 m') as [H1|H1].
      * exists (y', m' - 1, month_len greg_leap y' (m' - 1)).
        pose proof (month_len_bounds greg_leap y' (m'-1)).
        split; [unfold valid_date in *; lia|].
        pose proof (upto_step greg_leap y' (m'-1)) as U. replace (m' - 1 + 1) with m' in U by lia.
        unfold valid_date in Vb. unfold gdn, dnd, dn in *. specialize (U ltac:(lia)). lia.
      * exists (y' - 1, 12, 31). split; [cbn; lia|].
        pose proof (dn_roll greg_leap Lg Lg_step (y'-1) 12 1 ltac:(lia)) as R.
        change (12 <? 12) with false in R. cbv iota in R. change (month_len greg_leap (y' - 1) 12) with 31 in R.
        replace (y' - 1 + 1) with y' in R by lia.
        unfold valid_date in Vb. assert (m' = 1) by lia. assert (d' = 1) by lia. subst m' d'.
        unfold gdn, dnd in *. unfold dn in *. lia.
Qed.

Lemma gdn_nth_from base w n dd : valid_date greg_leap base -> valid_date greg_leap dd ->
  1 <= n -> 7 * (n - 1) <= gdn dd - gdn base < 7 * n ->
  w = (4 + (gdn dd - gdn (1970,1,1))) mod 7 -> nth_wd_from base w n dd.
Proof.
  intros Vb V Hn. revert dd V. pattern n. apply Zlt_lower_bound_ind with (z := 1); [|exact Hn].
  clear n Hn. intros n IH Hn dd V HI HW.
  destruct (Z.eq_dec n 1) as [->|Hn1].
  - apply nth_first with (k := gdn dd - gdn base); [lia| apply gb; auto; lia | apply is_weekday_gdn; auto].
  - destruct (days_back dd 7 V) as (b & Vb' & E). change (Z.of_nat 7) with 7 in E.
    replace n with ((n - 1) + 1) by lia. apply nth_next with (dd := b).
    + apply IH; auto; lia.
    + apply gb; auto. lia.
Qed.

Lemma nth_back_gdn base w n dd : valid_date greg_leap base ->
  nth_wd_back base w n dd ->
  valid_date greg_leap dd /\ 1 <= n /\ 7 * (n - 1) <= gdn base - gdn dd < 7 * n /\
  w = (4 + (gdn dd - gdn (1970,1,1))) mod 7.
Proof.
  intros Vb H. induction H as [dd k V Hk B W | n dd dd' V' H IH B].
  - apply gb in B; auto. apply is_weekday_gdn in W; auto. repeat split; auto; lia.
  - destruct IH as (V & Hn & HI & HW). apply gb in B; auto. repeat split; auto; lia.
Qed.

Lemma days_fwd a : forall n : nat, valid_date greg_leap a -> exists b, valid_date greg_leap b /\ gdn b = gdn a + Z.of_nat n.
Proof.
  intros n V. exists (Nat.iter n (next_day greg_leap) a).
  apply (iter_valid greg_leap Lg Lg_step); exact V.
Qed.

Lemma gdn_nth_back base w n dd : valid_date greg_leap base -> valid_date greg_leap dd ->
  1 <= n -> 7 * (n - 1) <= gdn base - gdn dd < 7 * n ->
  w = (4 + (gdn dd - gdn (1970,1,1))) mod 7 -> nth_wd_back base w n dd.
Proof.
  intros Vb V Hn. revert dd V. pattern n. apply Zlt_lower_bound_ind with (z := 1); [|exact Hn].
  clear n Hn. intros n IH Hn dd V HI HW.
  destruct (Z.eq_dec n 1) as [->|Hn1].
  - apply nth_last with (k := gdn base - gdn dd); [auto|lia| apply gb; auto; lia | apply is_weekday_gdn; auto].
  - destruct (days_fwd dd 7 V) as (b & Vb' & E). change (Z.of_nat 7) with 7 in E.
    replace n with ((n - 1) + 1) by lia. apply nth_prev with (dd := b); [auto| |].
    + apply IH; auto; lia.
    + apply gb; auto.
Qed.

Lemma nth_from_iff base w n dd : valid_date greg_leap base -> valid_date greg_leap dd ->
  (nth_wd_from base w n dd <-> 1 <= n /\ 7 * (n - 1) <= gdn dd - gdn base < 7 * n /\
     w = (4 + (gdn dd - gdn (1970,1,1))) mod 7).
Proof.
  intros Vb V. split.
  - intro H. apply nth_from_gdn in H; auto. tauto.
  - intros (H1 & H2 & H3). apply gdn_nth_from; auto.
Qed.

Lemma nth_back_iff base w n dd : valid_date greg_leap base -> valid_date greg_leap dd ->
  (nth_wd_back base w n dd <-> 1 <= n /\ 7 * (n - 1) <= gdn base - gdn dd < 7 * n /\
     w = (4 + (gdn dd - gdn (1970,1,1))) mod 7).
Proof.
  intros Vb V. split.
  - intro H. apply nth_back_gdn in H; auto. tauto.
  - intros (H1 & H2 & H3). apply gdn_nth_back; auto.
Qed.

(** ** setDayOfWeekInMonth, setDayOfWeekInYear *)
(** Day numbers chosen by the code, for the month case. *)
Lemma dowim_day d n w ai : valid_dt d -> 1901 <= mYear d <= 2100 -> 0 <= w <= 6 -> n <> 0 ->
  exists k r, setDayOfWeekInMonth d n w ai = Ok r /\
    (ai = false -> r = normalise (with_ymd d (mYear d) (mMonth d) k)) /\
    (ai = true -> r = changed (with_ymd d (mYear d) (mMonth d) k)) /\
    w = (4 + (hdn (mYear d) (mMonth d) k - hdn 1970 1 1)) mod 7 /\
    (0 < n -> 7 * (n - 1) < k <= 7 * n) /\
    (n < 0 -> 7 * (- n - 1) <= month_len hist_leap (mYear d) (mMonth d) - k < 7 * (- n)).
Proof.
  intros V Hy Hw Hn. pose proof (valid_month d V) as Hm.
  unfold setDayOfWeekInMonth.
  rewrite wd_ok by (cbn; auto). cbn [with_ymd mYear mMonth mDay rbind].
  rewrite daysInMonth_r_ok by exact Hm. cbn [rbind].
  set (F := hdn (mYear d) (mMonth d) 1 - hdn 1970 1 1).
  assert (HF : forall k, hdn (mYear d) (mMonth d) k - hdn 1970 1 1 = F + (k - 1))
    by (intro k; subst F; unfold hdn, dn; lia).
  destruct (Z.ltb_spec 0 n); [|destruct (Z.ltb_spec n 0); [|lia]]; cbn [rbind];
  match goal with |- context [normalise (with_ymd _ ?y ?m ?kk)] => exists kk end;
  eexists; (split; [reflexivity|]);
  (split; [intros ->; reflexivity|]); (split; [intros ->; reflexivity|]);
  rewrite HF.
  - destruct (Z.ltb_spec w ((4 + F) mod 7)); repeat split; intros; try lia.
  - set (dim := month_len hist_leap (mYear d) (mMonth d)).
    destruct (Z.ltb_spec (((4 + F) mod 7 + dim - 1) mod 7) w); repeat split; intros; try lia.
Qed.

Lemma valid_gh d : valid_dt d -> 1752 < mYear d -> valid_date greg_leap (ymd d).
Proof. intros (V & _) H. unfold ymd in *. apply valid_greg_hist; auto. Qed.

Lemma base_valid_first y m : 1 <= m <= 12 -> valid_date greg_leap (y, m, 1).
Proof. apply valid_first. Qed.

Lemma hdn_inj a b : valid_date hist_leap a -> valid_date hist_leap b -> dnd hist_leap Lh a = dnd hist_leap Lh b -> a = b.
Proof. apply (dn_inj hist_leap Lh Lh_step). Qed.

Lemma setDayOfWeekInMonth_spec d n w dd : valid_dt d -> 1901 <= mYear d <= 2100 -> 0 <= w <= 6 ->
  valid_date greg_leap (mYear d, mMonth d, dd) ->
  (0 < n -> nth_wd_from (mYear d, mMonth d, 1) w n (mYear d, mMonth d, dd)) ->
  (n < 0 -> nth_wd_back (mYear d, mMonth d, month_len greg_leap (mYear d) (mMonth d)) w (- n) (mYear d, mMonth d, dd)) ->
  n <> 0 ->
  exists r, setDayOfWeekInMonth d n w false = Ok r /\ ymd r = (mYear d, mMonth d, dd) /\ same_time r d /\ valid_dt r.
Proof.
  intros V Hy Hw Vd HP HN Hn. pose proof (valid_month d V) as Hm.
  destruct (dowim_day d n w false V Hy Hw Hn) as (k & r & E & R & _ & W & P & N).
  specialize (R eq_refl).
  exists r. split; [exact E|]. clear E.
  assert (k = dd).
  { destruct (Z_lt_le_dec 0 n) as [Hp|Hp].
    - specialize (HP Hp). specialize (P Hp). apply nth_from_gdn in HP; [|apply valid_first; lia].
      destruct HP as (_ & _ & HI & HW). rewrite !gdn_hdn in * by lia.
      unfold hdn, dn in *. lia.
    - specialize (HN ltac:(lia)). specialize (N ltac:(lia)). apply nth_back_gdn in HN; [|apply valid_last; lia].
      destruct HN as (_ & _ & HI & HW). rewrite !gdn_hdn in * by lia.
      rewrite <- month_len_greg in * by lia.
      unfold hdn, dn in *. lia. }
  subst k. destruct (normalise_day' d (mYear d) (mMonth d) dd Hm V) as (A & B & C).
  rewrite R. split; [|auto].
  apply hdn_inj; [apply A| apply valid_greg_hist; auto; lia|exact B].
Qed.

Lemma isDayOfWeekInMonth_spec d n w : valid_dt d -> 1901 <= mYear d <= 2100 -> 0 <= w <= 6 ->
  exists b, isDayOfWeekInMonth d n w = Ok b /\
  (b = true <->
     is_weekday (ymd d) w /\
     (0 < n -> nth_wd_from (mYear d, mMonth d, 1) w n (ymd d)) /\
     (n < 0 -> nth_wd_back (mYear d, mMonth d, month_len greg_leap (mYear d) (mMonth d)) w (- n) (ymd d))).
Proof.
  intros V Hy Hw. pose proof (valid_month d V) as Hm.
  pose proof (valid_gh d V ltac:(lia)) as Vg.
  unfold isDayOfWeekInMonth. rewrite wd_ok by (auto; lia). cbn [rbind].
  pose proof (is_weekday_gdn (ymd d) w Vg) as IW. unfold ymd in IW at 2. rewrite !gdn_hdn in IW by lia.
  set (W := (4 + (hdn (mYear d) (mMonth d) (mDay d) - hdn 1970 1 1)) mod 7).
  destruct (Z.eqb_spec W w) as [EW|EW]; cbn [negb].
  2:{ exists false. split; [reflexivity|]. split; [discriminate|]. intros (H & _). apply IW in H. lia. }
  destruct (Z.eqb_spec n 0) as [En|En].
  { exists true. split; [reflexivity|]. split; [|reflexivity]. intros _. split; [apply IW; lia|]. split; lia. }
  destruct (dowim_day d n w false V Hy Hw En) as (k & r & E & R & _ & Wk & P & N).
  rewrite E. cbn [rbind]. eexists. split; [reflexivity|].
  specialize (R eq_refl). clear E.
  destruct (normalise_day' d (mYear d) (mMonth d) k Hm V) as (A & B & C). rewrite <- R in *. clear R.
  assert (CD : compareDate d r = true <-> ymd d = ymd r).
  { unfold compareDate, ymd. rewrite !andb_true_iff, !Z.eqb_eq. split; [intros [[-> ->] ->]; reflexivity|].
    intro H; injection H; auto. }
  rewrite CD.
  assert (EQ : ymd d = ymd r <-> mDay d = k).
  { split.
    - intro H. unfold ymd in H. injection H as H1 H2 H3. rewrite <- H1, <- H2, <- H3 in B.
      unfold hdn, dn in B. lia.
    - intros Hk. apply hdn_inj; [apply V|apply A|]. unfold dnd, ymd. symmetry. rewrite <- Hk in B. exact B. }
  rewrite EQ. clear CD EQ A B C.
  split.
  - intros <-. split; [apply IW; lia|]. split; intro H.
    + specialize (P H). apply nth_from_iff; auto using valid_first.
      unfold ymd; rewrite !gdn_hdn by lia. unfold hdn, dn in *. lia.
    + specialize (N H). apply nth_back_iff; auto using valid_last.
      unfold ymd; rewrite !gdn_hdn by lia. rewrite <- month_len_greg by lia. unfold hdn, dn in *. lia.
  - intros (_ & H1 & H2). destruct (Z_lt_le_dec 0 n) as [Hp|Hp].
    + specialize (H1 Hp). specialize (P Hp). apply nth_from_gdn in H1; auto using valid_first.
      destruct H1 as (_ & _ & HI & HW). unfold ymd in *; rewrite !gdn_hdn in * by lia. unfold hdn, dn in *. lia.
    + specialize (H2 ltac:(lia)). specialize (N ltac:(lia)). apply nth_back_gdn in H2; auto using valid_last.
      destruct H2 as (_ & _ & HI & HW). unfold ymd in *; rewrite !gdn_hdn in * by lia.
      rewrite <- month_len_greg in * by lia. unfold hdn, dn in *. lia.
Qed.

Lemma setDayOfWeekInYear_spec d n w dd : valid_dt d -> 1901 <= mYear d <= 2100 -> 0 <= w <= 6 ->
  valid_date greg_leap dd -> fst (fst dd) = mYear d ->
  (0 < n -> nth_wd_from (mYear d, 1, 1) w n dd) ->
  (n < 0 -> nth_wd_back (mYear d, 12, 31) w (- n) dd) ->
  n <> 0 ->
  exists r, setDayOfWeekInYear d n w = Ok r /\ ymd r = dd /\ same_time r d /\ valid_dt r.
Proof.
  intros V Hy Hw Vd Hyy HP HN Hn. destruct dd as [[y' m'] d']. cbn [fst] in Hyy. subst y'.
  unfold setDayOfWeekInYear. rewrite wd_ok by (cbn; lia). cbn [with_ymd mYear mMonth mDay rbind].
  set (F := hdn (mYear d) 1 1 - hdn 1970 1 1).
  rewrite isLeapYear_hist. fold (yearlen (mYear d)).
  match goal with |- context [normalise (with_ymd _ ?y ?m ?kk)] => set (k := kk) end.
  eexists. split; [reflexivity|].
  change (with_ymd (with_ymd d (mYear d) 1 1) (mYear d) 1 k) with (with_ymd d (mYear d) 1 k).
  destruct (normalise_day' d (mYear d) 1 k ltac:(lia) V) as (A & B & C).
  split; [|auto].
  apply hdn_inj; [apply A|apply valid_greg_hist; auto; lia|].
  unfold dnd, ymd. unfold hdn in B. rewrite B.
  assert (HF : hdn (mYear d) 1 k = hdn (mYear d) 1 1 + k - 1) by (unfold hdn, dn; lia).
  change (hdn (mYear d) 1 k = hdn (mYear d) m' d'). rewrite HF.
  pose proof (hdn_dec31 (mYear d)) as H31.
  destruct (Z_lt_le_dec 0 n) as [Hp|Hp].
  - specialize (HP Hp). apply nth_from_gdn in HP; [|apply valid_first; lia].
    destruct HP as (_ & _ & HI & HW). rewrite !gdn_hdn in * by lia.
    subst k. destruct (Z.ltb_spec 0 n); [|lia]. cbv zeta. destruct (Z.ltb_spec w ((4 + F) mod 7)); lia.
  - specialize (HN ltac:(lia)). apply nth_back_gdn in HN; [|cbn; lia].
    destruct HN as (_ & _ & HI & HW). rewrite !gdn_hdn in * by lia.
    subst k. destruct (Z.ltb_spec 0 n); [lia|]. destruct (Z.ltb_spec n 0); [|lia]. cbv zeta.
    destruct (Z.ltb_spec (((4 + F) mod 7 + yearlen (mYear d) - 1) mod 7) w); lia.
Qed.

(** setNextDayOfWeek: the first weekday w on or after day [start] of the month. *)
Lemma setNextDayOfWeek_spec d start w : valid_dt d -> 1901 <= mYear d <= 2100 -> 0 <= w <= 6 ->
  valid_date greg_leap (mYear d, mMonth d, start) ->
  exists r, setNextDayOfWeek d start w = Ok r /\ valid_dt r /\ same_time r d /\
    nth_wd_from (mYear d, mMonth d, start) w 1 (ymd r).
Proof.
  intros V Hy Hw Vs. pose proof (valid_month d V) as Hm.
  unfold setNextDayOfWeek. rewrite wd_ok by (cbn; auto). cbn [with_ymd mYear mMonth mDay rbind].
  match goal with |- context [normalise (with_ymd _ ?y ?m ?kk)] => set (k := kk) end.
  eexists. split; [reflexivity|].
  change (with_ymd (with_ymd d (mYear d) (mMonth d) start) (mYear d) (mMonth d) k) with (with_ymd d (mYear d) (mMonth d) k).
  destruct (normalise_day' d (mYear d) (mMonth d) k Hm V) as (A & B & C).
  set (r := normalise (with_ymd d (mYear d) (mMonth d) k)) in *.
  split; [exact A|]. split; [exact C|].
  assert (K : start <= k < start + 7 /\ w = (4 + (hdn (mYear d) (mMonth d) k - hdn 1970 1 1)) mod 7).
  { subst k. cbv zeta. set (G := hdn (mYear d) (mMonth d) start - hdn 1970 1 1) in *.
    destruct (Z.ltb_spec w ((4 + G) mod 7)); (split; [lia|]); unfold hdn, dn in *; lia. }
  destruct K as [K1 K2].
  assert (Hyr : 1901 <= mYear r).
  { destruct (Z_lt_le_dec (mYear r) 1901) as [C1|]; [|lia].
    exfalso. pose proof (dn_lt_year hist_leap Lh Lh_step (mYear r) (mMonth r) (mDay r) (mYear d) (mMonth d) start
      ltac:(apply A) ltac:(apply valid_greg_hist; auto; lia) ltac:(lia)) as L.
    unfold hdn in B. unfold dn in *. lia. }
  apply gdn_nth_from; auto; [apply valid_gh; auto; lia|lia| |];
    unfold ymd; rewrite !gdn_hdn by lia; rewrite B; [unfold hdn, dn; lia|exact K2].
Qed.
