(** ISO week numbers. *)
From Coq Require Import Lia ZifyBool ZifyNat.
From Verif Require Import PyBase CalModel CalSpec DateTimeModel DateTimeSpec CalProofs DateTimeProofs DateTimeProofs2.
Ltac Zify.zify_post_hook ::= Z.div_mod_to_equations.

(** Day number relative to 1970-01-01. *)
Definition rd (y m d : Z) : Z := hdn y m d - hdn 1970 1 1.

Lemma wd_rd d : 1 <= mMonth d <= 12 -> 1901 <= mYear d <= 2100 ->
  getDayOfWeek d = Ok ((4 + rd (mYear d) (mMonth d) (mDay d)) mod 7).
Proof. apply wd_ok. Qed.

Lemma yd_rd d : valid_dt d -> getYearDay d = Ok (rd (mYear d) (mMonth d) (mDay d) - rd (mYear d) 1 1 + 1).
Proof.
  intro V. apply getYearDay_spec; [exact V|].
  apply hb; [apply valid_first; lia|apply V|]. unfold dnd, ymd, rd, hdn. lia.
Qed.

Lemma yearlen_bounds y : 365 <= yearlen y <= 366.
Proof. unfold yearlen. destruct (hist_leap y); lia. Qed.

Lemma rd_year y m d : valid_date hist_leap (y, m, d) -> 0 <= rd y m d - rd y 1 1 < yearlen y.
Proof.
  intros [Hm Hd]. pose proof (upto_bounds hist_leap y m Hm). unfold rd, hdn, dn, yearlen.
  change (upto hist_leap y 1) with 0. pose proof (upto_dec hist_leap y). destruct (hist_leap y); lia.
Qed.

Lemma rd_next y : rd (y + 1) 1 1 = rd y 1 1 + yearlen y.
Proof. unfold rd. rewrite hdn_jan1_next. lia. Qed.

Lemma valid_dec31 y : valid_dt (newDate y 12 31 false TzNone).
Proof. unfold valid_dt, ymd, secs_of_day. cbn. unfold valid_time. lia. Qed.

(** The Thursday of the week, as an offset [k] from 1 January of the year it falls in. *)
Definition wk_of (D c : Z) : Z := D + 4 - c.

Definition isoc (D : Z) : Z := if (4 + D) mod 7 =? 0 then 7 else (4 + D) mod 7.
Lemma isoc_range D : 1 <= isoc D <= 7.
Proof. unfold isoc. destruct (Z.eqb_spec ((4 + D) mod 7) 0); lia. Qed.
Lemma isoc_mod D : (isoc D) mod 7 = (4 + D) mod 7.
Proof. unfold isoc. destruct (Z.eqb_spec ((4 + D) mod 7) 0); lia. Qed.

Lemma getWeekNo_ok d : valid_dt d -> 1901 <= mYear d <= 2100 ->
  exists n yy, getWeekNo d = Ok n /\
    let th := rd (mYear d) (mMonth d) (mDay d) + 4 - isoc (rd (mYear d) (mMonth d) (mDay d)) in
    mYear d - 1 <= yy <= mYear d + 1 /\ 1901 <= yy /\
    rd yy 1 1 <= th < rd yy 1 1 + yearlen yy /\ n = (th - rd yy 1 1) / 7 + 1.
Proof.
  intros V Hy. pose proof (valid_month d V) as Hm.
  unfold getWeekNo. cbn [getWeekNo_f].
  rewrite wd_rd by (auto; lia). cbn [rbind].
  fold (isoc (rd (mYear d) (mMonth d) (mDay d))).
  rewrite yd_rd by exact V. cbn [rbind].
  pose proof (rd_year _ _ _ (proj1 V)) as HR.
  set (D := rd (mYear d) (mMonth d) (mDay d)) in *. set (Y := rd (mYear d) 1 1) in *.
  pose proof (yearlen_bounds (mYear d)) as YL.
  pose proof (rd_next (mYear d)) as RN. fold Y in RN.
  pose proof (isoc_range D) as CR. pose proof (isoc_mod D) as CM. set (c := isoc D) in *.
  destruct (Z.eqb_spec ((D - Y + 1 - c + 10) / 7) 0) as [E0|E0];
    [|destruct (Z.eqb_spec ((D - Y + 1 - c + 10) / 7) 53) as [E53|E53]].
  - (* the week belongs to the previous year *)
    destruct (Z.eq_dec (mYear d) 1901) as [E1|E1].
    { exfalso. assert (Y = -25202) by (subst Y; rewrite E1; reflexivity). lia. }
    pose proof (rd_next (mYear d - 1)) as RP. replace (mYear d - 1 + 1) with (mYear d) in RP by lia. fold Y in RP.
    pose proof (yearlen_bounds (mYear d - 1)) as YL'.
    rewrite wd_rd by (cbn [newDate newDateTime mMonth mYear]; lia).
    cbn [rbind newDate newDateTime mYear mMonth mDay].
    change (if _ =? 0 then 7 else _) with (isoc (rd (mYear d - 1) 12 31)).
    rewrite (yd_rd (newDate (mYear d - 1) 12 31 false TzNone) (valid_dec31 _)).
    cbn [rbind newDate newDateTime mYear mMonth mDay].
    assert (D31 : rd (mYear d - 1) 12 31 = Y - 1).
    { unfold rd in *. rewrite hdn_dec31. subst Y. lia. }
    rewrite D31. set (P := rd (mYear d - 1) 1 1) in *.
    pose proof (isoc_range (Y - 1)) as CR1. pose proof (isoc_mod (Y - 1)) as CM1. set (c1 := isoc (Y - 1)) in *.
    destruct (Z.eqb_spec ((Y - 1 - P + 1 - c1 + 10) / 7) 0) as [E2|E2]; [lia|].
    exists ((D + 4 - c - P) / 7 + 1), (mYear d - 1).
    split; [|cbv zeta; fold D; fold c; fold P; lia].
    destruct (Z.eqb_spec ((Y - 1 - P + 1 - c1 + 10) / 7) 53) as [E3|E3].
    + rewrite wd_rd by (cbn [newDate newDateTime mMonth mYear]; lia).
      cbn [rbind newDate newDateTime mYear mMonth mDay].
      replace (mYear d - 1 + 1) with (mYear d) by lia. fold Y. unfold mo_to_th.
      destruct (Z.leb_spec 1 ((4 + Y) mod 7)); destruct (Z.leb_spec ((4 + Y) mod 7) 4); cbn [andb]; f_equal; lia.
    + f_equal. lia.
  - set (W := getDayOfWeek (newDate (mYear d + 1) 1 1 false TzNone)).
    assert (exists w, W = Ok w /\ mo_to_th w = mo_to_th ((4 + (Y + yearlen (mYear d))) mod 7)) as (w & EW & Ew).
    { destruct (Z.eq_dec (mYear d) 2100) as [E1|E1].
      - subst W Y. rewrite E1. eexists. split; [reflexivity|]. reflexivity.
      - subst W. rewrite wd_rd by (cbn [newDate newDateTime mMonth mYear]; lia).
        cbn [newDate newDateTime mYear mMonth mDay]. rewrite RN. eexists; split; reflexivity. }
    rewrite EW. cbn [rbind]. rewrite Ew. clear EW Ew W w. unfold mo_to_th.
    destruct (Z_lt_le_dec (D + 4 - c) (Y + yearlen (mYear d))) as [HL|HL].
    + exists 53, (mYear d). split; [|cbv zeta; fold D; fold c; fold Y; lia].
      destruct (Z.leb_spec 1 ((4 + (Y + yearlen (mYear d))) mod 7));
      destruct (Z.leb_spec ((4 + (Y + yearlen (mYear d))) mod 7) 4); cbn [andb]; f_equal; lia.
    + exists 1, (mYear d + 1). pose proof (yearlen_bounds (mYear d + 1)).
      split; [|cbv zeta; fold D; fold c; rewrite RN; lia].
      destruct (Z.leb_spec 1 ((4 + (Y + yearlen (mYear d))) mod 7));
      destruct (Z.leb_spec ((4 + (Y + yearlen (mYear d))) mod 7) 4); cbn [andb]; f_equal; lia.
  - exists ((D - Y + 1 - c + 10) / 7), (mYear d). split; [reflexivity|].
    cbv zeta; fold D; fold c; fold Y; lia.
Qed.

Lemma gdn_rd y m d : 1752 < y -> gdn (y, m, d) - gdn (1970,1,1) = rd y m d.
Proof. intro H. rewrite !gdn_hdn by lia. reflexivity. Qed.

(** A date with a given day number exists. *)
Lemma gdn_surj a (k : Z) : valid_date greg_leap a -> exists b, valid_date greg_leap b /\ gdn b = gdn a + k.
Proof.
  intro V. destruct (Z_lt_le_dec k 0).
  - destruct (days_back a (Z.to_nat (- k)) V) as (b & H1 & H2). exists b. split; [exact H1|lia].
  - destruct (days_fwd a (Z.to_nat k) V) as (b & H1 & H2). exists b. split; [exact H1|lia].
Qed.

Lemma g_year_range y y' m' d' : 1753 < y -> valid_date greg_leap (y', m', d') ->
  rd y 1 1 <= gdn (y', m', d') - gdn (1970,1,1) < rd y 1 1 + yearlen y -> y' = y.
Proof.
  intros Hy V H.
  assert (V1 : valid_date greg_leap (y, 1, 1)) by (apply valid_first; lia).
  assert (E1 : gdn (y, 1, 1) - gdn (1970,1,1) = rd y 1 1) by (apply gdn_rd; lia).
  destruct (Z_lt_le_dec y' y) as [C|C].
  { pose proof (dn_lt_year greg_leap Lg Lg_step y' m' d' y 1 1 V V1 C). unfold gdn, dnd in *. lia. }
  destruct (Z.eq_dec y' y) as [E|E]; [exact E|].
  pose proof (valid_greg_hist y' m' d' ltac:(lia)) as VH.
  rewrite gdn_rd in H by lia.
  assert (V' : valid_date hist_leap (y', m', d')) by (apply VH; exact V).
  apply (same_year_range y y' m' d' (rd y' m' d' - rd y 1 1) V'); [|lia].
  apply hb; [apply valid_first; lia|exact V'|]. unfold dnd, rd, hdn. lia.
Qed.

Lemma getWeekNo_iso d : valid_dt d -> 1901 <= mYear d <= 2100 ->
  exists n, getWeekNo d = Ok n /\ iso_week (ymd d) n.
Proof.
  intros V Hy. destruct (getWeekNo_ok d V Hy) as (n & yy & E & H). cbv zeta in H.
  destruct H as (Hyy & Hyy1 & Hth & Hn).
  exists n. split; [exact E|].
  pose proof (valid_gh d V ltac:(lia)) as Vg.
  set (D := rd (mYear d) (mMonth d) (mDay d)) in *.
  assert (GD : gdn (ymd d) - gdn (1970,1,1) = D) by (apply gdn_rd; lia).
  clearbody D.
  destruct (gdn_surj (ymd d) (4 - isoc D) Vg) as ([[y' m'] d'] & Vt & Et).
  assert (y' = yy) by (apply (g_year_range yy y' m' d'); [lia|exact Vt|]; rewrite Et; clear - GD Hth; lia). subst y'.
  exists ((4 + D) mod 7), yy, m', d', (gdn (yy, m', d') - gdn (yy, 1, 1)).
  split; [apply is_weekday_gdn; auto; rewrite GD; reflexivity|].
  split; [apply gb; auto|]. split; [exact Vt|]. split; [apply gb; [apply valid_first; lia|exact Vt|lia]|].
  subst n. f_equal. f_equal. pose proof (gdn_rd yy 1 1 ltac:(lia)). lia.
Qed.

Lemma iso_week_fun dd a b : valid_date greg_leap dd -> iso_week dd a -> iso_week dd b -> a = b.
Proof.
  intros V (w & y & m & d & k & H1 & H2 & H3 & H4 & ->) (w' & y' & m' & d' & k' & H1' & H2' & H3' & H4' & ->).
  apply is_weekday_gdn in H1, H1'; auto. subst w'.
  rewrite <- H1 in *.
  apply gb in H2, H2'; auto.
  assert (E : (y, m, d) = (y', m', d')).
  { apply (dn_inj greg_leap Lg Lg_step); auto. unfold gdn in *. lia. }
  injection E as -> -> ->.
  assert (valid_date greg_leap (y', 1, 1)) by (apply valid_first; lia).
  apply gb in H4, H4'; auto. f_equal. f_equal. lia.
Qed.

Lemma getWeekNo_iff d n : valid_dt d -> 1901 <= mYear d <= 2100 ->
  (getWeekNo d = Ok n <-> iso_week (ymd d) n).
Proof.
  intros V Hy. destruct (getWeekNo_iso d V Hy) as (k & E & I).
  pose proof (valid_gh d V ltac:(lia)) as Vg.
  rewrite E. split; [intro H; injection H as <-; exact I|].
  intro H. f_equal. apply (iso_week_fun (ymd d)); auto.
Qed.

Lemma isWeekNo_iff d n : valid_dt d -> 1901 <= mYear d <= 2100 ->
  exists b, isWeekNo d n = Ok b /\ (b = true <-> 0 < n /\ iso_week (ymd d) n).
Proof.
  intros V Hy. unfold isWeekNo. destruct (Z.ltb_spec 0 n).
  - destruct (getWeekNo_iso d V Hy) as (k & E & I). rewrite E. cbn [rbind]. eexists. split; [reflexivity|].
    rewrite <- getWeekNo_iff, E by auto. rewrite Z.eqb_eq. split; [intros ->; auto|]. intros [_ H1]; injection H1; auto.
  - exists false. split; [reflexivity|]. split; [discriminate|lia].
Qed.

(** setWeekNo: the code's day arithmetic. *)
Lemma offsetYear_m1 d : valid_dt d -> valid_dt (offsetYear d (-1)) /\ mYear (offsetYear d (-1)) = mYear d - 1 /\ same_time (offsetYear d (-1)) d.
Proof.
  intro V. pose proof (valid_month d V) as Hm. unfold offsetYear.
  destruct (normalise_day' d (mYear d + -1) (mMonth d) (mDay d) Hm V) as (A & B & C).
  split; [exact A|]. split; [|exact C].
  set (r := normalise (with_ymd d (mYear d + -1) (mMonth d) (mDay d))) in *.
  replace (mYear d + -1) with (mYear d - 1) in B by lia.
  apply (same_year_range (mYear d - 1) _ (mMonth r) (mDay r) (hdn (mYear d - 1) (mMonth d) (mDay d) - hdn (mYear d - 1) 1 1)); [apply A| |].
  - apply hb; [apply valid_first; lia|apply A|]. unfold dnd. unfold hdn in *. lia.
  - destruct V as ((_ & Hd) & _). 
    pose proof (upto_bounds hist_leap (mYear d - 1) (mMonth d) Hm) as U.
    pose proof (upto_dec hist_leap (mYear d - 1)) as U12.
    unfold hdn, dn. change (upto hist_leap (mYear d - 1) 1) with 0.
    split; [lia|].
    assert (month_len hist_leap (mYear d) (mMonth d) <= month_len hist_leap (mYear d - 1) (mMonth d) + (if mMonth d =? 2 then 1 else 0)) as ML.
    { unfold month_len. destruct (Z.eqb_spec (mMonth d) 2); [destruct (hist_leap (mYear d)), (hist_leap (mYear d - 1)); lia|lia]. }
    unfold yearlen in *. cbn [ymd] in Hd.
    destruct (Z.eqb_spec (mMonth d) 2) as [E|E]; [|destruct (hist_leap (mYear d - 1)); lia].
    rewrite E. change (upto hist_leap (mYear d - 1) 2) with 31. 
    rewrite E in Hd. pose proof (month_len_bounds hist_leap (mYear d) 2). destruct (hist_leap (mYear d - 1)); lia.
Qed.

Lemma setWeekNo_day d n : valid_dt d -> 1901 <= mYear d <= 2100 ->
  getWeekNo d <> Ok n ->
  let f := (4 + rd (mYear d) 1 1) mod 7 in
  let c := (4 + rd (mYear d) (mMonth d) (mDay d)) mod 7 in
  exists r, setWeekNo d n = Ok r /\ valid_dt r /\ same_time r d /\
    rd (mYear r) (mMonth r) (mDay r) = rd (mYear d) 1 1 + (if mo_to_th f then n - 1 else n) * 7 + c - f.
Proof.
  intros V Hy Hw. cbv zeta. pose proof (valid_month d V) as Hm.
  unfold setWeekNo. destruct (getWeekNo_iso d V Hy) as (k & E & _). rewrite E in *. cbn [rbind].
  destruct (Z.eqb_spec k n) as [->|Hk]; [congruence|]. clear Hw.
  rewrite (wd_rd (newDate (mYear d) 1 1 false TzNone)) by (cbn [newDate newDateTime mMonth mYear]; lia).
  cbn [rbind newDate newDateTime mYear mMonth mDay].
  rewrite (wd_rd d) by (auto; lia). cbn [rbind].
  set (f := (4 + rd (mYear d) 1 1) mod 7). set (c := (4 + rd (mYear d) (mMonth d) (mDay d)) mod 7).
  set (t := if mo_to_th f then (n - 1) * 7 + c - f else n * 7 + c - f).
  replace (rd (mYear d) 1 1 + (if mo_to_th f then n - 1 else n) * 7 + c - f) with (rd (mYear d) 1 1 + t)
    by (subst t; destruct (mo_to_th f); lia).
  eexists. split; [reflexivity|].
  destruct (Z.ltb_spec t 0).
  - destruct (offsetYear_m1 d V) as (V' & Y' & T').
    destruct (setYearDay_spec _ t V' ltac:(lia)) as (A & B & _ & C). specialize (C ltac:(lia)).
    split; [exact A|]. split; [unfold same_time in *; congruence|].
    apply hb in C; [|cbn; lia|apply A]. rewrite Y' in C.
    pose proof (rd_next (mYear d - 1)) as RN. replace (mYear d - 1 + 1) with (mYear d) in RN by lia.
    pose proof (hdn_dec31 (mYear d - 1)).
    unfold dnd, ymd in C. unfold rd, hdn in *. lia.
  - destruct (setYearDay_spec d (t + 1) V ltac:(lia)) as (A & B & C & _). specialize (C ltac:(lia)).
    split; [exact A|]. split; [exact B|].
    apply hb in C; [|apply valid_first; lia|apply A]. unfold dnd, ymd in C. unfold rd, hdn in *. lia.
Qed.

(** The result of setWeekNo as an ISO week date, with the week the code really picks. *)
Definition picked (y n w1 w : Z) : Z := n + (if w =? 0 then (if w1 =? 0 then 0 else -1) else (if w1 =? 0 then 1 else 0)).

Lemma rd_year_ge y m d : valid_date hist_leap (y, m, d) -> rd 1901 1 1 <= rd y m d -> 1901 <= y.
Proof.
  intros V H. destruct (Z_lt_le_dec y 1901) as [C|C]; [|lia].
  pose proof (dn_lt_year hist_leap Lh Lh_step y m d 1901 1 1 V ltac:(apply valid_first; lia) C). unfold rd, hdn in *. lia.
Qed.

Lemma setWeekNo_date d n w1 w : valid_dt d -> 1902 <= mYear d <= 2100 -> 1 <= n ->
  is_weekday (mYear d, 1, 1) w1 -> is_weekday (ymd d) w ->
  ~ iso_week (ymd d) n -> 1 <= picked (mYear d) n w1 w ->
  exists r, setWeekNo d n = Ok r /\ valid_dt r /\ same_time r d /\
    iso_week_date (mYear d) (picked (mYear d) n w1 w) w (ymd r).
Proof.
  intros V Hy Hn W1 W Hw Hp.
  pose proof (valid_gh d V ltac:(lia)) as Vg.
  assert (V1 : valid_date greg_leap (mYear d, 1, 1)) by (apply valid_first; lia).
  destruct (setWeekNo_day d n V ltac:(lia)) as (r & E & Vr & T & R).
  { rewrite getWeekNo_iff by (auto; lia). exact Hw. }
  exists r. split; [exact E|]. split; [exact Vr|]. split; [exact T|].
  apply is_weekday_gdn in W1; [|exact V1]. apply is_weekday_gdn in W; [|exact Vg].
  unfold ymd in W. rewrite gdn_rd in W1, W by lia.
  rewrite <- W1, <- W in R.
  pose proof (rd_year _ _ _ (proj1 V)) as RY.
  set (Y := rd (mYear d) 1 1) in *. set (D := rd (mYear d) (mMonth d) (mDay d)) in *.
  assert (HY : rd 1901 1 1 + 365 <= Y).
  { pose proof (rd_next 1901). pose proof (yearlen_bounds 1901). change (1901 + 1) with 1902 in *.
    destruct (Z.eq_dec (mYear d) 1902) as [E2|E2]; [subst Y; rewrite E2; lia|].
    pose proof (dn_lt_year hist_leap Lh Lh_step 1902 1 1 (mYear d) 1 1 ltac:(apply valid_first; lia) ltac:(apply valid_first; lia) ltac:(lia)).
    subst Y. unfold rd, hdn in *. lia. }
  set (N := picked (mYear d) n w1 w) in *.
  set (t := 7 * (N - 1) + (4 - w1) mod 7).
  assert (HR : rd (mYear r) (mMonth r) (mDay r) = Y + t - 4 + iso_wd w).
  { rewrite R. subst t N. unfold picked, iso_wd, mo_to_th.
    destruct (Z.eqb_spec w 0); destruct (Z.eqb_spec w1 0);
    destruct (Z.leb_spec 1 w1); destruct (Z.leb_spec w1 4); cbn [andb]; lia. }
  assert (1901 <= mYear r).
  { apply (rd_year_ge _ (mMonth r) (mDay r)); [apply Vr|]. rewrite HR.
    unfold iso_wd. destruct (Z.eqb_spec w 0); lia. }
  pose proof (valid_gh r Vr ltac:(lia)) as Vrg.
  destruct (gdn_surj (mYear d, 1, 1) t V1) as (th & Vt & Et).
  exists th. pose proof (gdn_rd (mYear d) 1 1 ltac:(lia)) as G1. fold Y in G1.
  pose proof (gdn_rd (mYear r) (mMonth r) (mDay r) ltac:(lia)) as G2.
  split.
  - apply gdn_nth_from; auto; lia.
  - apply gb; auto. unfold ymd. lia.
Qed.

(** Dates of week n (1..52) of year y really have week number n. *)
Lemma iso_week_date_week y n w dd : 1901 <= y -> 1 <= n <= 52 -> valid_date greg_leap dd -> is_weekday dd w ->
  iso_week_date y n w dd -> iso_week dd n.
Proof.
  intros Hy Hn V W (th & H1 & H2). destruct th as [[y' m'] d'].
  assert (V1 : valid_date greg_leap (y, 1, 1)) by (apply valid_first; lia).
  apply nth_from_gdn in H1; auto. destruct H1 as (Vt & _ & HI & HW).
  pose proof (gdn_rd y 1 1 ltac:(lia)) as G1. pose proof (yearlen_bounds y).
  assert (y' = y) by (apply (g_year_range y y' m' d'); [lia|exact Vt|]; lia). subst y'.
  exists w, y, m', d', (gdn (y, m', d') - gdn (y, 1, 1)).
  split; [exact W|]. split; [exact H2|]. split; [exact Vt|]. split; [apply gb; auto; lia|]. lia.
Qed.

Lemma iso_wd_week y n n' w dd : valid_date greg_leap dd -> iso_week_date y n w dd -> iso_week_date y n' w dd -> n = n'.
Proof.
  intros V (th & H1 & H2) (th' & H1' & H2').
  assert (V1 : valid_date greg_leap (y, 1, 1)) by (apply valid_first; lia).
  apply nth_from_gdn in H1, H1'; auto. destruct H1 as (Vt & _ & HI & HW). destruct H1' as (Vt' & _ & HI' & HW').
  apply gb in H2, H2'; auto. lia.
Qed.

(** The fuel of getWeekNo suffices: 31 December is never in week 0 of its year. *)
Lemma getWeekNo_no_runtime_error d : getWeekNo d <> Raise RuntimeError.
Proof.
  unfold getWeekNo. cbn [getWeekNo_f].
  assert (T : forall t i, tuple_get t i <> Raise RuntimeError).
  { intros t i. unfold tuple_get. destruct (_ && _); [discriminate|]. destruct (_ && _); discriminate. }
  assert (W : forall e, getDayOfWeek e <> Raise RuntimeError).
  { intros e. unfold getDayOfWeek, daysSince1970, daysUptoMonth_r. pose proof (T (if isLeapYear (mYear e) then days_upto_month_leap_t else days_upto_month_t) (mMonth e)).
    destruct (tuple_get _ _); cbn [rbind]; congruence. }
  assert (F : forall e n, (do fd <- getDayOfWeek e; Ok (if mo_to_th fd then 1 else n)) <> Raise RuntimeError).
  { intros e n. specialize (W e). destruct (getDayOfWeek e); cbn [rbind]; congruence. }
  pose proof (W d) as W0. destruct (getDayOfWeek d) as [cd|]; cbn [rbind]; [|congruence].
  assert (Y : forall e, getYearDay e <> Raise RuntimeError).
  { intro e. unfold getYearDay, daysUptoMonth_r. pose proof (T (if isLeapYear (mYear e) then days_upto_month_leap_t else days_upto_month_t) (mMonth e)).
    destruct (tuple_get _ _); cbn [rbind]; congruence. }
  pose proof (Y d) as Y0. destruct (getYearDay d) as [yd|]; cbn [rbind]; [|congruence].
  destruct (_ =? 0); [|destruct (_ =? 53); [apply F|discriminate]].
  set (e := newDate (mYear d - 1) 12 31 false TzNone).
  rewrite getDayOfWeek_ok by (cbn; lia). cbn [rbind]. set (k := (4 + _) mod 7). assert (0 <= k < 7) by (subst k; apply Z.mod_pos_bound; lia).
  unfold getYearDay. rewrite daysUptoMonth_r_ok by (cbn; lia). cbn [rbind]. cbn [e newDate mYear mMonth mDay].
  assert (U : 334 <= upto hist_leap (mYear d - 1) 12) by (unfold upto; cbn; destruct (hist_leap _); lia).
  set (u := upto hist_leap (mYear d - 1) 12) in *. clearbody k u.
  destruct ((31 + u - (if k =? 0 then 7 else k) + 10) / 7 =? 0) eqn:Z0; [exfalso; destruct (k =? 0); lia|].
  destruct (_ =? 53); [apply F|discriminate].
Qed.
