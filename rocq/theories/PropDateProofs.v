(** Final forms of the date properties. *)
From Coq Require Import Lia ZifyBool ZifyNat.
From Verif Require Import PyBase CalModel CalSpec DateTimeModel DateTimeSpec CalProofs DateTimeProofs DateTimeProofs2 DateTimeProofs3.
Ltac Zify.zify_post_hook ::= Z.div_mod_to_equations.

Lemma Ok_inj (A : Set) (a b : A) : Ok a = Ok b -> a = b.
Proof. congruence. Qed.

Lemma posix_error tzo y m d h mi s n :
  1752 < y -> valid_date greg_leap (y, m, d) ->
  days_between greg_leap (1970, 1, 1) (y, m, d) n ->
  snd (getPosixTime tzo (newDateTime y m d h mi s true TzNone)) =
    Ok (86400 * (n + ((y - 1) / 100 - (y - 1) / 400 - 15)) + (3600 * h + 60 * mi + s)).
Proof.
  intros Hy V B. rewrite (greg_posix tzo y m d h mi s n Hy V B). unfold err_hist.
  destruct (Z.leb_spec y 1752); [lia|]. f_equal. lia.
Qed.

Lemma posix_exact tzo y m d h mi s n :
  1901 <= y <= 2100 -> valid_date greg_leap (y, m, d) ->
  days_between greg_leap (1970, 1, 1) (y, m, d) n ->
  snd (getPosixTime tzo (newDateTime y m d h mi s true TzNone)) =
    Ok (86400 * n + (3600 * h + 60 * mi + s)).
Proof.
  intros Hy V B. rewrite (greg_posix tzo y m d h mi s n ltac:(lia) V B).
  apply err_hist_zero in Hy. rewrite Hy. f_equal. lia.
Qed.

Lemma posix_sharp tzo y m d h mi s n :
  1752 < y -> valid_date greg_leap (y, m, d) ->
  days_between greg_leap (1970, 1, 1) (y, m, d) n ->
  (snd (getPosixTime tzo (newDateTime y m d h mi s true TzNone)) = Ok (86400 * n + (3600 * h + 60 * mi + s))
   <-> 1901 <= y <= 2100).
Proof.
  intros Hy V B. rewrite (greg_posix tzo y m d h mi s n Hy V B). rewrite <- err_hist_zero.
  split; [intro H|intros ->; f_equal; lia].
  apply Ok_inj in H. unfold err_hist in *. destruct (Z.leb_spec y 1752); [lia|]. lia.
Qed.

Lemma posix_next tzo y m d y' m' d' h mi s :
  1901 <= y -> y' <= 2100 -> valid_date greg_leap (y, m, d) ->
  next_day greg_leap (y, m, d) = (y', m', d') ->
  exists p, snd (getPosixTime tzo (newDateTime y m d h mi s true TzNone)) = Ok p /\
            snd (getPosixTime tzo (newDateTime y' m' d' h mi s true TzNone)) = Ok (p + 86400).
Proof.
  intros Hy Hy' V N.
  assert (y <= y' ) by (unfold next_day in N; destruct (d <? _); [|destruct (m <? 12)]; injection N; lia).
  pose proof (next_day_valid greg_leap _ V) as V'. rewrite N in V'.
  destruct (days_between_exists greg_leap Lg Lg_step (1970,1,1) (y,m,d) valid_1970g V) as (n & B).
  assert (B' : days_between greg_leap (1970,1,1) (y',m',d') (n + 1)).
  { apply gb; auto using valid_1970g. apply gb in B; auto using valid_1970g.
    pose proof (next_day_dn greg_leap Lg Lg_step _ V) as E. rewrite N in E. unfold gdn in *. lia. }
  eexists. split; [apply posix_exact; eauto; lia|].
  rewrite (posix_exact tzo y' m' d' h mi s (n+1)); auto; [|lia]. f_equal. lia.
Qed.

Lemma weekday_total d : valid_date hist_leap (ymd d) -> exists w, getDayOfWeek d = Ok w /\ 0 <= w <= 6.
Proof.
  intros [Hm _]. eexists. split; [apply getDayOfWeek_ok; exact Hm|].
  pose proof (Z.mod_pos_bound (4 + code_days (mYear d) (mMonth d) (mDay d)) 7 ltac:(lia)). lia.
Qed.

Lemma normalise_full d :
  let r := normalise d in
  let y := mYear d + (mMonth d - 1) / 12 in
  let m := (mMonth d - 1) mod 12 + 1 in
  valid_dt r /\
  days_between hist_leap (y, m, 1) (ymd r) (mDay d - 1 + secs_of_day d / 86400) /\
  secs_of_day r = (if mDateOnly d then 0 else secs_of_day d mod 86400) /\
  mDateOnly r = mDateOnly d /\ mTZUTC r = mTZUTC d /\ mTZID r = mTZID d.
Proof.
  cbv zeta. destruct (normalise_spec d) as (V & E & S & D & U & T & _).
  split; [exact V|]. split; [|auto].
  apply hb; [apply valid_first; lia|apply V|].
  unfold dnd, ymd. unfold hdn in E. rewrite E. unfold dn. lia.
Qed.

Lemma add_date_only_not_action : exists d m n, valid_dt d /\ mDateOnly d = true /\
  visible (addSeconds (addSeconds d m) n) <> visible (addSeconds d (m + n)).
Proof.
  exists (newDate 2024 1 1 false TzNone), 43200, 43200.
  split; [unfold valid_dt, valid_time; cbn; lia|]. split; [reflexivity|]. vm_compute. discriminate.
Qed.

Lemma posix_uncached tzo d : mPosixTimeCached d = false -> mTZOffset d = None ->
  snd (getPosixTime tzo d) = fresh_posix tzo d.
Proof. intros H1 H2. apply getPosixTime_fresh. split; [rewrite H2|rewrite H1]; discriminate. Qed.

Lemma sub_utc tzo a b : mTZUTC a = true -> mTZUTC b = true -> mPosixTimeCached a = false -> mPosixTimeCached b = false ->
  mTZOffset a = None -> mTZOffset b = None ->
  valid_dt a -> valid_dt b -> 1901 <= mYear a <= 2100 -> 1901 <= mYear b <= 2100 ->
  posix_diff tzo a b = Ok (abs_secs a - abs_secs b).
Proof.
  intros Ua Ub Ca Cb Oa Ob Va Vb Ya Yb. unfold posix_diff.
  rewrite !posix_uncached by assumption.
  rewrite !fresh_posix_ok by (apply valid_month; assumption). cbn [rbind].
  unfold tz_lookup. rewrite Ua, Ub.
  rewrite !code_days_hist. apply err_hist_zero in Ya, Yb. rewrite Ya, Yb.
  unfold abs_secs. f_equal. lia.
Qed.

Lemma sub_add tzo d n : valid_dt d -> mDateOnly d = false ->
  (mTZUTC d = true \/ floating d = true) ->
  mTZOffset d = None -> mPosixTimeCached d = false ->
  1901 <= mYear d <= 2100 -> 1901 <= mYear (addSeconds d n) <= 2100 ->
  subDateTime tzo (addSeconds d n) d = Ok n.
Proof.
  intros V Hdo HU O C Y1 Y2.
  destruct (addSeconds_spec d n V Hdo) as (V' & E & D' & U & T).
  assert (CO : mTZOffset (addSeconds d n) = None /\ mPosixTimeCached (addSeconds d n) = false).
  { unfold addSeconds. destruct (normalise_spec (with_hms d (mHours d) (mMinutes d) (mSeconds d + n)))
      as (_ & _ & _ & _ & _ & _ & A & B). auto. }
  destruct CO as [O' C'].
  unfold subDateTime.
  assert (F : floating (addSeconds d n) = floating d) by (unfold floating; rewrite U, T; reflexivity).
  rewrite F. destruct (floating d) eqn:FD; cbn [orb andb].
  - assert (U0 : mTZUTC d = false) by (unfold floating in FD; destruct (mTZUTC d); [discriminate|reflexivity]).
    unfold setTimezoneUTC. rewrite U, U0. cbn [Bool.eqb negb].
    rewrite sub_utc; try reflexivity; try assumption.
    unfold abs_secs, secs_of_day in *. cbn [changed with_tz with_tzoff with_posix mYear mMonth mDay mHours mMinutes mSeconds] in *. f_equal. lia.
  - destruct HU as [HU|HU]; [|discriminate].
    rewrite sub_utc; try assumption; [f_equal; lia|congruence].
Qed.

Lemma year_day_round_trip d n : valid_dt d ->
  1 <= n <= 365 + (if hist_leap (mYear d) then 1 else 0) ->
  getYearDay (setYearDay d n false) = Ok n /\ mYear (setYearDay d n false) = mYear d.
Proof.
  intros V Hn. destruct (setYearDay_spec d n V ltac:(lia)) as (A & _ & B & _). specialize (B ltac:(lia)).
  set (r := setYearDay d n false) in *.
  assert (Y : mYear r = mYear d).
  { apply (same_year_range (mYear d) (mYear r) (mMonth r) (mDay r) (n - 1)); [apply A|exact B|unfold yearlen; lia]. }
  split; [|exact Y]. apply getYearDay_spec; [exact A|]. rewrite Y. exact B.
Qed.

Lemma week_lemma d n w1 w : valid_dt d -> 1902 <= mYear d <= 2099 -> 1 <= n <= 52 ->
  is_weekday (mYear d, 1, 1) w1 -> is_weekday (ymd d) w -> ~ iso_week (ymd d) n ->
  1 <= picked (mYear d) n w1 w <= 52 ->
  exists r, setWeekNo d n = Ok r /\ valid_dt r /\ same_time r d /\ is_weekday (ymd r) w /\
    getWeekNo r = Ok (picked (mYear d) n w1 w).
Proof.
  intros V Hy Hn W1 W Hw Hp.
  destruct (setWeekNo_date d n w1 w V ltac:(lia) ltac:(lia) W1 W Hw ltac:(lia)) as (r & E & Vr & T & I).
  exists r. split; [exact E|]. split; [exact Vr|]. split; [exact T|].
  set (N := picked (mYear d) n w1 w) in *.
  assert (V1 : valid_date greg_leap (mYear d, 1, 1)) by (apply valid_first; lia).
  pose proof I as (th & H1 & H2). apply nth_from_gdn in H1; [|exact V1].
  destruct H1 as (Vt & _ & HI & HW).
  (* the year of r is close to that of d *)
  pose proof (valid_gh d V ltac:(lia)) as Vg.
  apply is_weekday_gdn in W as W'; [|exact Vg].
  assert (Hw6 : 0 <= w <= 6) by lia.
  assert (exists b, valid_date greg_leap b /\ gdn b = gdn th - (4 - iso_wd w)) as (b & Vb & Eb).
  { destruct (gdn_surj th (- (4 - iso_wd w)) Vt) as (b & Vb & Eb). exists b. split; [exact Vb|lia]. }
  assert (Vrg : valid_date greg_leap (ymd r) /\ 1901 <= mYear r).
  { destruct (setWeekNo_day d n V ltac:(lia)) as (r' & E' & _ & _ & R').
    { rewrite getWeekNo_iff by (auto; lia). exact Hw. }
    rewrite E in E'. injection E' as <-.
    pose proof (rd_next (mYear d - 1)) as RN. replace (mYear d - 1 + 1) with (mYear d) in RN by lia.
    pose proof (yearlen_bounds (mYear d - 1)).
    assert (1901 <= mYear r).
    { destruct (Z_lt_le_dec (mYear r) (mYear d - 1)) as [C|C]; [exfalso|lia].
      pose proof (dn_lt_year hist_leap Lh Lh_step (mYear r) (mMonth r) (mDay r) (mYear d - 1) 1 1 ltac:(apply Vr)
        ltac:(apply valid_first; lia) C) as L.
      set (f := (4 + rd (mYear d) 1 1) mod 7) in *. set (c := (4 + rd (mYear d) (mMonth d) (mDay d)) mod 7) in *.
      assert (0 <= f < 7) by (subst f; apply Z.mod_pos_bound; lia).
      assert (0 <= c < 7) by (subst c; apply Z.mod_pos_bound; lia).
      change (rd (mYear r) (mMonth r) (mDay r) = rd (mYear d) 1 1 + (if mo_to_th f then n - 1 else n) * 7 + c - f) in R'.
      destruct (mo_to_th f); unfold rd, hdn in *; lia. }
    split; [|lia]. apply valid_gh; [exact Vr|lia]. }
  destruct Vrg as [Vrg Yr].
  apply gb in H2; [|exact Vrg|exact Vt].
  assert (WR : is_weekday (ymd r) w).
  { apply is_weekday_gdn; [exact Vrg|]. unfold iso_wd in H2. destruct (Z.eqb_spec w 0); lia. }
  assert (Yr' : mYear r <= 2100).
  { destruct (Z_lt_le_dec 2100 (mYear r)) as [C|C]; [exfalso|lia].
    assert (mYear d + 1 < mYear r) by lia.
    pose proof (dn_lt_year greg_leap Lg Lg_step (mYear d + 1) 2 1 (mYear r) (mMonth r) (mDay r) ltac:(apply valid_first; lia)
      Vrg ltac:(lia)) as L.
    pose proof (gdn_rd (mYear d) 1 1 ltac:(lia)) as G1. pose proof (gdn_rd (mYear d + 1) 1 1 ltac:(lia)) as G2.
    assert (dn greg_leap Lg (mYear d + 1) 2 1 = dn greg_leap Lg (mYear d + 1) 1 1 + 31) by (unfold dn; cbn; lia).
    pose proof (rd_next (mYear d)). pose proof (yearlen_bounds (mYear d)).
    unfold ymd in H2. unfold iso_wd in H2. unfold gdn, dnd in *. destruct (Z.eqb_spec w 0); lia. }
  split; [exact WR|].
  apply getWeekNo_iff; [exact Vr|lia|]. apply (iso_week_date_week (mYear d) N w); auto; lia.
Qed.

Lemma wd_same r d w : ymd r = ymd d -> is_weekday (ymd d) w -> is_weekday (ymd r) w.
Proof. intros ->; auto. Qed.

Lemma set_week_ok d n w1 w :
  valid_dt d -> 1902 <= mYear d <= 2099 -> 1 <= n <= 52 ->
  is_weekday (mYear d, 1, 1) w1 -> is_weekday (ymd d) w -> (w1 = 0 <-> w = 0) ->
  exists r, setWeekNo d n = Ok r /\ valid_dt r /\ same_time r d /\
    is_weekday (ymd r) w /\ getWeekNo r = Ok n.
Proof.
  intros V Hy Hn W1 W HE.
  destruct (getWeekNo_iso d V ltac:(lia)) as (k & E & I).
  destruct (Z.eq_dec k n) as [->|Hk].
  - exists d. unfold setWeekNo. rewrite E. cbn [rbind]. rewrite Z.eqb_refl.
    split; [reflexivity|]. split; [exact V|]. split; [reflexivity|]. auto.
  - assert (P : picked (mYear d) n w1 w = n).
    { unfold picked. destruct (Z.eqb_spec w 0); destruct (Z.eqb_spec w1 0); lia. }
    destruct (week_lemma d n w1 w V Hy Hn W1 W) as (r & R); [|lia|exists r; rewrite P in R; exact R].
    intro H. apply Hk. apply (iso_week_fun (ymd d)); auto. apply valid_gh; [exact V|lia].
Qed.

Lemma set_week_sunday d n w1 :
  valid_dt d -> 1902 <= mYear d <= 2099 -> 2 <= n <= 52 ->
  is_weekday (mYear d, 1, 1) w1 -> w1 <> 0 -> is_weekday (ymd d) 0 -> ~ iso_week (ymd d) n ->
  exists r, setWeekNo d n = Ok r /\ is_weekday (ymd r) 0 /\ getWeekNo r = Ok (n - 1).
Proof.
  intros V Hy Hn W1 N1 W Hw.
  assert (P : picked (mYear d) n w1 0 = n - 1).
  { unfold picked. cbn [Z.eqb]. destruct (Z.eqb_spec w1 0); lia. }
  destruct (week_lemma d n w1 0 V Hy ltac:(lia) W1 W Hw ltac:(lia)) as (r & A & _ & _ & B & C).
  exists r. rewrite P in C. auto.
Qed.

Lemma set_week_year_sunday d n w :
  valid_dt d -> 1902 <= mYear d <= 2099 -> 1 <= n <= 51 ->
  is_weekday (mYear d, 1, 1) 0 -> is_weekday (ymd d) w -> w <> 0 -> ~ iso_week (ymd d) n ->
  exists r, setWeekNo d n = Ok r /\ is_weekday (ymd r) w /\ getWeekNo r = Ok (n + 1).
Proof.
  intros V Hy Hn W1 W N1 Hw.
  assert (P : picked (mYear d) n 0 w = n + 1).
  { unfold picked. cbn [Z.eqb]. destruct (Z.eqb_spec w 0); lia. }
  destruct (week_lemma d n 0 w V Hy ltac:(lia) W1 W Hw ltac:(lia)) as (r & A & _ & _ & B & C).
  exists r. rewrite P in C. auto.
Qed.

Lemma set_week_refuted : exists d n r,
  valid_dt d /\ 1902 <= mYear d <= 2099 /\ 1 <= n <= 52 /\ setWeekNo d n = Ok r /\ getWeekNo r <> Ok n.
Proof.
  exists (newDate 2024 5 19 false TzNone), 10. eexists. split; [unfold valid_dt, valid_time; cbn; lia|].
  split; [cbn; lia|]. split; [lia|]. split; [reflexivity|]. vm_compute. discriminate.
Qed.
