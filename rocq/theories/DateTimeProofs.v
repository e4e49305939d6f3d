(** Proofs about the DateTime model. *)
From Coq Require Import Lia ZifyBool ZifyNat.
From Verif Require Import PyBase CalModel CalSpec DateTimeModel DateTimeSpec CalProofs.
Ltac Zify.zify_post_hook ::= Z.div_mod_to_equations.

Lemma norm_time s mi h :
  let mi0 := mi + s / 60 in let h0 := h + mi0 / 60 in
  let T := (h * 60 + mi) * 60 + s in
  h0 / 24 = T / 86400 /\ ((h0 mod 24) * 60 + mi0 mod 60) * 60 + s mod 60 = T mod 86400.
Proof. cbv zeta. lia. Qed.

Lemma normalise_spec d :
  let r := normalise d in
  valid_dt r /\
  hdn (mYear r) (mMonth r) (mDay r) =
    hdn (mYear d + (mMonth d - 1) / 12) ((mMonth d - 1) mod 12 + 1) (mDay d + secs_of_day d / 86400) /\
  secs_of_day r = (if mDateOnly d then 0 else secs_of_day d mod 86400) /\
  mDateOnly r = mDateOnly d /\ mTZUTC r = mTZUTC d /\ mTZID r = mTZID d /\
  mTZOffset r = None /\ mPosixTimeCached r = false.
Proof.
  unfold normalise. cbv zeta.
  pose proof (norm_time (mSeconds d) (mMinutes d) (mHours d)) as [E1 E2].
  rewrite E1.
  destruct (norm_days_ok (mYear d + (mMonth d - 1) / 12) ((mMonth d - 1) mod 12 + 1)
             (mDay d + ((mHours d * 60 + mMinutes d) * 60 + mSeconds d) / 86400))
    as (y' & m' & d' & E & V & H); [lia|].
  rewrite E. unfold valid_dt, secs_of_day, ymd in *.
  destruct (mDateOnly d) eqn:Hdo; cbn -[Z.div Z.modulo Z.mul Z.add valid_date]; rewrite ?Hdo;
    (split; [split; [exact V|split; [unfold valid_time; lia|intro; try discriminate; lia]]|]);
    (split; [exact H|]); (split; [lia|]); auto 10.
Qed.

Lemma dt_ext a b : visible a = visible b -> mTZOffset a = mTZOffset b ->
  mPosixTimeCached a = mPosixTimeCached b -> mPosixTime a = mPosixTime b -> a = b.
Proof. destruct a, b; unfold visible, ymd; cbn; intros; congruence. Qed.

Lemma hms_unique h mi s h' mi' s' : valid_time h mi s -> valid_time h' mi' s' ->
  (h*60+mi)*60+s = (h'*60+mi')*60+s' -> h = h' /\ mi = mi' /\ s = s'.
Proof. unfold valid_time. lia. Qed.

(** Two valid values with the same day number and seconds have the same fields. *)
Lemma fields_unique a b : valid_dt a -> valid_dt b ->
  hdn (mYear a) (mMonth a) (mDay a) = hdn (mYear b) (mMonth b) (mDay b) ->
  secs_of_day a = secs_of_day b ->
  ymd a = ymd b /\ (mHours a, mMinutes a, mSeconds a) = (mHours b, mMinutes b, mSeconds b).
Proof.
  intros (Va & Ta & _) (Vb & Tb & _) E S.
  split.
  - apply (dn_inj hist_leap Lh Lh_step); auto.
  - destruct (hms_unique _ _ _ _ _ _ Ta Tb S) as (-> & -> & ->). reflexivity.
Qed.

Lemma valid_month d : valid_dt d -> 1 <= mMonth d <= 12.
Proof. intros ((H & _) & _). exact H. Qed.

Lemma month_norm_id y m : 1 <= m <= 12 -> y + (m - 1) / 12 = y /\ (m - 1) mod 12 + 1 = m.
Proof. lia. Qed.

(** hdn is linear in the day. *)
Lemma hdn_day y m d k : hdn y m (d + k) = hdn y m d + k.
Proof. unfold hdn, dn. lia. Qed.

(** Normalising a value whose month is in range. *)
Lemma normalise_inmonth d : 1 <= mMonth d <= 12 ->
  let r := normalise d in
  valid_dt r /\
  hdn (mYear r) (mMonth r) (mDay r) = hdn (mYear d) (mMonth d) (mDay d) + secs_of_day d / 86400 /\
  secs_of_day r = (if mDateOnly d then 0 else secs_of_day d mod 86400) /\
  mDateOnly r = mDateOnly d /\ mTZUTC r = mTZUTC d /\ mTZID r = mTZID d /\
  mTZOffset r = None /\ mPosixTimeCached r = false.
Proof.
  intro Hm. pose proof (normalise_spec d) as H. cbv zeta in *.
  destruct (month_norm_id (mYear d) (mMonth d) Hm) as [E1 E2]. rewrite E1, E2 in H.
  rewrite hdn_day in H. exact H.
Qed.

Lemma valid_secs d : valid_dt d -> 0 <= secs_of_day d < 86400.
Proof. intros (_ & (H1 & H2 & H3) & _). unfold secs_of_day. lia. Qed.

(** A valid value is a fixed point (apart from the caches). *)
Lemma normalise_valid d : valid_dt d -> visible (normalise d) = visible d.
Proof.
  intro V. pose proof (normalise_inmonth d (valid_month d V)) as (V' & E & S & D & U & T & _).
  pose proof (valid_secs d V) as Hs.
  assert (S' : secs_of_day (normalise d) = secs_of_day d).
  { rewrite S. destruct V as (_ & _ & V). destruct (mDateOnly d); [symmetry; auto|]. lia. }
  destruct (fields_unique _ _ V' V) as [F1 F2]; [rewrite E; lia|exact S'|].
  unfold visible. rewrite F1, F2, D, U, T. reflexivity.
Qed.

Lemma normalise_idem d : visible (normalise (normalise d)) = visible (normalise d).
Proof. apply normalise_valid. apply (normalise_spec d). Qed.

Lemma recur_month_loop_dead d interval f :
  recur_month_loop f (normalise d) interval = Some (normalise d).
Proof.
  pose proof (normalise_spec d) as (V & _). destruct V as ((Hm & Hd) & _).
  destruct f; cbn [recur_month_loop]; rewrite daysInMonth_ok by exact Hm;
    destruct (Z.ltb_spec (month_len hist_leap (mYear (normalise d)) (mMonth (normalise d))) (mDay (normalise d)));
    try lia; reflexivity.
Qed.

(** ** Offsets. *)
Lemma offsetDay_spec d k : valid_dt d ->
  days_between hist_leap (ymd d) (ymd (offsetDay d k)) k /\ valid_dt (offsetDay d k) /\
  (mHours (offsetDay d k), mMinutes (offsetDay d k), mSeconds (offsetDay d k)) =
    (mHours d, mMinutes d, mSeconds d) /\
  mDateOnly (offsetDay d k) = mDateOnly d /\ mTZUTC (offsetDay d k) = mTZUTC d /\
  mTZID (offsetDay d k) = mTZID d.
Proof.
  intro V. unfold offsetDay. set (e := with_ymd d (mYear d) (mMonth d) (mDay d + k)).
  assert (Hm : 1 <= mMonth e <= 12) by exact (valid_month d V).
  pose proof (normalise_inmonth e Hm) as (V' & E & S & D & U & T & _).
  pose proof (valid_secs d V) as Hs.
  assert (S0 : secs_of_day e = secs_of_day d) by reflexivity.
  assert (S' : secs_of_day (normalise e) = secs_of_day d).
  { rewrite S, S0. destruct V as (_ & _ & V). change (mDateOnly e) with (mDateOnly d).
    destruct (mDateOnly d); [symmetry; auto|]. lia. }
  split; [|split; [exact V'|split; [|auto]]].
  - apply (days_between_dn hist_leap Lh Lh_step); [apply V|apply V'|].
    change (dnd hist_leap Lh (ymd (normalise e))) with (hdn (mYear (normalise e)) (mMonth (normalise e)) (mDay (normalise e))).
    rewrite E. rewrite S0. change (hdn (mYear e) (mMonth e) (mDay e)) with (hdn (mYear d) (mMonth d) (mDay d + k)).
    rewrite hdn_day. unfold dnd, ymd. fold hdn. lia.
  - destruct V as (_ & Tv & _). destruct V' as (_ & Tv' & _).
    destruct (hms_unique _ _ _ _ _ _ Tv' Tv S') as (-> & -> & ->). reflexivity.
Qed.

(** Seconds on the code's calendar: used to compare instants. *)
Definition abs_secs (d : dt) : Z := 86400 * hdn (mYear d) (mMonth d) (mDay d) + secs_of_day d.

Lemma addSeconds_spec d n : valid_dt d -> mDateOnly d = false ->
  valid_dt (addSeconds d n) /\ abs_secs (addSeconds d n) = abs_secs d + n /\
  mDateOnly (addSeconds d n) = false /\ mTZUTC (addSeconds d n) = mTZUTC d /\
  mTZID (addSeconds d n) = mTZID d.
Proof.
  intros V Hdo. unfold addSeconds.
  set (e := with_hms d (mHours d) (mMinutes d) (mSeconds d + n)).
  assert (Hm : 1 <= mMonth e <= 12) by exact (valid_month d V).
  pose proof (normalise_inmonth e Hm) as (V' & E & S & D & U & T & _).
  change (mDateOnly e) with (mDateOnly d) in *. rewrite Hdo in *.
  assert (S0 : secs_of_day e = secs_of_day d + n) by (unfold secs_of_day; cbn; lia).
  rewrite S0 in *.
  split; [exact V'|]. split; [|auto].
  unfold abs_secs. rewrite E, S.
  change (hdn (mYear e) (mMonth e) (mDay e)) with (hdn (mYear d) (mMonth d) (mDay d)). lia.
Qed.

Lemma abs_secs_inj a b : valid_dt a -> valid_dt b -> abs_secs a = abs_secs b ->
  ymd a = ymd b /\ (mHours a, mMinutes a, mSeconds a) = (mHours b, mMinutes b, mSeconds b).
Proof.
  intros Va Vb E. pose proof (valid_secs a Va). pose proof (valid_secs b Vb). unfold abs_secs in E.
  apply fields_unique; auto; lia.
Qed.

Lemma subSeconds_add d n : subSeconds d n = addSeconds d (- n).
Proof. unfold subSeconds, addSeconds. f_equal. Qed.

Lemma visible_eq a b : valid_dt a -> valid_dt b -> abs_secs a = abs_secs b ->
  mDateOnly a = mDateOnly b -> mTZUTC a = mTZUTC b -> mTZID a = mTZID b -> visible a = visible b.
Proof.
  intros Va Vb E D U T. destruct (abs_secs_inj a b Va Vb E) as [F1 F2].
  unfold visible. rewrite F1, F2, D, U, T. reflexivity.
Qed.

Lemma addSeconds_add d m n : valid_dt d -> mDateOnly d = false ->
  visible (addSeconds (addSeconds d m) n) = visible (addSeconds d (m + n)).
Proof.
  intros V Hdo.
  destruct (addSeconds_spec d m V Hdo) as (V1 & E1 & D1 & U1 & T1).
  destruct (addSeconds_spec _ n V1 D1) as (V2 & E2 & D2 & U2 & T2).
  destruct (addSeconds_spec d (m+n) V Hdo) as (V3 & E3 & D3 & U3 & T3).
  apply visible_eq; auto; congruence || lia.
Qed.

Lemma addSeconds_sub d n : valid_dt d -> mDateOnly d = false ->
  visible (subSeconds (addSeconds d n) n) = visible d.
Proof.
  intros V Hdo. rewrite subSeconds_add.
  rewrite addSeconds_add by auto. replace (n + - n) with 0 by lia.
  destruct (addSeconds_spec d 0 V Hdo) as (V3 & E3 & D3 & U3 & T3).
  apply visible_eq; auto; congruence || lia.
Qed.

Lemma addSeconds_0 d : valid_dt d -> visible (addSeconds d 0) = visible d.
Proof.
  intro V. unfold addSeconds. replace (mSeconds d + 0) with (mSeconds d) by lia.
  destruct d; cbn. apply normalise_valid. exact V.
Qed.

(** Date-only values: whole days are moved, the rest of the duration is rounded down. *)
Lemma addSeconds_dateonly d n : valid_dt d -> mDateOnly d = true ->
  valid_dt (addSeconds d n) /\ mDateOnly (addSeconds d n) = true /\
  days_between hist_leap (ymd d) (ymd (addSeconds d n)) (n / 86400).
Proof.
  intros V Hdo. unfold addSeconds.
  set (e := with_hms d (mHours d) (mMinutes d) (mSeconds d + n)).
  assert (Hm : 1 <= mMonth e <= 12) by exact (valid_month d V).
  pose proof (normalise_inmonth e Hm) as (V' & E & S & D & U & T & _).
  change (mDateOnly e) with (mDateOnly d) in *. rewrite Hdo in *.
  assert (S0 : secs_of_day e = secs_of_day d + n) by (unfold secs_of_day; cbn; lia).
  destruct V as (Vd & Vt & V0).
  rewrite S0, (V0 Hdo) in *.
  split; [exact V'|]. split; [exact D|].
  apply (days_between_dn hist_leap Lh Lh_step); [apply Vd|apply V'|].
  unfold dnd, ymd. fold hdn. fold (hdn (mYear d) (mMonth d) (mDay d)).
  unfold hdn in *. rewrite E. reflexivity.
Qed.

(** ** Posix time. *)
Section Posix.
Variable tzo : tzid -> Z -> Z -> Z -> Z -> Z -> Z -> bool -> bool -> Z.

(** Value computed from the visible fields only. *)
Definition fresh_posix (d : dt) : res Z :=
  do n <- daysSince1970 d; Ok (secs_of_day d + 86400 * n - tz_lookup tzo d false).

Lemma fresh_posix_ok d : 1 <= mMonth d <= 12 ->
  fresh_posix d = Ok (secs_of_day d + 86400 * code_days (mYear d) (mMonth d) (mDay d) - tz_lookup tzo d false).
Proof. intro H. unfold fresh_posix. rewrite daysSince1970_ok by exact H. reflexivity. Qed.

(** The coherence invariant of the caches. *)
Definition coherent (d : dt) : Prop :=
  (mTZUTC d = false -> forall o, mTZOffset d = Some o -> o = tz_lookup tzo d false) /\
  (mPosixTimeCached d = true -> floating d = false -> Ok (mPosixTime d) = fresh_posix d).

Lemma tz_offset_fresh d : coherent d -> snd (timeZoneSecondsOffset tzo d false) = tz_lookup tzo d false.
Proof.
  intros [H _]. unfold timeZoneSecondsOffset.
  destruct (mTZUTC d) eqn:U; [unfold tz_lookup; rewrite U; reflexivity|].
  destruct (mTZOffset d) as [o|] eqn:O; [|reflexivity]. cbn. apply H; auto.
Qed.

Lemma getPosixTime_fresh d : coherent d -> snd (getPosixTime tzo d) = fresh_posix d.
Proof.
  intros C. unfold getPosixTime.
  destruct (negb (mPosixTimeCached d) || floating d) eqn:B.
  - unfold fresh_posix. destruct (daysSince1970 d) as [n|e]; [|reflexivity].
    pose proof (tz_offset_fresh d C) as T.
    destruct (timeZoneSecondsOffset tzo d false) as [d1 o]. cbn [snd] in T. subst o.
    cbn [snd rbind]. unfold secs_of_day. f_equal. lia.
  - destruct C as [_ C]. apply orb_false_elim in B as [B1 B2].
    cbn [snd]. apply C; [destruct (mPosixTimeCached d); auto; discriminate|exact B2].
Qed.

Lemma visible_fresh a b : visible a = visible b -> fresh_posix a = fresh_posix b.
Proof.
  unfold visible, ymd. intro E. injection E as E1 E2 E3 E4 E5 E6 E7 E8 E9.
  unfold fresh_posix, daysSince1970, secs_of_day, tz_lookup. rewrite E1,E2,E3,E4,E5,E6,E7,E8,E9. reflexivity.
Qed.
End Posix.

(** ** Day counts against the civil calendar. *)
Definition err_hist (y : Z) : Z := if y <=? 1752 then -2 else (y - 1) / 100 - (y - 1) / 400 - 15.

Lemma code_days_hist y m d : code_days y m d = hdn y m d - hdn 1970 1 1 + err_hist y.
Proof.
  unfold err_hist. destruct (Z.leb_spec y 1752) as [H|H].
  - unfold code_days, hdn, dn, Lh. destruct (Z.ltb_spec y 1753); [|lia].
    change (1970 <? 1753) with false. cbv iota. change (upto hist_leap 1970 1) with 0.
    change (Lg 1970) with 477. lia.
  - rewrite code_days_err by lia. reflexivity.
Qed.

Lemma valid_1970 : valid_date hist_leap (1970, 1, 1).
Proof. cbn. lia. Qed.
Lemma valid_1970g : valid_date greg_leap (1970, 1, 1).
Proof. cbn. lia. Qed.

Lemma posix_utc tzo y m d h mi s : 1 <= m <= 12 ->
  snd (getPosixTime tzo (newDateTime y m d h mi s true TzNone)) =
  Ok (86400 * code_days y m d + ((h * 60 + mi) * 60 + s)).
Proof.
  intro H. unfold getPosixTime. cbn [mPosixTimeCached newDateTime negb orb].
  rewrite daysSince1970_ok by exact H. cbn -[code_days Z.mul Z.add Z.sub]. f_equal. lia.
Qed.

Lemma posix_hist tzo y m d h mi s n : valid_date hist_leap (y, m, d) ->
  days_between hist_leap (1970, 1, 1) (y, m, d) n ->
  snd (getPosixTime tzo (newDateTime y m d h mi s true TzNone)) =
  Ok (86400 * (n + err_hist y) + ((h * 60 + mi) * 60 + s)).
Proof.
  intros V B. apply (days_between_dn hist_leap Lh Lh_step) in B; [|apply valid_1970|exact V].
  rewrite posix_utc by apply V. rewrite code_days_hist. unfold dnd in B. unfold hdn. f_equal. lia.
Qed.

Lemma greg_posix tzo y m d h mi s n : 1752 < y -> valid_date greg_leap (y, m, d) ->
  days_between greg_leap (1970, 1, 1) (y, m, d) n ->
  snd (getPosixTime tzo (newDateTime y m d h mi s true TzNone)) =
  Ok (86400 * (n + err_hist y) + ((h * 60 + mi) * 60 + s)).
Proof.
  intros Hy V B. apply (days_between_dn greg_leap Lg Lg_step) in B; [|apply valid_1970g|exact V].
  rewrite posix_utc by apply V. rewrite code_days_hist. unfold dnd in B.
  rewrite !dn_greg_hist in B by lia. f_equal. lia.
Qed.

Lemma err_hist_zero y : err_hist y = 0 <-> 1901 <= y <= 2100.
Proof. unfold err_hist. destruct (Z.leb_spec y 1752); lia. Qed.

Lemma days_between_exists (leap : Z -> bool) (L : Z -> Z) (HL : forall y, L (y + 1) = L y + (if leap y then 1 else 0)) a b :
  valid_date leap a -> valid_date leap b -> exists n, days_between leap a b n.
Proof.
  intros Va Vb. exists (dnd leap L b - dnd leap L a). apply (days_between_dn leap L HL); auto. lia.
Qed.

(** ** Weekdays. *)
Lemma getDayOfWeek_ok d : 1 <= mMonth d <= 12 ->
  getDayOfWeek d = Ok ((4 + code_days (mYear d) (mMonth d) (mDay d)) mod 7).
Proof.
  intro H. unfold getDayOfWeek. rewrite daysSince1970_ok by exact H. cbn [rbind].
  set (k := (4 + _) mod 7). assert (0 <= k < 7) by (subst k; apply Z.mod_pos_bound; lia).
  destruct (Z.ltb_spec k 0); [lia|reflexivity].
Qed.

Lemma hdn_next y m d y' m' d' : valid_date hist_leap (y, m, d) ->
  next_day hist_leap (y, m, d) = (y', m', d') -> hdn y' m' d' = hdn y m d + 1.
Proof.
  intros V E. pose proof (next_day_dn hist_leap Lh Lh_step (y, m, d) V) as H.
  rewrite E in H. exact H.
Qed.
