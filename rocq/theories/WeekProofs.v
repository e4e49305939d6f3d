(** setWeekNo: the week that is chosen, in every case. *)
From Coq Require Import Lia ZifyBool ZifyNat.
From Verif Require Import PyBase CalModel CalSpec WeekSpec DateTimeModel DateTimeSpec CalProofs DateTimeProofs DateTimeProofs2 DateTimeProofs3 PropDateProofs.
Ltac Zify.zify_post_hook ::= Z.div_mod_to_equations.

Lemma week_chosen d n w1 w th : valid_dt d -> 1901 <= mYear d <= 2100 -> 1 <= n ->
  is_weekday (mYear d, 1, 1) w1 -> is_weekday (ymd d) w -> nth_wd_from (mYear d, 1, 1) 4 1 th -> ~ iso_week (ymd d) n ->
  exists r, setWeekNo d n = Ok r /\ valid_dt r /\ same_time r d /\ 1752 < mYear r /\ is_weekday (ymd r) w /\
    days_between greg_leap th (ymd r) (7 * (n - 1 + week_shift w1 w) + (iso_wd w - 4)).
Proof.
  intros V Hy Hn W1 W T Hw.
  destruct (setWeekNo_day d n V ltac:(lia)) as (r & E & Vr & S & R). { rewrite getWeekNo_iff by (auto; lia). exact Hw. }
  exists r. split; [exact E|]. split; [exact Vr|]. split; [exact S|].
  assert (V1 : valid_date greg_leap (mYear d, 1, 1)) by (apply valid_first; lia).
  pose proof (valid_gh d V ltac:(lia)) as Vg.
  apply is_weekday_gdn in W1; [|exact V1]. apply is_weekday_gdn in W; [|exact Vg].
  apply nth_from_gdn in T; [|exact V1]. destruct T as (Vt & _ & HI & HW).
  pose proof (gdn_rd (mYear d) 1 1 ltac:(lia)) as G1. pose proof (gdn_rd (mYear d) (mMonth d) (mDay d) ltac:(lia)) as G2.
  cbv zeta in R. unfold ymd in W. rewrite G1 in W1. rewrite G2 in W. rewrite <- W1, <- W in R.
  assert (1752 < mYear r).
  { destruct (Z_lt_le_dec 1752 (mYear r)) as [C|C]; [lia|exfalso].
    pose proof (dn_lt_year hist_leap Lh Lh_step (mYear r) (mMonth r) (mDay r) 1753 1 1 ltac:(apply Vr) ltac:(apply valid_first; lia) ltac:(lia)) as L1.
    assert (rd 1901 1 1 <= rd (mYear d) 1 1).
    { destruct (Z.eq_dec (mYear d) 1901) as [->|Ne]; [lia|].
      pose proof (dn_lt_year hist_leap Lh Lh_step 1901 1 1 (mYear d) 1 1 ltac:(apply valid_first; lia) ltac:(apply valid_first; lia) ltac:(lia)).
      unfold rd, hdn in *. lia. }
    assert (rd 1753 1 1 + 400 <= rd 1901 1 1) by (vm_compute; discriminate).
    assert (0 <= w < 7) by (subst w; apply Z.mod_pos_bound; lia). assert (0 <= w1 < 7) by (subst w1; apply Z.mod_pos_bound; lia).
    assert ((if mo_to_th w1 then n - 1 else n) >= 0) by (destruct (mo_to_th w1); lia).
    unfold rd, hdn in *. lia. }
  split; [assumption|].
  pose proof (valid_gh r Vr ltac:(lia)) as Vrg. pose proof (gdn_rd (mYear r) (mMonth r) (mDay r) ltac:(lia)) as G3.
  assert (0 <= w < 7) by (subst w; apply Z.mod_pos_bound; lia). assert (0 <= w1 < 7) by (subst w1; apply Z.mod_pos_bound; lia).
  assert (M : mo_to_th w1 = (1 <=? w1) && (w1 <=? 4)) by (unfold mo_to_th; destruct (Z.leb_spec 1 w1), (Z.leb_spec w1 4); cbn [andb]; try lia).
  split.
  - apply is_weekday_gdn; [exact Vrg|]. unfold ymd. rewrite G3, R. destruct (mo_to_th w1); lia.
  - apply gb; [exact Vt|exact Vrg|]. unfold ymd. unfold week_shift, iso_wd. rewrite M in R.
    destruct (Z.eqb_spec w 0), (Z.eqb_spec w1 0), (Z.leb_spec 1 w1), (Z.leb_spec w1 4); cbn [andb] in R; lia.
Qed.

(** Dates a week apart are not in weeks of the same number. *)
Lemma week_apart a b n : valid_date greg_leap a -> valid_date greg_leap b -> gdn b = gdn a + 7 -> iso_week a n -> iso_week b n -> False.
Proof.
  intros Va Vb E (w & y & m & d & k & A1 & A2 & A3 & A4 & ->) (w' & y' & m' & d' & k' & B1 & B2 & B3 & B4 & K).
  apply is_weekday_gdn in A1, B1; auto. assert (w' = w) by (rewrite A1, B1, E; clear; lia). clear A1 B1. subst w'.
  apply gb in A2, B2; auto. apply gb in A4; [|apply valid_first; lia|assumption]. apply gb in B4; [|apply valid_first; lia|assumption].
  assert (E' : gdn (y', m', d') = gdn (y, m, d) + 7) by (clear - A2 B2 E; lia). clear A2 B2 E.
  assert (N : gdn (y + 1, 1, 1) >= gdn (y, 1, 1) + 365).
  { unfold gdn, dnd, dn. rewrite Lg_step. change (upto greg_leap (y + 1) 1) with 0. change (upto greg_leap y 1) with 0. destruct (greg_leap y); lia. }
  assert (L : forall z p q z' p' q', valid_date greg_leap (z, p, q) -> valid_date greg_leap (z', p', q') -> z < z' -> gdn (z, p, q) < gdn (z', p', q')).
  { intros. apply (dn_lt_year greg_leap Lg Lg_step); assumption. }
  assert (F : forall z, valid_date greg_leap (z, 1, 1)) by (intro; apply valid_first; lia).
  assert (M : forall z p q, valid_date greg_leap (z, p, q) -> gdn (z, 1, 1) <= gdn (z, p, q)).
  { intros z p q [Hp Hq]. unfold gdn, dnd, dn. change (upto greg_leap z 1) with 0. pose proof (upto_bounds greg_leap z p Hp). lia. }
  pose proof (M _ _ _ A3). pose proof (M _ _ _ B3).
  destruct (Z_lt_le_dec y' y) as [C|C]; [pose proof (L _ _ _ _ _ _ B3 A3 C); lia|].
  destruct (Z.eq_dec y' y) as [->|C1]; [lia|].
  pose proof (L _ _ _ _ _ _ A3 (F (y + 1)) ltac:(lia)).
  destruct (Z.eq_dec y' (y + 1)) as [->|C2]; [lia|].
  pose proof (L _ _ _ _ _ _ (F (y + 1)) (F y') ltac:(lia)).
  assert (N' : gdn (y + 2, 1, 1) >= gdn (y + 1, 1, 1) + 365).
  { unfold gdn, dnd, dn. replace (y + 2) with (y + 1 + 1) by lia. rewrite Lg_step.
    change (upto greg_leap (y + 1 + 1) 1) with 0. change (upto greg_leap (y + 1) 1) with 0. destruct (greg_leap (y + 1)); lia. }
  assert (gdn (y + 2, 1, 1) <= gdn (y', 1, 1)).
  { destruct (Z.eq_dec y' (y + 2)) as [->|C3]; [lia|]. pose proof (L _ _ _ _ _ _ (F (y + 2)) (F y') ltac:(lia)). lia. }
  lia.
Qed.

(** The result is in week n exactly when both days are Sundays or both are not. *)
Lemma week_right d n w1 w : valid_dt d -> 1901 <= mYear d <= 2100 -> 1 <= n <= 52 ->
  is_weekday (mYear d, 1, 1) w1 -> is_weekday (ymd d) w -> ~ iso_week (ymd d) n ->
  exists r, setWeekNo d n = Ok r /\ (iso_week (ymd r) n <-> (w1 = 0 <-> w = 0)).
Proof.
  intros V Hy Hn W1 W Hw.
  assert (V1 : valid_date greg_leap (mYear d, 1, 1)) by (apply valid_first; lia).
  pose proof (valid_gh d V ltac:(lia)) as Vg.
  set (k := (7 - (gdn (mYear d, 1, 1) - gdn (1970, 1, 1))) mod 7).
  destruct (gdn_surj (mYear d, 1, 1) k V1) as (th & Vt & Et).
  assert (T : nth_wd_from (mYear d, 1, 1) 4 1 th).
  { apply nth_first with k; [subst k; apply Z.mod_pos_bound; lia|apply gb; assumption|]. apply is_weekday_gdn; [exact Vt|]. rewrite Et. subst k. lia. }
  destruct (week_chosen d n w1 w th V Hy ltac:(lia) W1 W T Hw) as (r & E & Vr & _ & Yr & Wr & B). exists r. split; [exact E|].
  pose proof (valid_gh r Vr Yr) as Vrg.
  assert (D : forall j, exists b, valid_date greg_leap b /\ gdn b = gdn th + 7 * j) by (intro j; apply gdn_surj; exact Vt).
  destruct (gdn_surj th (7 * (n - 1) + (iso_wd w - 4)) Vt) as (b & Vb & Eb).
  apply gb in B; [|exact Vt|exact Vrg].
  assert (Wb : is_weekday b w).
  { apply is_weekday_gdn in Wr; [|exact Vrg]. apply is_weekday_gdn; [exact Vb|]. rewrite Wr, B, Eb. unfold week_shift. destruct (w =? 0), (w1 =? 0); lia. }
  assert (Nth : forall j : nat, forall x, valid_date greg_leap x -> gdn x = gdn th + 7 * Z.of_nat j -> nth_wd_from (mYear d, 1, 1) 4 (Z.of_nat j + 1) x).
  { induction j as [|j IH]; intros x Vx Ex.
    - assert (x = th) as ->; [|exact T]. apply (dn_inj greg_leap Lg Lg_step); auto. unfold gdn in *. lia.
    - destruct (D (Z.of_nat j)) as (z & Vz & Ez). replace (Z.of_nat (S j) + 1) with (Z.of_nat j + 1 + 1) by lia.
      apply nth_next with z; [apply IH; assumption|]. apply gb; auto. lia. }
  assert (Ib : iso_week b n).
  { apply (iso_week_date_week (mYear d) n w); auto; [lia|]. destruct (D (n - 1)) as (z & Vz & Ez). exists z. split.
    - replace n with (Z.of_nat (Z.to_nat (n - 1)) + 1) by lia. apply Nth; auto. lia.
    - apply gb; auto. lia. }
  unfold week_shift in B. split.
  - intro I. destruct (Z.eqb_spec w 0) as [w0|w0], (Z.eqb_spec w1 0) as [w10|w10]; try tauto; exfalso.
    + apply (week_apart (ymd r) b n); auto. lia.
    + apply (week_apart b (ymd r) n); auto. lia.
  - intro Q. assert (ymd r = b) as ->; [|exact Ib]. apply (dn_inj greg_leap Lg Lg_step); auto.
    assert (gdn (ymd r) = gdn b); [|assumption]. destruct (Z.eqb_spec w 0), (Z.eqb_spec w1 0); try tauto; lia.
Qed.
Lemma week_same d n : valid_dt d -> 1901 <= mYear d <= 2100 -> iso_week (ymd d) n -> setWeekNo d n = Ok d.
Proof. intros V Hy I. apply getWeekNo_iff in I; auto. unfold setWeekNo. rewrite I. cbn [rbind]. rewrite Z.eqb_refl. reflexivity. Qed.
