(** Proofs about the sets generated for WEEKLY rules and for YEARLY rules with BYDAY alone. *)
From Coq Require Import Lia ZifyBool ZifyNat Sorting.Permutation Sorting.Sorted.
From Verif Require Import PyBase PyProofs CalModel CalSpec DateTimeModel DateTimeSpec CalProofs DateTimeProofs DateTimeProofs2
  DateTimeProofs3 RecurModel RecurSpec RecurExpand RecurSetSpec RecurSetProofs RecurSortProofs RecurSetProofs2 PropDateProofs.
Ltac Zify.zify_post_hook ::= Z.div_mod_to_equations.

Section WithTz.
Variable tzo : tzid -> Z -> Z -> Z -> Z -> Z -> Z -> bool -> bool -> Z.

(** A valid date is found at most a few days from another one, in a neighbouring year. *)
Lemma near_year a b : valid_date hist_leap a -> valid_date hist_leap b ->
  -300 < dnd hist_leap Lh b - dnd hist_leap Lh a < 300 -> year_of a - 1 <= year_of b <= year_of a + 1.
Proof.
  intros Va Vb H. destruct a as [[y m] d], b as [[y' m'] d']. unfold year_of, dnd in *. cbn [fst snd] in *.
  assert (J : forall z, hdn (z + 1) 1 1 = hdn z 1 1 + yearlen z) by apply hdn_jan1_next.
  assert (L : forall z, 365 <= yearlen z <= 366) by (intro z; unfold yearlen; destruct (hist_leap z); lia).
  assert (F : forall z, valid_date hist_leap (z, 1, 1)) by (intro; apply valid_first; lia).
  assert (T : forall z mm dd, valid_date hist_leap (z, mm, dd) -> hdn z 1 1 <= hdn z mm dd < hdn (z + 1) 1 1).
  { intros z mm dd V. split.
    - destruct V as [Hm Hd]. pose proof (upto_bounds hist_leap z mm Hm). unfold hdn, dn. change (upto hist_leap z 1) with 0. lia.
    - pose proof (dn_lt_year hist_leap Lh Lh_step z mm dd (z + 1) 1 1 V (F _) ltac:(lia)). unfold hdn. lia. }
  assert (M : forall z z', z <= z' -> hdn z 1 1 <= hdn z' 1 1).
  { intros z z' Hz. destruct (Z.eq_dec z z') as [->|]; [lia|].
    pose proof (dn_lt_year hist_leap Lh Lh_step z 1 1 z' 1 1 (F _) (F _) ltac:(lia)). unfold hdn. lia. }
  pose proof (T _ _ _ Va) as TA. pose proof (T _ _ _ Vb) as TB.
  change (-300 < hdn y' m' d' - hdn y m d < 300) in H.
  pose proof (J y) as J0. pose proof (J (y' )) as J1. pose proof (L y). pose proof (L y').
  pose proof (J (y + 1)) as J2. pose proof (J (y' + 1)) as J3. pose proof (L (y + 1)). pose proof (L (y' + 1)).
  split.
  - destruct (Z_lt_le_dec y' (y - 1)); [|lia]. pose proof (M (y' + 1 + 1) y ltac:(lia)). lia.
  - destruct (Z_lt_le_dec (y + 1) y'); [|lia]. pose proof (M (y + 1 + 1) y' ltac:(lia)). lia.
Qed.

Definition in_week (wkst : Z) (d0 : date) (nw : Z * Z) (dd : date) : Prop :=
  fst nw = 0 /\ valid_date greg_leap dd /\ same_week wkst d0 dd /\ is_weekday dd (snd nw).

Lemma offset_gdn x k : valid_dt x -> 1902 <= mYear x <= 2099 -> -7 <= k <= 7 ->
  let e := offsetDay x k in
  valid_date greg_leap (ymd e) /\ 1901 <= mYear e <= 2100 /\ gdn (ymd e) = gdn (ymd x) + k /\ same_time e x.
Proof.
  intros V Y Hk. cbv zeta. destruct (offsetDay_spec x k V) as (B & Ve & C & K1 & K2 & K3).
  apply hb in B; [|apply V|apply Ve].
  assert (Y' : 1901 <= mYear (offsetDay x k) <= 2100).
  { pose proof (near_year (ymd x) (ymd (offsetDay x k)) (proj1 V) (proj1 Ve) ltac:(lia)) as N. unfold year_of, ymd in N. cbn [fst] in N. lia. }
  split; [apply valid_gh; [exact Ve|lia]|]. split; [exact Y'|]. split.
  - unfold ymd. rewrite !gdn_hdn by lia. exact B.
  - unfold same_time. injection C as -> -> ->. rewrite K1, K2, K3. reflexivity.
Qed.

Lemma same_week_gdn wkst a b : valid_date greg_leap a -> valid_date greg_leap b -> 0 <= wkst <= 6 ->
  same_week wkst a b -> forall W, W = (4 + (gdn a - gdn (1970,1,1))) mod 7 ->
  0 <= gdn b - (gdn a - (W - wkst) mod 7) < 7.
Proof.
  intros Va Vb Hw (ws & i & j & Vw & D & B1 & Hi & B2 & Hj) W HW.
  apply gb in B1; auto. apply gb in B2; auto. apply is_weekday_gdn in D; [|exact Vw]. lia.
Qed.

Lemma byday_weekly s D wkst l ds : set_start s -> 0 <= wkst <= 6 -> describes ds (dset s D) ->
  (forall dd, D dd -> valid_date greg_leap dd /\ 1902 <= year_of dd <= 2099) -> all_in (fun nw => 0 <= snd nw <= 6) l ->
  exists o, part l (byDayExpandWeekly wkst) ds = Ok o /\
    describes o (dset s (fun dd => (given l /\ exists d0, D d0 /\ exists nw, In nw (items l) /\ in_week wkst d0 nw dd) \/ (~ given l /\ D dd))).
Proof.
  intros SS Hw H I R. unfold byDayExpandWeekly.
  match goal with |- exists o, part l (fun l dates => flat_mapr (fun d => flat_mapr (@?f d) l) dates) ds = _ /\ _ =>
    apply (expand_part s D l f (in_week wkst) ds H) end.
  intros x nw Hx Hn. assert (0 <= snd nw <= 6) as Rw.
  { destruct l as [l|]; [|destruct Hn]. apply (proj1 (Forall_forall _ _) R), Hn. }
  destruct (I _ (proj1 (proj2 Hx))) as [V Y]. change (year_of (ymd x)) with (mYear x) in Y. clear Hn.
  destruct (Z.eqb_spec (fst nw) 0) as [Z0|Z0].
  2:{ exists []. split; [reflexivity|]. split; [intros e []|]. intros e (_ & (Q & _) & _). contradiction. }
  assert (Vx : valid_dt x) by (apply (dset_valid s SS D); auto; lia).
  rewrite wd_ok by (try apply valid_month; auto; lia). cbn [rbind].
  set (W := (4 + (hdn (mYear x) (mMonth x) (mDay x) - hdn 1970 1 1)) mod 7).
  assert (HW : W = (4 + (gdn (ymd x) - gdn (1970, 1, 1))) mod 7) by (unfold ymd; rewrite !gdn_hdn by lia; reflexivity).
  set (a := if 0 <? wkst - W then wkst - W - 7 else wkst - W).
  set (b := if snd nw - wkst <? 0 then snd nw - wkst + 7 else snd nw - wkst).
  assert (Ha : a = - ((W - wkst) mod 7)) by (subst a; destruct (Z.ltb_spec 0 (wkst - W)); lia).
  assert (Hb : b = (snd nw - wkst) mod 7) by (subst b; destruct (Z.ltb_spec (snd nw - wkst) 0); lia).
  destruct (offset_gdn x (a + b) Vx Y ltac:(lia)) as (Ve & Ye & Ge & Te).
  destruct (offset_gdn x a Vx Y ltac:(lia)) as (Va & Ya & Ga & Ta).
  eexists. split; [reflexivity|]. apply one_desc.
  - destruct Hx as ((K1 & K2 & K3) & _ & C1 & C2 & C3). unfold same_time in Te.
    repeat match goal with H : (_, _) = (_, _) |- _ => apply pair_equal_spec in H; destruct H end.
    split; [split; [|split]; congruence|]. split; [|repeat split; congruence].
    split; [exact Z0|]. split; [exact Ve|]. split.
    + exists (ymd (offsetDay x a)), (- a), b. split; [exact Va|]. split; [apply is_weekday_gdn; [exact Va|lia]|].
      split; [apply gb; auto; lia|]. split; [lia|]. split; [apply gb; auto; lia|lia].
    + apply is_weekday_gdn; [exact Ve|]. lia.
  - intros dd (_ & Vd & SW & Wd). apply is_weekday_gdn in Wd; [|exact Vd].
    pose proof (same_week_gdn wkst (ymd x) dd V Vd Hw SW W HW) as Q.
    apply (dn_inj greg_leap Lg Lg_step); auto. fold gdn. change (gdn dd = gdn (ymd (offsetDay x (a + b)))). lia.
Qed.

Lemma weekly_set r s : rFreq r = WEEKLY -> in_ranges r -> ~ given (rBySetPos r) -> valid_dt s -> 1902 <= mYear s <= 2099 ->
  exists out, generate_set tzo r s = Ok out /\ in_order tzo out /\
    describes out (fun e => same_kind s e /\ clock_ok r s e /\ week_days r (ymd s) (ymd e)).
Proof.
  intros F R G V Y.
  assert (SS : set_start s) by (split; [apply valid_month, V|apply V]).
  assert (Vg : valid_date greg_leap (ymd s)) by (apply valid_gh; [exact V|lia]).
  assert (R2 : all_in (fun nw => 0 <= snd nw <= 6) (rByDay r)).
  { destruct R as (_ & _ & _ & _ & _ & R & _). destruct (rByDay r); [|exact I]. eapply Forall_impl; [|exact R]. intros a [_ Ha]. exact Ha. }
  assert (RW : 0 <= rWeekstart r <= 6) by apply R.
  destruct (month_limit s _ (rByMonth r) [s] (start_desc s)) as (o & Eo & D1).
  destruct (week_limit s SS _ (rByWeekNo r) o D1) as (o1 & Eo1 & D2).
  { intros dd [<- _]. split; [exact Vg|]. unfold year_of, ymd. cbn [fst]. lia. }
  destruct (byday_weekly s _ (rWeekstart r) (rByDay r) o1 SS RW D2) as (o2 & E2 & D3); [|exact R2|].
  { intros dd [[<- _] _]. split; [exact Vg|exact Y]. }
  set (Dx := fun dd => _ \/ _) in D3.
  destruct (clock_tail r s o2 Dx) as (o3 & E3 & H3); [rewrite F; reflexivity|exact D3|].
  assert (E : pre_set r s = Ok o3).
  { unfold pre_set. rewrite F. unfold pre_weekly. rewrite Eo. cbn [rbind]. rewrite Eo1. cbn [rbind]. rewrite E2. cbn [rbind]. exact E3. }
  destruct (finish_desc tzo r s o3 Dx (clock_unit (rByHours r) (hours_free (rFreq r)) (mHours s))
    (clock_unit (rByMinutes r) (minutes_free (rFreq r)) (mMinutes s)) (clock_unit (rBySeconds r) (seconds_free (rFreq r)) (mSeconds s)) G E)
    as (out & Eo' & Ho & Do).
  - exact H3.
  - assert (RR : forall dd, valid_date greg_leap dd -> 1752 < year_of dd -> 1 <= month_of dd <= 12 /\ 1752 < year_of dd).
    { intros dd Vd Yd. split; [|exact Yd]. destruct dd as [[y m] d]. apply Vd. }
    intros dd [(_ & d0 & [[<- _] _] & nw & _ & _ & Vd & (ws & i & j & Vw & _ & B1 & Hi & B2 & Hj) & _)|[_ [[<- _] _]]].
    + apply RR; [exact Vd|].
      destruct (Z_lt_le_dec 1752 (year_of dd)) as [|C]; [assumption|exfalso].
      apply gb in B1; auto. apply gb in B2; auto. destruct dd as [[y m] d]. unfold year_of in C. cbn [fst] in C.
      pose proof (dn_lt_year greg_leap Lg Lg_step y m d 1900 1 1 Vd ltac:(apply valid_first; lia) ltac:(lia)) as L1.
      pose proof (dn_lt_year greg_leap Lg Lg_step 1901 1 1 (mYear s) (mMonth s) (mDay s) ltac:(apply valid_first; lia) Vg ltac:(lia)) as L2.
      assert (L3 : dn greg_leap Lg 1901 1 1 = dn greg_leap Lg 1900 1 1 + 365) by reflexivity.
      unfold gdn, dnd, ymd in *. lia.
    + apply RR; [exact Vg|]. unfold year_of, ymd. cbn [fst]. lia.
  - exists out. split; [exact Eo'|]. split; [exact Ho|]. revert Do. apply describes_iff. intro e.
    unfold cset, clock_ok, week_days. split.
    + intros (K & [D' Vd] & C). split; [exact K|]. split; [exact C|].
      destruct D' as [(Gd & d0 & [[<- L1] L2] & nw & Hn & Z0 & _ & SW & Wd)|[Gd [[<- L1] L2]]].
      * split; [exact L1|]. split; [exact L2|]. split; [auto|]. split; [apply listed_given; [exact Gd|]; exists nw; auto|]. tauto.
      * split; [exact L1|]. split; [exact L2|]. split; [tauto|]. split; [apply listed_absent; auto|]. reflexivity.
    + intros (K & C & L1 & L2 & W1 & W2 & W3). split; [exact K|]. split; [|exact C].
      destruct (has (rByDay r)) eqn:Hh.
      * apply has_given in Hh. destruct (W1 Hh) as [Vd SW]. split; [|exact Vd]. left. split; [exact Hh|]. exists (ymd s).
        split; [split; [split|]; auto|]. apply listed_given in W2; [|exact Hh]. destruct W2 as (nw & Hn & Z0 & Wd).
        exists nw. split; [exact Hn|]. split; [exact Z0|]. auto.
      * apply has_not_given in Hh. rewrite (W3 Hh). split; [|exact Vg]. right. split; [exact Hh|]. auto.
Qed.

(** ** BYDAY within a year *)
Lemma year_of_day y k dd : valid_date hist_leap dd -> dnd hist_leap Lh dd = hdn y 1 k ->
  (year_of dd = y <-> 1 <= k <= yearlen y).
Proof.
  intros V E. destruct dd as [[y' m'] d']. unfold year_of, dnd in *. cbn [fst snd] in *.
  assert (K : hdn y 1 k = hdn y 1 1 + (k - 1)) by (unfold hdn, dn; lia).
  change (hdn y' m' d' = hdn y 1 k) in E. split.
  - intros ->. destruct V as [Hm Hd]. pose proof (upto_bounds hist_leap y m' Hm) as U.
    assert (365 <= yearlen y) by (unfold yearlen; destruct (hist_leap y); lia).
    pose proof (dn_lt_year hist_leap Lh Lh_step y m' d' (y + 1) 1 1 (conj Hm Hd) ltac:(apply valid_first; lia) ltac:(lia)) as L.
    pose proof (hdn_jan1_next y) as J. rewrite K in E. unfold hdn in *.
    assert (dn hist_leap Lh y 1 1 <= dn hist_leap Lh y m' d') by (unfold dn; change (upto hist_leap y 1) with 0; lia). lia.
  - intro Hk. apply (same_year_range y y' m' d' (k - 1) V); [|lia].
    apply hb; [apply valid_first; lia|exact V|]. unfold dnd. change (hdn y' m' d' = hdn y 1 1 + (k - 1)). lia.
Qed.

Lemma diy_day s D x n w : set_start s -> dset s D x -> ranged (ymd x) -> 0 <= w <= 6 -> n <> 0 ->
  exists k r, setDayOfWeekInYear x n w = Ok r /\ valid_dt r /\ same_time r x /\
    hdn (mYear r) (mMonth r) (mDay r) = hdn (mYear x) 1 k /\
    w = (4 + (hdn (mYear x) 1 k - hdn 1970 1 1)) mod 7 /\
    (0 < n -> 7 * (n - 1) < k <= 7 * n) /\
    (n < 0 -> 7 * (- n - 1) <= yearlen (mYear x) - k < 7 * - n).
Proof.
  intros SS Hx [Hm Hy] Hw Hn. change (year_of (ymd x)) with (mYear x) in Hy.
  unfold setDayOfWeekInYear. rewrite wd_ok by (cbn; lia). cbn [with_ymd mYear mMonth mDay rbind].
  set (F := hdn (mYear x) 1 1 - hdn 1970 1 1). rewrite isLeapYear_hist. fold (yearlen (mYear x)).
  match goal with |- context [normalise (with_ymd _ ?y ?m ?kk)] => set (k := kk) end.
  exists k. eexists. split; [reflexivity|].
  change (with_ymd (with_ymd x (mYear x) 1 1) (mYear x) 1 k) with (with_ymd x (mYear x) 1 k).
  destruct Hx as ((K1 & _) & _ & C1 & C2 & C3). destruct SS as (_ & T & O).
  destruct (normalise_day x (mYear x) 1 k ltac:(lia)) as (A & B & C & E1 & E2 & E3).
  { rewrite <- C1, <- C2, <- C3. exact T. }
  { rewrite K1. intro Q. unfold secs_of_day in *. rewrite <- C1, <- C2, <- C3. apply O, Q. }
  split; [exact A|]. split; [unfold same_time; injection C as -> -> ->; rewrite E1, E2, E3; reflexivity|]. split; [exact B|].
  assert (HF : hdn (mYear x) 1 k - hdn 1970 1 1 = F + (k - 1)) by (subst F; unfold hdn, dn; lia). rewrite HF.
  clearbody F. clear - Hw Hn k. subst k.
  destruct (Z.ltb_spec 0 n); [|destruct (Z.ltb_spec n 0); [|lia]]; cbv zeta.
  - destruct (Z.ltb_spec w ((4 + F) mod 7)); (split; [|split]); intros; lia.
  - set (dim := yearlen (mYear x)). destruct (Z.ltb_spec (((4 + F) mod 7 + dim - 1) mod 7) w); (split; [|split]); intros; lia.
Qed.

Lemma year_wd_iff dd nw : valid_date greg_leap dd -> 1901 <= year_of dd <= 2100 -> forall k,
  gdn dd = hdn (year_of dd) 1 k ->
  (is_year_weekday dd nw <-> snd nw = (4 + (hdn (year_of dd) 1 k - hdn 1970 1 1)) mod 7 /\
    (0 < fst nw -> 7 * (fst nw - 1) < k <= 7 * fst nw) /\ (fst nw < 0 -> 7 * (- fst nw - 1) <= yearlen (year_of dd) - k < 7 * - fst nw)).
Proof.
  intros V Y k E. unfold is_year_weekday. destruct nw as [n w]. cbn [fst snd].
  set (y := year_of dd) in *. rewrite is_weekday_gdn by exact V. rewrite E, !gdn_hdn by lia.
  assert (HF : hdn y 1 k = hdn y 1 1 + (k - 1)) by (unfold hdn, dn; lia).
  pose proof (hdn_dec31 y) as H31.
  assert (A : 0 < n -> nth_wd_from (y, 1, 1) w n dd <-> 7 * (n - 1) < k <= 7 * n /\ w = (4 + (hdn y 1 k - hdn 1970 1 1)) mod 7).
  { intro Hn. rewrite nth_from_iff by (auto; apply valid_first; lia). rewrite E, !gdn_hdn by lia. lia. }
  assert (B : n < 0 -> nth_wd_back (y, 12, 31) w (- n) dd <->
     7 * (- n - 1) <= yearlen y - k < 7 * - n /\ w = (4 + (hdn y 1 k - hdn 1970 1 1)) mod 7).
  { intro Hn. rewrite nth_back_iff by (auto; cbn; lia). rewrite E, !gdn_hdn by lia. lia. }
  tauto.
Qed.

Definition in_year (d0 : date) (nw : Z * Z) (dd : date) : Prop :=
  valid_date greg_leap dd /\ year_of dd = year_of d0 /\ is_year_weekday dd nw.

Lemma gdn_valid dd : valid_date greg_leap dd -> 1752 < year_of dd -> gdn dd = dnd hist_leap Lh dd /\ valid_date hist_leap dd.
Proof. destruct dd as [[y m] d]. unfold year_of. cbn [fst]. intros V Y. rewrite gdn_hdn by exact Y. split; [reflexivity|]. apply valid_greg_hist; assumption. Qed.

Lemma day_k dd : exists k, gdn dd = hdn (year_of dd) 1 k.
Proof. exists (gdn dd - hdn (year_of dd) 1 1 + 1). unfold hdn, dn. lia. Qed.

(** setDayOfWeekInYear when the day it looks for is in the year. *)
Lemma diy_in s D x n w : set_start s -> dset s D x -> ranged (ymd x) -> 0 <= w <= 6 -> n <> 0 ->
  exists r, setDayOfWeekInYear x n w = Ok r /\ dset s (fun _ => True) r /\
    (mYear r = mYear x -> in_year (ymd x) (n, w) (ymd r)) /\
    (forall dd, in_year (ymd x) (n, w) dd -> dd = ymd r) /\ (Z.abs n <= 52 -> mYear r = mYear x).
Proof.
  intros SS Hx Hr Hw Hn. destruct (diy_day s D x n w SS Hx Hr Hw Hn) as (k & r & E & Vr & T & B & W & P & N).
  destruct Hr as [Hm Hy]. change (year_of (ymd x)) with (mYear x) in Hy.
  assert (YR : year_of (ymd r) = mYear x <-> 1 <= k <= yearlen (mYear x)) by (apply year_of_day; [apply Vr|exact B]).
  change (year_of (ymd r)) with (mYear r) in YR.
  exists r. split; [exact E|]. split; [|split; [|split]].
  - destruct Hx as ((K1 & K2 & K3) & _ & C1 & C2 & C3). unfold same_time in T.
    repeat match goal with H : (_, _) = (_, _) |- _ => apply pair_equal_spec in H; destruct H end.
    split; [split; [|split]; congruence|]. split; [exact I|repeat split; congruence].
  - intro Q. assert (Vg : valid_date greg_leap (ymd r)) by (apply valid_gh; [exact Vr|lia]).
    split; [exact Vg|]. split; [exact Q|]. apply (year_wd_iff _ (n, w) Vg ltac:(unfold year_of, ymd; cbn [fst]; lia) k).
    + unfold ymd, year_of. cbn [fst]. rewrite gdn_hdn by lia. rewrite B, Q. reflexivity.
    + change (year_of (ymd r)) with (mYear r). rewrite Q. cbn [fst snd]. auto.
  - intros dd (Vd & Yd & Wd). change (year_of (ymd x)) with (mYear x) in Yd.
    destruct (gdn_valid dd Vd ltac:(lia)) as [Gd Hd]. destruct (day_k dd) as [k' Ek].
    apply (year_wd_iff dd (n, w) Vd ltac:(lia) k' Ek) in Wd. cbn [fst snd] in Wd. rewrite Yd in *.
    assert (k' = k).
    { destruct Wd as (W' & P' & N'). assert (HF : forall j, hdn (mYear x) 1 j = hdn (mYear x) 1 1 + (j - 1)) by (intro; unfold hdn, dn; lia).
      rewrite HF in W, W'. lia. }
    subst k'. apply hdn_inj; [exact Hd|apply Vr|]. rewrite <- Gd, Ek. symmetry. exact B.
  - intro Q. apply YR. assert (365 <= yearlen (mYear x)) by (unfold yearlen; destruct (hist_leap _); lia). lia.
Qed.

Lemma byday_yearly s D l ds : set_start s -> describes ds (dset s D) -> (forall dd, D dd -> ranged dd) ->
  all_in (fun nw => Z.abs (fst nw) <= 52 /\ 0 <= snd nw <= 6) l ->
  exists o, part l byDayExpandYearly ds = Ok o /\
    describes o (dset s (fun dd => (given l /\ exists d0, D d0 /\ exists nw, In nw (items l) /\ in_year d0 nw dd) \/ (~ given l /\ D dd))).
Proof.
  intros SS H I0 R. unfold byDayExpandYearly.
  match goal with |- exists o, part l (fun l dates => flat_mapr (fun d => flat_mapr (@?f d) l) dates) ds = _ /\ _ =>
    apply (expand_part s D l f in_year ds H) end.
  intros x nw Hx Hn. assert (Z.abs (fst nw) <= 52 /\ 0 <= snd nw <= 6) as [Rn Rw].
  { destruct l as [l|]; [|destruct Hn]. apply (proj1 (Forall_forall _ _) R), Hn. }
  pose proof (I0 _ (proj1 (proj2 Hx))) as Hr. clear Hn.
  destruct (Z.eqb_spec (fst nw) 0) as [Z0|Z0]; cbn [negb].
  - destruct (flat_mapr_desc (fun i => do t <- setDayOfWeekInYear x i (snd nw); Ok (if mYear t =? mYear x then [t] else []))
      (fun i => dset s (in_year (ymd x) (i, snd nw))) (ints1 53)) as (ys & E & Dy).
    + intros i Hi. apply in_map_iff in Hi as (j & <- & Hj). apply in_seq in Hj.
      destruct (diy_in s D x (Z.of_nat j) (snd nw) SS Hx Hr Rw ltac:(lia)) as (r & E & (K & _ & C) & Y1 & U & _).
      rewrite E. cbn [rbind]. eexists. split; [reflexivity|]. destruct (Z.eqb_spec (mYear r) (mYear x)) as [Q|Q].
      * apply one_desc; [|exact U]. split; [exact K|]. split; [apply Y1, Q|exact C].
      * split; [intros e []|]. intros e (_ & Dd & _). exfalso. apply Q. pose proof (U _ Dd) as Ue. destruct Dd as (_ & Yd & _).
        rewrite Ue in Yd. exact Yd.
    + exists ys. split; [exact E|]. revert Dy. apply describes_iff. intro e. unfold dset, cset. split.
      * intros (i & Hi & K & (V & Y & W1 & _) & C). split; [exact K|]. split; [|exact C].
        split; [exact V|]. split; [exact Y|]. destruct nw as [n w]. cbn [fst snd] in *. subst n. split; [exact W1|]. cbn [fst]. split; lia.
      * intros (K & (V & Y & W) & C). destruct Hr as [Hm Hy]. rewrite <- Y in Hy.
        destruct (gdn_valid _ V ltac:(lia)) as [Gd Hd]. destruct (day_k (ymd e)) as [k Ek].
        assert (Hk : 1 <= k <= yearlen (year_of (ymd e))) by (apply (year_of_day _ k (ymd e) Hd); [congruence|reflexivity]).
        assert (yearlen (year_of (ymd e)) <= 366) by (unfold yearlen; destruct (hist_leap _); lia).
        apply (year_wd_iff _ nw V Hy k Ek) in W. destruct W as (W & _).
        exists ((k - 1) / 7 + 1). split.
        -- replace ((k - 1) / 7 + 1) with (Z.of_nat (Z.to_nat ((k - 1) / 7 + 1))) by lia. apply in_map, in_seq. lia.
        -- split; [exact K|]. split; [|exact C]. split; [exact V|]. split; [exact Y|].
           apply (year_wd_iff _ _ V Hy k Ek). cbn [fst snd]. split; [exact W|]. lia.
  - destruct (diy_in s D x (fst nw) (snd nw) SS Hx Hr Rw Z0) as (r & E & (K & _ & C) & Y1 & U & Y2). rewrite E. cbn [rbind].
    eexists. split; [reflexivity|]. destruct nw as [n w]. cbn [fst snd] in *. apply one_desc; [|exact U].
    split; [exact K|]. split; [apply Y1, Y2, Rn|exact C].
Qed.

Lemma yearly_day_set r s : rFreq r = YEARLY -> in_ranges r -> ~ given (rBySetPos r) -> ~ given (rByYearDay r) -> ~ given (rByWeekNo r) ->
  ~ given (rByMonth r) -> ~ given (rByMonthDay r) -> given (rByDay r) -> all_in (fun nw => Z.abs (fst nw) <= 52) (rByDay r) ->
  set_start s -> 1901 <= mYear s <= 2100 ->
  exists out, generate_set tzo r s = Ok out /\ in_order tzo out /\
    describes out (fun e => same_kind s e /\ clock_ok r s e /\
      valid_date greg_leap (ymd e) /\ mYear e = mYear s /\ listed (rByDay r) (is_year_weekday (ymd e))).
Proof.
  intros F R G GY GW GM GD GB R52 SS Y.
  assert (R2 : all_in (fun nw => Z.abs (fst nw) <= 52 /\ 0 <= snd nw <= 6) (rByDay r)).
  { destruct R as (_ & _ & _ & _ & _ & R & _). destruct (rByDay r) as [l|]; [|exact I]. cbn [all_in] in *.
    rewrite Forall_forall in *. intros a Ha. split; [apply R52, Ha|apply R, Ha]. }
  destruct (byday_yearly s _ (rByDay r) [s] SS (start_desc s)) as (o2 & E2 & D2); [|exact R2|].
  { intros dd <-. split; [apply SS|exact Y]. }
  set (Dx := fun dd => _ \/ _) in D2.
  destruct (clock_tail r s o2 Dx) as (o3 & E3 & H3); [rewrite F; reflexivity|exact D2|].
  assert (E : pre_set r s = Ok o3).
  { unfold pre_set. rewrite F. unfold pre_yearly. apply has_not_given in GY, GW, GM, GD. unfold part at 1 2 3 4. rewrite GY, GW, GM, GD.
    cbn [rbind orb]. rewrite E2. cbn [rbind]. exact E3. }
  destruct (finish_desc tzo r s o3 Dx (clock_unit (rByHours r) (hours_free (rFreq r)) (mHours s))
    (clock_unit (rByMinutes r) (minutes_free (rFreq r)) (mMinutes s)) (clock_unit (rBySeconds r) (seconds_free (rFreq r)) (mSeconds s)) G E)
    as (out & Eo' & Ho & Do).
  - exact H3.
  - intros dd [(_ & d0 & <- & nw & _ & Vd & Yd & _)|[Q _]]; [|contradiction].
    change (year_of (ymd s)) with (mYear s) in Yd. split; [|lia]. destruct dd as [[y m] d]. apply Vd.
  - exists out. split; [exact Eo'|]. split; [exact Ho|]. revert Do. apply describes_iff. intro e.
    unfold cset, clock_ok. split.
    + intros (K & [[(_ & d0 & <- & nw & Hn & Vd & Yd & W)|[Q _]] _] & C); [|contradiction].
      split; [exact K|]. split; [exact C|]. split; [exact Vd|]. split; [exact Yd|]. apply listed_given; [exact GB|]. exists nw. auto.
    + intros (K & C & Vd & Yd & L). split; [exact K|]. split; [|exact C]. split; [|exact Vd]. left. split; [exact GB|].
      exists (ymd s). split; [reflexivity|]. apply listed_given in L; [|exact GB]. destruct L as (nw & Hn & W). exists nw.
      split; [exact Hn|]. split; [exact Vd|]. split; [exact Yd|exact W].
Qed.
End WithTz.
