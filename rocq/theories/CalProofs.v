(** Proofs about the calendar arithmetic. *)
From Coq Require Import Lia ZifyBool ZifyNat.
From Verif Require Import PyBase CalModel CalSpec DateTimeModel.
Ltac Zify.zify_post_hook ::= Z.div_mod_to_equations.

(** ** Abstract calendars: a leap rule with a running count of leap years. *)
Section Ordinal.
Variable leap : Z -> bool.
Variable L : Z -> Z.
Hypothesis HL : forall y, L (y + 1) = L y + (if leap y then 1 else 0).

Definition upto (y m : Z) : Z :=
  (if m =? 1 then 0 else if m =? 2 then 31 else
   (if m =? 3 then 59 else if m =? 4 then 90 else if m =? 5 then 120 else if m =? 6 then 151
    else if m =? 7 then 181 else if m =? 8 then 212 else if m =? 9 then 243
    else if m =? 10 then 273 else if m =? 11 then 304 else 334) + (if leap y then 1 else 0)).

Definition dn (y m d : Z) : Z := 365 * y + L y + upto y m + d.

Lemma L_mono_nat (n : nat) : forall y, L y <= L (y + Z.of_nat n).
Proof.
  induction n as [|n IH]; intro y.
  - replace (y + Z.of_nat 0) with y by lia. lia.
  - replace (y + Z.of_nat (S n)) with ((y + Z.of_nat n) + 1) by lia.
    rewrite HL. specialize (IH y). destruct (leap _); lia.
Qed.

Lemma L_mono y y' : y <= y' -> L y <= L y'.
Proof.
  intro H. pose proof (L_mono_nat (Z.to_nat (y' - y)) y) as E.
  replace (y + Z.of_nat (Z.to_nat (y' - y))) with y' in E by lia. exact E.
Qed.

Lemma month_len_bounds y m : 28 <= month_len leap y m <= 31.
Proof using leap. try clear HL; try clear L. unfold month_len. destruct (leap y); repeat destruct (_ =? _); simpl; lia. Qed.

Ltac months m :=
  assert (m = 1 \/ m = 2 \/ m = 3 \/ m = 4 \/ m = 5 \/ m = 6 \/ m = 7 \/ m = 8 \/
          m = 9 \/ m = 10 \/ m = 11 \/ m = 12) as Hmonths by lia;
  repeat (destruct Hmonths as [Hmonths|Hmonths]); subst m.

Lemma upto_step y m : 1 <= m < 12 -> upto y (m + 1) = upto y m + month_len leap y m.
Proof using leap. try clear HL; try clear L. intro H. months m; try lia; unfold upto, month_len; simpl; destruct (leap y); lia. Qed.

Lemma upto_dec y : upto y 12 + month_len leap y 12 = 365 + (if leap y then 1 else 0).
Proof using leap. try clear HL; try clear L. unfold upto, month_len; simpl; destruct (leap y); lia. Qed.

Lemma dn_roll y m d : 1 <= m <= 12 ->
  dn (if m <? 12 then y else y + 1) (if m <? 12 then m + 1 else 1) d = dn y m (d + month_len leap y m).
Proof.
  intro H. destruct (Z.ltb_spec m 12).
  - unfold dn. rewrite upto_step by lia. lia.
  - assert (m = 12) by lia; subst m.
    unfold dn. rewrite HL. pose proof (upto_dec y).
    replace (upto (y + 1) 1) with 0 by reflexivity. lia.
Qed.

Lemma next_day_valid dd : valid_date leap dd -> valid_date leap (next_day leap dd).
Proof using leap. try clear HL; try clear L.
  destruct dd as [[y m] d]. unfold valid_date, next_day. intros [Hm Hd].
  pose proof (month_len_bounds y (m+1)). pose proof (month_len_bounds (y+1) 1).
  destruct (Z.ltb_spec d (month_len leap y m)); [lia|].
  destruct (Z.ltb_spec m 12); lia.
Qed.

Definition dnd (dd : date) : Z := let '(y, m, d) := dd in dn y m d.

Lemma next_day_dn dd : valid_date leap dd -> dnd (next_day leap dd) = dnd dd + 1.
Proof.
  destruct dd as [[y m] d]. unfold valid_date, next_day, dnd. intros [Hm Hd].
  destruct (Z.ltb_spec d (month_len leap y m)).
  - unfold dn; lia.
  - pose proof (dn_roll y m 1 Hm) as E. assert (d = month_len leap y m) by lia. subst d.
    unfold dn in *. destruct (Z.ltb_spec m 12); lia.
Qed.

Lemma upto_bounds y m : 1 <= m <= 12 ->
  0 <= upto y m /\ upto y m + month_len leap y m <= 365 + (if leap y then 1 else 0).
Proof using leap. try clear HL; try clear L. intro H. months m; unfold upto, month_len; simpl; destruct (leap y); lia. Qed.

Lemma upto_lt y m m' : 1 <= m -> m < m' -> m' <= 12 ->
  upto y m + month_len leap y m <= upto y m'.
Proof using leap. try clear HL; try clear L.
  intros H1 H2 H3.
  assert (forall n : nat, forall k, k = m + 1 + Z.of_nat n -> k <= 12 ->
            upto y m + month_len leap y m <= upto y k) as A.
  { induction n as [|n IH]; intros k Hk Hk12.
    - replace k with (m+1) by lia. rewrite upto_step by lia. lia.
    - specialize (IH (k-1)). replace k with ((k-1)+1) by lia. rewrite upto_step by lia.
      pose proof (month_len_bounds y (k-1)). lia. }
  apply (A (Z.to_nat (m' - m - 1))); lia.
Qed.

Lemma dn_lt_year y m d y' m' d' :
  valid_date leap (y, m, d) -> valid_date leap (y', m', d') -> y < y' -> dn y m d < dn y' m' d'.
Proof.
  unfold valid_date. intros [Hm Hd] [Hm' Hd'] Hy.
  pose proof (upto_bounds y m Hm). pose proof (upto_bounds y' m' Hm').
  pose proof (L_mono (y+1) y' ltac:(lia)). rewrite HL in *.
  unfold dn. destruct (leap y); lia.
Qed.

Lemma dn_lt y m d y' m' d' :
  valid_date leap (y, m, d) -> valid_date leap (y', m', d') ->
  (y < y' \/ (y = y' /\ (m < m' \/ (m = m' /\ d < d')))) -> dn y m d < dn y' m' d'.
Proof.
  intros V V' [H|[-> [H|[-> H]]]].
  - apply dn_lt_year; auto.
  - unfold valid_date in *. pose proof (upto_lt y' m m' ltac:(lia) H ltac:(lia)).
    unfold dn; lia.
  - unfold dn; lia.
Qed.

Lemma dn_inj a b : valid_date leap a -> valid_date leap b -> dnd a = dnd b -> a = b.
Proof.
  destruct a as [[y m] d], b as [[y' m'] d']. unfold dnd. intros Va Vb E.
  pose proof (dn_lt y m d y' m' d' Va Vb). pose proof (dn_lt y' m' d' y m d Vb Va).
  assert (y = y') by lia. assert (m = m') by lia. assert (d = d') by lia. congruence.
Qed.

Lemma iter_valid (n : nat) a : valid_date leap a ->
  valid_date leap (Nat.iter n (next_day leap) a) /\
  dnd (Nat.iter n (next_day leap) a) = dnd a + Z.of_nat n.
Proof.
  intro V. induction n as [|n [IHv IHd]].
  - split; [exact V|]. change (Nat.iter 0 (next_day leap) a) with a. lia.
  - change (Nat.iter (S n) (next_day leap) a) with (next_day leap (Nat.iter n (next_day leap) a)).
    split; [apply next_day_valid; exact IHv|]. rewrite next_day_dn by exact IHv. lia.
Qed.

Lemma days_between_dn a b n : valid_date leap a -> valid_date leap b ->
  (days_between leap a b n <-> dnd b = dnd a + n).
Proof.
  intros Va Vb. unfold days_between. split.
  - intros [[Hn E]|[Hn E]].
    + pose proof (iter_valid (Z.to_nat n) a Va) as [_ H]. rewrite E in H. lia.
    + pose proof (iter_valid (Z.to_nat (-n)) b Vb) as [_ H]. rewrite E in H. lia.
  - intro E. destruct (Z_lt_le_dec n 0) as [Hn|Hn].
    + right. split; [exact Hn|]. pose proof (iter_valid (Z.to_nat (-n)) b Vb) as [H1 H2].
      apply dn_inj; auto. lia.
    + left. split; [exact Hn|]. pose proof (iter_valid (Z.to_nat n) a Va) as [H1 H2].
      apply dn_inj; auto. lia.
Qed.
End Ordinal.

(** ** Leap counts of the two rules. *)
Definition Lg (y : Z) : Z := (y - 1) / 4 - (y - 1) / 100 + (y - 1) / 400.
Definition Lh (y : Z) : Z := if y <? 1753 then (y - 1) / 4 - 13 else Lg y.

Lemma Lg_step y : Lg (y + 1) = Lg y + (if greg_leap y then 1 else 0).
Proof.
  unfold Lg, greg_leap.
  destruct (Z.eqb_spec (y mod 400) 0); [lia|].
  destruct (Z.eqb_spec (y mod 100) 0); [lia|].
  destruct (Z.eqb_spec (y mod 4) 0); lia.
Qed.

Lemma Lh_step y : Lh (y + 1) = Lh y + (if hist_leap y then 1 else 0).
Proof.
  unfold Lh, hist_leap.
  destruct (Z.ltb_spec (y+1) 1753), (Z.ltb_spec y 1753).
  - destruct (Z.eqb_spec (y mod 4) 0); lia.
  - lia.
  - assert (y = 1752) by lia; subst y. reflexivity.
  - apply Lg_step.
Qed.

Lemma hist_greg y : 1752 < y -> hist_leap y = greg_leap y.
Proof. intro H. unfold hist_leap. destruct (Z.ltb_spec y 1753); [lia|reflexivity]. Qed.

Lemma isLeapYear_hist y : isLeapYear y = hist_leap y.
Proof.
  unfold isLeapYear, hist_leap, greg_leap.
  destruct (Z.leb_spec y 1752), (Z.ltb_spec y 1753); try lia; try reflexivity.
  destruct (Z.eqb_spec (y mod 4) 0), (Z.eqb_spec (y mod 100) 0), (Z.eqb_spec (y mod 400) 0);
    simpl; lia.
Qed.

Ltac months m :=
  assert (m = 1 \/ m = 2 \/ m = 3 \/ m = 4 \/ m = 5 \/ m = 6 \/ m = 7 \/ m = 8 \/
          m = 9 \/ m = 10 \/ m = 11 \/ m = 12) as Hmonths by lia;
  repeat (destruct Hmonths as [Hmonths|Hmonths]); subst m.

Lemma daysInMonth_r_ok m y : 1 <= m <= 12 -> daysInMonth_r m y = Ok (month_len hist_leap y m).
Proof.
  intro H. unfold daysInMonth_r, month_len. rewrite isLeapYear_hist.
  months m; destruct (hist_leap y); reflexivity.
Qed.

Lemma daysInMonth_ok m y : 1 <= m <= 12 -> daysInMonth m y = month_len hist_leap y m.
Proof. intro H. unfold daysInMonth. rewrite daysInMonth_r_ok by exact H. reflexivity. Qed.

Lemma daysUptoMonth_r_ok m y : 1 <= m <= 12 -> daysUptoMonth_r m y = Ok (upto hist_leap y m).
Proof.
  intro H. unfold daysUptoMonth_r, upto. rewrite isLeapYear_hist.
  months m; destruct (hist_leap y); reflexivity.
Qed.

Definition hdn := dn hist_leap Lh.

Lemma leapDays_eq n : leapDaysSince1970 n = (n + 1) / 4.
Proof. unfold leapDaysSince1970. destruct (Z.ltb_spec 2 n), (Z.ltb_spec n (-1)); lia. Qed.

(** The day count of the code on a valid month, for any day number. *)
Definition code_days (y m d : Z) : Z :=
  (y - 1970) * 365 + (y - 1969) / 4 + upto hist_leap y m + (d - 1).

Lemma daysSince1970_ok d : 1 <= mMonth d <= 12 ->
  daysSince1970 d = Ok (code_days (mYear d) (mMonth d) (mDay d)).
Proof.
  intro H. unfold daysSince1970. rewrite daysUptoMonth_r_ok by exact H. cbn [rbind].
  rewrite leapDays_eq. unfold code_days.
  replace (mYear d - 1970 + 1) with (mYear d - 1969) by lia. reflexivity.
Qed.

(** Error of the code's day count against the historical calendar after 1752. *)
Definition day_err (y : Z) : Z := (y - 1) / 100 - (y - 1) / 400 - 15.

Lemma code_days_err y m d : 1752 < y ->
  code_days y m d = hdn y m d - hdn 1970 1 1 + day_err y.
Proof.
  intro H. unfold code_days, hdn, dn, day_err, Lh.
  destruct (Z.ltb_spec y 1753); [lia|]. change (1970 <? 1753) with false. cbv iota.
  change (upto hist_leap 1970 1) with 0. change (Lg 1970) with 477. unfold Lg. lia.
Qed.

Lemma day_err_zero y : 1901 <= y <= 2100 -> day_err y = 0.
Proof. unfold day_err. lia. Qed.

Lemma code_days_ok y m d : 1901 <= y <= 2100 ->
  code_days y m d = hdn y m d - hdn 1970 1 1.
Proof. intro H. rewrite code_days_err by lia. rewrite day_err_zero by lia. lia. Qed.

(** greg/hist agreement on dates. *)
Lemma month_len_greg y m : 1752 < y -> month_len hist_leap y m = month_len greg_leap y m.
Proof. intro H. unfold month_len. rewrite hist_greg by exact H. reflexivity. Qed.

Lemma valid_greg_hist y m d : 1752 < y ->
  (valid_date greg_leap (y, m, d) <-> valid_date hist_leap (y, m, d)).
Proof. intro H. unfold valid_date. rewrite month_len_greg by exact H. tauto. Qed.

Lemma dn_greg_hist y m d : 1752 < y -> dn greg_leap Lg y m d = hdn y m d.
Proof.
  intro H. unfold hdn, dn, Lh. destruct (Z.ltb_spec y 1753); [lia|].
  unfold upto. rewrite hist_greg by exact H. reflexivity.
Qed.

(** ** The loops of normalise. *)
Lemma norm_fwd_ok f : forall y m d, 1 <= m <= 12 -> 0 < d -> d / 28 < Z.of_nat f ->
  exists y' m' d', norm_fwd f y m d = Some (y', m', d') /\
    valid_date hist_leap (y', m', d') /\ hdn y' m' d' = hdn y m d.
Proof.
  induction f as [|f IH]; intros y m d Hm Hd Hf; cbn [norm_fwd].
  - lia.
  - rewrite daysInMonth_ok by exact Hm.
    pose proof (month_len_bounds hist_leap y m) as Hb.
    destruct (Z.ltb_spec (month_len hist_leap y m) d) as [Hlt|Hge].
    + pose proof (dn_roll hist_leap Lh Lh_step y m (d - month_len hist_leap y m) Hm) as E.
      cbv zeta.
      destruct (Z.ltb_spec 12 (m + 1)) as [H12|H12], (Z.ltb_spec m 12) as [H12'|H12']; try lia.
      * destruct (IH (y+1) 1 (d - month_len hist_leap y m)) as (y' & m' & d' & E1 & V & E2); try lia.
        exists y', m', d'. split; [exact E1|]. split; [exact V|].
        rewrite E2. unfold hdn in *. rewrite E. f_equal. lia.
      * destruct (IH y (m+1) (d - month_len hist_leap y m)) as (y' & m' & d' & E1 & V & E2); try lia.
        exists y', m', d'. split; [exact E1|]. split; [exact V|].
        rewrite E2. unfold hdn in *. rewrite E. f_equal. lia.
    + exists y, m, d. split; [reflexivity|]. split; [|reflexivity].
      unfold valid_date. lia.
Qed.

Lemma norm_bwd_ok f : forall y m d, 1 <= m <= 12 ->
  d <= month_len hist_leap y m -> (- d) / 28 + 1 < Z.of_nat f ->
  exists y' m' d', norm_bwd f y m d = Some (y', m', d') /\
    valid_date hist_leap (y', m', d') /\ hdn y' m' d' = hdn y m d.
Proof.
  induction f as [|f IH]; intros y m d Hm Hd Hf; cbn [norm_bwd].
  - destruct (Z.leb_spec d 0).
    + lia.
    + exists y, m, d. split; [reflexivity|]. split; [unfold valid_date; lia|reflexivity].
  - destruct (Z.leb_spec d 0) as [Hle|Hgt].
    + cbv zeta. destruct (Z.ltb_spec (m - 1) 1) as [H1|H1].
      * rewrite daysInMonth_ok by lia.
        pose proof (month_len_bounds hist_leap (y-1) 12) as Hb.
        pose proof (dn_roll hist_leap Lh Lh_step (y-1) 12 d ltac:(lia)) as E.
        change (12 <? 12) with false in E. cbv iota in E.
        replace (y - 1 + 1) with y in E by lia. assert (m = 1) by lia; subst m.
        destruct (IH (y-1) 12 (d + month_len hist_leap (y-1) 12)) as (y' & m' & d' & E1 & V & E2); try lia.
        exists y', m', d'. split; [exact E1|]. split; [exact V|].
        rewrite E2. unfold hdn in *. symmetry. exact E.
      * rewrite daysInMonth_ok by lia.
        pose proof (month_len_bounds hist_leap y (m-1)) as Hb.
        pose proof (dn_roll hist_leap Lh Lh_step y (m-1) d ltac:(lia)) as E.
        destruct (Z.ltb_spec (m-1) 12); [|lia].
        replace (m - 1 + 1) with m in E by lia.
        destruct (IH y (m-1) (d + month_len hist_leap y (m-1))) as (y' & m' & d' & E1 & V & E2); try lia.
        exists y', m', d'. split; [exact E1|]. split; [exact V|].
        rewrite E2. unfold hdn in *. symmetry. exact E.
    + exists y, m, d. split; [reflexivity|]. split; [unfold valid_date; lia|reflexivity].
Qed.

Lemma norm_days_terminates y m d : 1 <= m <= 12 ->
  (if 0 <? d then norm_fwd (norm_fuel d) y m d else norm_bwd (norm_fuel d) y m d) <> None.
Proof.
  intro Hm. unfold norm_fuel. destruct (Z.ltb_spec 0 d) as [H|H].
  - destruct (norm_fwd_ok (Z.to_nat (Z.abs d / 28 + 2)) y m d Hm H) as (? & ? & ? & E & _); [lia|].
    rewrite E. discriminate.
  - pose proof (month_len_bounds hist_leap y m).
    destruct (norm_bwd_ok (Z.to_nat (Z.abs d / 28 + 2)) y m d Hm) as (? & ? & ? & E & _); [lia|lia|].
    rewrite E. discriminate.
Qed.

Lemma norm_days_ok y m d : 1 <= m <= 12 ->
  exists y' m' d', norm_days y m d = (y', m', d') /\
    valid_date hist_leap (y', m', d') /\ hdn y' m' d' = hdn y m d.
Proof.
  intro Hm. unfold norm_days, norm_fuel. destruct (Z.ltb_spec 0 d) as [H|H].
  - destruct (norm_fwd_ok (Z.to_nat (Z.abs d / 28 + 2)) y m d Hm H) as (y' & m' & d' & E & R); [lia|].
    exists y', m', d'. rewrite E. auto.
  - pose proof (month_len_bounds hist_leap y m).
    destruct (norm_bwd_ok (Z.to_nat (Z.abs d / 28 + 2)) y m d Hm) as (y' & m' & d' & E & R); [lia|lia|].
    exists y', m', d'. rewrite E. auto.
Qed.
