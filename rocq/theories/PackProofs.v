From Verif Require Import PyBase CalModel.
From Coq Require Import ZArith Lia.
Local Open Scope Z_scope.

Lemma mask8 x : Z.land x 255 = x mod 256.
Proof. change 255 with (Z.ones 8); rewrite Z.land_ones by lia; reflexivity. Qed.
Lemma mask16 x : Z.land x 65535 = x mod 65536.
Proof. change 65535 with (Z.ones 16); rewrite Z.land_ones by lia; reflexivity. Qed.

Lemma pack_day y m d : -128 <= d <= 127 -> Z.land (packDate y m d) 255 - 128 = d.
Proof.
  intros H; unfold packDate; rewrite !Z.land_lor_distr_l, !mask8, !Z.shiftl_mul_pow2 by lia.
  change (2 ^ 16) with (256 * 256); change (2 ^ 8) with 256.
  rewrite Z.mul_assoc, !Z.mod_mul by lia. rewrite !Z.lor_0_l, Z.mod_small; lia.
Qed.

Lemma shr_small x n : 0 <= n -> 0 <= x < 2 ^ n -> Z.shiftr x n = 0.
Proof. intros Hn H; rewrite Z.shiftr_div_pow2 by assumption; apply Z.div_small; assumption. Qed.

Lemma pack_month y m d : 0 <= m <= 255 -> -128 <= d <= 127 -> Z.shiftr (Z.land (packDate y m d) 65280) 8 = m.
Proof.
  intros Hm H; unfold packDate; rewrite Z.shiftr_land; change (Z.shiftr 65280 8) with 255.
  rewrite !Z.shiftr_lor, (shr_small (d + 128)) by lia.
  replace (Z.shiftr (Z.shiftl m 8) 8) with m by (rewrite Z.shiftr_shiftl_l by lia; reflexivity).
  rewrite Z.shiftr_shiftl_l by lia. change (16 - 8) with 8.
  rewrite Z.lor_0_r, Z.land_lor_distr_l, !mask8, Z.shiftl_mul_pow2 by lia. change (2 ^ 8) with 256.
  rewrite Z.mod_mul by lia. rewrite Z.lor_0_l, Z.mod_small; lia.
Qed.

Lemma pack_year y m d : 0 <= y <= 65535 -> 0 <= m <= 255 -> -128 <= d <= 127 ->
  Z.shiftr (Z.land (packDate y m d) 4294901760) 16 = y.
Proof.
  intros Hy Hm H; unfold packDate; rewrite Z.shiftr_land; change (Z.shiftr 4294901760 16) with 65535.
  rewrite !Z.shiftr_lor, (shr_small (d + 128)) by lia.
  rewrite (shr_small (Z.shiftl m 8)) by (try (rewrite Z.shiftl_mul_pow2 by lia; change (2 ^ 8) with 256; change (2 ^ 16) with 65536); lia).
  replace (Z.shiftr (Z.shiftl y 16) 16) with y by (rewrite Z.shiftr_shiftl_l by lia; reflexivity).
  rewrite !Z.lor_0_r, mask16, Z.mod_small; lia.
Qed.

Lemma pack_unpack y m d : 0 <= y <= 65535 -> 0 <= m <= 255 -> -128 <= d <= 127 ->
  unpackDate (packDate y m d) = (y, m, d) /\ unpackDateYear (packDate y m d) = y /\
  unpackDateMonth (packDate y m d) = m /\ unpackDateDay (packDate y m d) = d.
Proof.
  intros; unfold unpackDate, unpackDateYear, unpackDateMonth, unpackDateDay.
  rewrite pack_year, pack_month, pack_day by lia. auto.
Qed.

(** Packed dates keep the calendar order. *)
Lemma lor_add a b : Z.land a b = 0 -> Z.lor a b = a + b.
Proof. intros H; rewrite Z.add_nocarry_lxor by assumption; symmetry; apply Z.lxor_lor; assumption. Qed.

Lemma land_high a b : 0 <= b < 256 -> Z.land (Z.shiftl a 8) b = 0.
Proof.
  intros H. rewrite <- (Z.mod_small b 256) by lia. rewrite <- mask8.
  rewrite (Z.land_comm b), Z.land_assoc, mask8, Z.shiftl_mul_pow2 by lia. change (2 ^ 8) with 256.
  rewrite Z.mod_mul by lia. apply Z.land_0_l.
Qed.

Lemma pack_value y m d : 0 <= m <= 255 -> -128 <= d <= 127 ->
  packDate y m d = y * 65536 + m * 256 + (d + 128).
Proof.
  intros Hm Hd; unfold packDate.
  assert (H1 : Z.lor (Z.shiftl y 16) (Z.shiftl m 8) = Z.shiftl (y * 256 + m) 8).
  { replace (Z.shiftl y 16) with (Z.shiftl (Z.shiftl y 8) 8) by (rewrite Z.shiftl_shiftl by lia; reflexivity).
    rewrite <- Z.shiftl_lor. f_equal. rewrite lor_add by (apply land_high; lia).
    rewrite Z.shiftl_mul_pow2 by lia; change (2 ^ 8) with 256; lia. }
  rewrite H1, lor_add by (apply land_high; lia).
  rewrite Z.shiftl_mul_pow2 by lia; change (2 ^ 8) with 256; lia.
Qed.

Lemma pack_order y m d y' m' d' : 0 <= m <= 255 -> -128 <= d <= 127 -> 0 <= m' <= 255 -> -128 <= d' <= 127 ->
  (packDate y m d < packDate y' m' d' <-> y < y' \/ (y = y' /\ (m < m' \/ (m = m' /\ d < d')))).
Proof. intros; rewrite !pack_value by lia; lia. Qed.
