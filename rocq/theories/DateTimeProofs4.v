(** Comparison, equality and hashing of DateTime values. *)
From Coq Require Import Lia ZifyBool ZifyNat.
From Verif Require Import PyBase PyProofs CalModel CalSpec DateTimeModel DateTimeSpec DateTimeSpec2 CalProofs DateTimeProofs DateTimeProofs2 PropDateProofs.
Ltac Zify.zify_post_hook ::= Z.div_mod_to_equations.

Lemma pycmp_lt a b : (pycmp a b <? 0) = (a <? b).
Proof. unfold pycmp. destruct (Z.ltb_spec a b), (Z.eqb_spec a b); reflexivity || lia. Qed.
Lemma pycmp_eq a b : (pycmp a b =? 0) = (a =? b).
Proof. unfold pycmp. destruct (Z.ltb_spec a b), (Z.eqb_spec a b); reflexivity || lia. Qed.
Lemma pycmp_gt a b : (0 <? pycmp a b) = (b <? a).
Proof. unfold pycmp. destruct (Z.ltb_spec a b), (Z.eqb_spec a b), (Z.ltb_spec b a); reflexivity || lia. Qed.
Lemma pycmp_le a b : (pycmp a b <=? 0) = (a <=? b).
Proof. unfold pycmp. destruct (Z.ltb_spec a b), (Z.eqb_spec a b), (Z.leb_spec a b); reflexivity || lia. Qed.
Lemma pycmp_ge a b : (0 <=? pycmp a b) = (b <=? a).
Proof. unfold pycmp. destruct (Z.ltb_spec a b), (Z.eqb_spec a b), (Z.leb_spec b a); reflexivity || lia. Qed.
Lemma pycmp_sub a b a' b' : a - b = a' - b' -> pycmp a b = pycmp a' b'.
Proof. intro H. unfold pycmp. destruct (Z.ltb_spec a b), (Z.ltb_spec a' b'), (Z.eqb_spec a b), (Z.eqb_spec a' b'); reflexivity || lia. Qed.
Lemma pycmp_0 a b : pycmp a b = 0 <-> a = b.
Proof. unfold pycmp. destruct (Z.ltb_spec a b), (Z.eqb_spec a b); lia. Qed.
Lemma pycmp_opp a b : pycmp b a = - pycmp a b.
Proof. unfold pycmp. destruct (Z.ltb_spec a b), (Z.eqb_spec a b), (Z.ltb_spec b a), (Z.eqb_spec b a); lia. Qed.

Lemma cmp_lex a b (x y : Z) c : (a < b -> x < y) -> (b < a -> y < x) -> (a = b -> c = pycmp x y) ->
  (if pycmp a b =? 0 then c else pycmp a b) = pycmp x y.
Proof.
  intros H1 H2 H3. rewrite pycmp_eq. destruct (Z.eqb_spec a b); [auto|]. unfold pycmp.
  destruct (Z.ltb_spec a b), (Z.ltb_spec x y), (Z.eqb_spec a b), (Z.eqb_spec x y); lia.
Qed.

Lemma pycmp_mono a b x y : (a < b -> x < y) -> (b < a -> y < x) -> (a = b -> x = y) -> pycmp a b = pycmp x y.
Proof.
  intros H1 H2 H3. unfold pycmp.
  destruct (Z.ltb_spec a b), (Z.ltb_spec x y), (Z.eqb_spec a b), (Z.eqb_spec x y); lia.
Qed.

Lemma cmp_date_dn a b : valid_dt a -> valid_dt b ->
  cmp_date a b = pycmp (hdn (mYear a) (mMonth a) (mDay a)) (hdn (mYear b) (mMonth b) (mDay b)).
Proof.
  intros (Va & _) (Vb & _).
  pose proof (dn_lt hist_leap Lh Lh_step _ _ _ _ _ _ Va Vb) as L1.
  pose proof (dn_lt hist_leap Lh Lh_step _ _ _ _ _ _ Vb Va) as L2.
  unfold cmp_date, hdn. cbv zeta.
  apply cmp_lex; [intro; apply L1; lia|intro; apply L2; lia|intro E1].
  apply cmp_lex; [intro; apply L1; lia|intro; apply L2; lia|intro E2].
  apply pycmp_mono; [intro; apply L1; lia|intro; apply L2; lia|congruence].
Qed.

Lemma cmp_fields_abs a b : valid_dt a -> valid_dt b -> cmp_fields a b = pycmp (abs_secs a) (abs_secs b).
Proof.
  intros Va Vb. unfold cmp_fields. rewrite cmp_date_dn by auto. cbv zeta.
  pose proof (valid_secs a Va). pose proof (valid_secs b Vb).
  destruct Va as (_ & Ta & _). destruct Vb as (_ & Tb & _). unfold valid_time in *.
  unfold abs_secs, secs_of_day in *.
  set (A := hdn (mYear a) (mMonth a) (mDay a)). set (B := hdn (mYear b) (mMonth b) (mDay b)). clearbody A B.
  apply cmp_lex; [lia|lia|intro].
  apply cmp_lex; [lia|lia|intro].
  apply cmp_lex; [lia|lia|intro].
  apply pycmp_mono; lia.
Qed.

Lemma tz_eqb_refl t : tz_eqb t t = true.
Proof. destruct t; cbn; auto using beq_refl, Z.eqb_refl. Qed.
Lemma tz_eqb_eq a b : tz_eqb a b = true -> a = b.
Proof.
  destruct a, b; cbn; try discriminate; auto.
  - intro H. apply beq_eq in H. congruence.
  - intro H. apply Z.eqb_eq in H. congruence.
Qed.
Lemma tz_eqb_sym a b : tz_eqb a b = tz_eqb b a.
Proof. destruct a, b; cbn; auto using beq_sym, Z.eqb_sym. Qed.
Lemma tz_same_refl u t : tz_same u t u t = true.
Proof.
  unfold tz_same. rewrite orb_diag. destruct (is_float u t); auto.
  rewrite Bool.eqb_reflx. cbn [negb]. rewrite tz_eqb_refl. apply orb_true_r.
Qed.
Lemma tz_same_sym u1 t1 u2 t2 : tz_same u1 t1 u2 t2 = tz_same u2 t2 u1 t1.
Proof.
  unfold tz_same. rewrite (orb_comm (is_float u1 t1)). destruct (is_float u2 t2 || is_float u1 t1); auto.
  destruct u1, u2; cbn; auto. apply tz_eqb_sym.
Qed.

Section Cmp.
Variable tzo : tzid -> Z -> Z -> Z -> Z -> Z -> Z -> bool -> bool -> Z.

Lemma fc_tz_same a b : field_comparable a b -> tz_same (mTZUTC a) (mTZID a) (mTZUTC b) (mTZID b) = true.
Proof.
  intros [[-> ->]|[H|H]]; [apply tz_same_refl| |]; unfold tz_same; unfold floating, is_float in *; rewrite H; rewrite ?orb_true_r; reflexivity.
Qed.

(** All six operators agree with the passage of time on the calendar. *)
Lemma ops_of_cmp a b c : compareDateTime tzo a b = Ok c ->
  dt_lt tzo a b = Ok (c <? 0) /\ dt_le tzo a b = Ok (c <=? 0) /\ dt_gt tzo a b = Ok (0 <? c) /\
  dt_ge tzo a b = Ok (0 <=? c) /\ dt_eq tzo a b = Ok (c =? 0) /\ dt_ne tzo a b = Ok (negb (c =? 0)).
Proof. intro H. unfold dt_lt, dt_le, dt_gt, dt_ge, dt_eq, dt_ne. rewrite H. cbn. auto 10. Qed.

Lemma ops_pycmp a b x y : compareDateTime tzo a b = Ok (pycmp x y) ->
  dt_lt tzo a b = Ok (x <? y) /\ dt_le tzo a b = Ok (x <=? y) /\ dt_gt tzo a b = Ok (y <? x) /\
  dt_ge tzo a b = Ok (y <=? x) /\ dt_eq tzo a b = Ok (x =? y) /\ dt_ne tzo a b = Ok (negb (x =? y)).
Proof.
  intro H. destruct (ops_of_cmp a b _ H) as (H1 & H2 & H3 & H4 & H5 & H6).
  rewrite pycmp_lt in H1. rewrite pycmp_le in H2. rewrite pycmp_gt in H3. rewrite pycmp_ge in H4.
  rewrite pycmp_eq in H5, H6. auto 10.
Qed.

Lemma all_ops_cmp a b x : compareDateTime tzo a b = Ok (pycmp 0 x) -> all_ops tzo a b x.
Proof.
  intro H. apply ops_pycmp in H as (H1 & H2 & H3 & H4 & H5 & H6). unfold all_ops.
  rewrite (Z.eqb_sym x 0). auto 10.
Qed.

Lemma cmp_times a b n : valid_dt a -> valid_dt b -> mDateOnly a = false -> mDateOnly b = false ->
  field_comparable a b ->
  days_between hist_leap (ymd a) (ymd b) n ->
  all_ops tzo a b (86400 * n + secs_of_day b - secs_of_day a).
Proof.
  intros Va Vb Da Db F B. apply all_ops_cmp. unfold compareDateTime. rewrite Da, Db. cbn [orb].
  rewrite fc_tz_same by exact F. rewrite cmp_fields_abs by auto. f_equal. apply pycmp_sub.
  apply hb in B; [|apply Va|apply Vb]. unfold dnd, ymd in B. unfold abs_secs, hdn. lia.
Qed.

Lemma cmp_dates a b n : valid_dt a -> valid_dt b -> mDateOnly a = true \/ mDateOnly b = true ->
  days_between hist_leap (ymd a) (ymd b) n -> all_ops tzo a b n.
Proof.
  intros Va Vb D B. apply all_ops_cmp. unfold compareDateTime.
  replace (mDateOnly a || mDateOnly b) with true by (destruct D as [->| ->]; rewrite ?orb_true_r; reflexivity).
  rewrite cmp_date_dn by auto. f_equal. apply pycmp_sub.
  apply hb in B; [|apply Va|apply Vb]. unfold dnd, ymd in B. unfold hdn. lia.
Qed.

(** Different zones: the order of posix times. *)
Lemma cmp_posix a b pa pb : mDateOnly a = false -> mDateOnly b = false ->
  tz_same (mTZUTC a) (mTZID a) (mTZUTC b) (mTZID b) = false ->
  snd (getPosixTime tzo a) = Ok pa -> snd (getPosixTime tzo b) = Ok pb ->
  all_ops tzo a b (pb - pa).
Proof.
  intros Da Db T Pa Pb. apply all_ops_cmp. unfold compareDateTime. rewrite Da, Db, T. cbn [orb].
  rewrite Pa, Pb. cbn [rbind]. f_equal. apply pycmp_sub. lia.
Qed.

(** Agreement with the posix time. *)
Lemma cmp_same_offset a b : valid_dt a -> valid_dt b -> mDateOnly a = false -> mDateOnly b = false ->
  1901 <= mYear a <= 2100 -> 1901 <= mYear b <= 2100 ->
  coherent tzo a -> coherent tzo b ->
  (field_comparable a b -> tz_lookup tzo a false = tz_lookup tzo b false) ->
  exists pa pb, snd (getPosixTime tzo a) = Ok pa /\ snd (getPosixTime tzo b) = Ok pb /\ all_ops tzo a b (pb - pa).
Proof.
  intros Va Vb Da Db Ya Yb Ca Cb HO.
  rewrite !getPosixTime_fresh by auto. rewrite !fresh_posix_ok by (apply valid_month; auto).
  eexists _, _. split; [reflexivity|]. split; [reflexivity|].
  destruct (tz_same (mTZUTC a) (mTZID a) (mTZUTC b) (mTZID b)) eqn:T.
  - apply all_ops_cmp. unfold compareDateTime. rewrite Da, Db, T. cbn [orb]. rewrite cmp_fields_abs by auto.
    f_equal. apply pycmp_sub.
    assert (O : tz_lookup tzo a false = tz_lookup tzo b false).
    { unfold tz_same in T. unfold tz_lookup.
      destruct (is_float (mTZUTC a) (mTZID a) || is_float (mTZUTC b) (mTZID b)) eqn:FL.
      - apply HO. right. apply orb_true_iff in FL as [F|F]; [left|right]; exact F.
      - destruct (mTZUTC a) eqn:Ua, (mTZUTC b) eqn:Ub; cbn in T; try discriminate; auto.
        apply tz_eqb_eq in T. specialize (HO ltac:(left; split; congruence)). unfold tz_lookup in HO. rewrite Ua, Ub in HO. exact HO. }
    rewrite !code_days_hist, O. apply err_hist_zero in Ya, Yb. rewrite Ya, Yb. unfold abs_secs. lia.
  - apply cmp_posix; auto; rewrite getPosixTime_fresh by auto; rewrite fresh_posix_ok by (apply valid_month; auto); reflexivity.
Qed.

(** Order laws within a class of values that are comparable by fields. *)
Lemma lt_trans a b c : valid_dt a -> valid_dt b -> valid_dt c ->
  mDateOnly a = mDateOnly b -> mDateOnly b = mDateOnly c ->
  same_zone a b -> same_zone b c ->
  dt_lt tzo a b = Ok true -> dt_lt tzo b c = Ok true -> dt_lt tzo a c = Ok true.
Proof.
  intros Va Vb Vc D1 D2 S1 S2.
  assert (S3 : same_zone a c) by (unfold same_zone in *; intuition congruence).
  destruct (days_between_exists hist_leap Lh Lh_step (ymd a) (ymd b)) as (n1 & B1); [apply Va|apply Vb|].
  destruct (days_between_exists hist_leap Lh Lh_step (ymd b) (ymd c)) as (n2 & B2); [apply Vb|apply Vc|].
  assert (B3 : days_between hist_leap (ymd a) (ymd c) (n1 + n2)).
  { apply hb; [apply Va|apply Vc|]. apply hb in B1; [|apply Va|apply Vb]. apply hb in B2; [|apply Vb|apply Vc]. lia. }
  destruct (mDateOnly b) eqn:Db.
  - destruct (cmp_dates a b n1 Va Vb ltac:(auto) B1) as (-> & _).
    destruct (cmp_dates b c n2 Vb Vc ltac:(auto) B2) as (-> & _).
    destruct (cmp_dates a c _ Va Vc ltac:(auto) B3) as (-> & _).
    intros H1 H2. apply Ok_inj in H1, H2. f_equal. lia.
  - destruct (cmp_times a b n1 Va Vb ltac:(auto) ltac:(auto) ltac:(left; exact S1) B1) as (-> & _).
    destruct (cmp_times b c n2 Vb Vc ltac:(auto) ltac:(auto) ltac:(left; exact S2) B2) as (-> & _).
    destruct (cmp_times a c _ Va Vc ltac:(auto) ltac:(auto) ltac:(left; exact S3) B3) as (-> & _).
    intros H1 H2. apply Ok_inj in H1, H2. f_equal. lia.
Qed.

Lemma trichotomy a b : valid_dt a -> valid_dt b ->
  mDateOnly a = mDateOnly b -> same_zone a b ->
  (dt_lt tzo a b = Ok true /\ dt_eq tzo a b = Ok false /\ dt_lt tzo b a = Ok false) \/
  (dt_lt tzo a b = Ok false /\ dt_eq tzo a b = Ok true /\ dt_lt tzo b a = Ok false) \/
  (dt_lt tzo a b = Ok false /\ dt_eq tzo a b = Ok false /\ dt_lt tzo b a = Ok true).
Proof.
  intros Va Vb D1 S1.
  destruct (days_between_exists hist_leap Lh Lh_step (ymd a) (ymd b)) as (n1 & B1); [apply Va|apply Vb|].
  assert (B2 : days_between hist_leap (ymd b) (ymd a) (- n1)).
  { apply hb; [apply Vb|apply Va|]. apply hb in B1; [|apply Va|apply Vb]. lia. }
  destruct (mDateOnly b) eqn:Db.
  - destruct (cmp_dates a b n1 Va Vb ltac:(auto) B1) as (-> & _ & _ & _ & -> & _).
    destruct (cmp_dates b a _ Vb Va ltac:(auto) B2) as (-> & _).
    destruct (Z.ltb_spec 0 n1); [left|destruct (Z.eqb_spec n1 0); [right; left|right; right]];
      destruct (Z.eqb_spec n1 0); destruct (Z.ltb_spec 0 (- n1)); auto; lia.
  - destruct (cmp_times a b n1 Va Vb ltac:(auto) ltac:(auto) ltac:(left; exact S1) B1) as (-> & _ & _ & _ & -> & _).
    destruct (cmp_times b a _ Vb Va ltac:(auto) ltac:(auto) ltac:(left; unfold same_zone in *; intuition congruence) B2) as (-> & _).
    set (X := 86400 * n1 + secs_of_day b - secs_of_day a). replace (86400 * - n1 + secs_of_day a - secs_of_day b) with (- X) by (subst X; lia).
    destruct (Z.ltb_spec 0 X); [left|destruct (Z.eqb_spec X 0); [right; left|right; right]];
      destruct (Z.eqb_spec X 0); destruct (Z.ltb_spec 0 (- X)); auto; lia.
Qed.

(** Equality. *)
Lemma cmp_date_sym a b : cmp_date b a = - cmp_date a b.
Proof.
  unfold cmp_date. rewrite (pycmp_opp (mYear a)), (pycmp_opp (mMonth a)), (pycmp_opp (mDay a)).
  destruct (Z.eqb_spec (pycmp (mYear a) (mYear b)) 0) as [E|E]; destruct (Z.eqb_spec (- pycmp (mYear a) (mYear b)) 0); try lia.
  destruct (Z.eqb_spec (pycmp (mMonth a) (mMonth b)) 0); destruct (Z.eqb_spec (- pycmp (mMonth a) (mMonth b)) 0); lia.
Qed.
Lemma cmp_fields_sym a b : cmp_fields b a = - cmp_fields a b.
Proof.
  unfold cmp_fields. rewrite (cmp_date_sym a b), (pycmp_opp (mHours a)), (pycmp_opp (mMinutes a)), (pycmp_opp (mSeconds a)).
  repeat match goal with |- context [?x =? 0] => destruct (Z.eqb_spec x 0) end; lia.
Qed.

Lemma eq_refl' a : dt_eq tzo a a = Ok true.
Proof.
  assert (P : forall x, pycmp x x = 0) by (intro x; apply pycmp_0; reflexivity).
  unfold dt_eq, compareDateTime. rewrite tz_same_refl. unfold cmp_fields, cmp_date. rewrite !P. cbn.
  destruct (mDateOnly a || mDateOnly a); reflexivity.
Qed.

(** a < b is b > a, and so on, whatever the values are (as long as the month numbers
    can be looked up, so that no exception is raised). *)
Lemma cmp_antisym a b : 1 <= mMonth a <= 12 -> 1 <= mMonth b <= 12 ->
  exists c, compareDateTime tzo a b = Ok c /\ compareDateTime tzo b a = Ok (- c).
Proof.
  intros Ha Hb. unfold compareDateTime. rewrite (orb_comm (mDateOnly b)).
  rewrite (tz_same_sym (mTZUTC b)).
  destruct (mDateOnly a || mDateOnly b).
  { eexists. split; [reflexivity|]. f_equal. apply cmp_date_sym. }
  destruct (tz_same _ _ _ _).
  { eexists. split; [reflexivity|]. f_equal. apply cmp_fields_sym. }
  assert (G : forall d, 1 <= mMonth d <= 12 -> exists p, snd (getPosixTime tzo d) = Ok p).
  { intros d Hd. unfold getPosixTime. destruct (negb _ || _); [|eexists; reflexivity].
    rewrite daysSince1970_ok by exact Hd. destruct (timeZoneSecondsOffset tzo d false). eexists; reflexivity. }
  destruct (G a Ha) as (pa & ->). destruct (G b Hb) as (pb & ->). cbn [rbind].
  eexists. split; [reflexivity|]. f_equal. apply pycmp_opp.
Qed.

Lemma eq_sym' a b : 1 <= mMonth a <= 12 -> 1 <= mMonth b <= 12 -> dt_eq tzo a b = dt_eq tzo b a.
Proof.
  intros Ha Hb. destruct (cmp_antisym a b Ha Hb) as (c & E1 & E2). unfold dt_eq. rewrite E1, E2. cbn.
  f_equal. destruct (Z.eqb_spec c 0), (Z.eqb_spec (- c) 0); lia.
Qed.

Lemma cmp_fields_0 a b : cmp_fields a b = 0 -> ymd a = ymd b /\ mHours a = mHours b /\ mMinutes a = mMinutes b /\ mSeconds a = mSeconds b.
Proof.
  unfold cmp_fields, cmp_date, ymd. cbv zeta.
  destruct (Z.eqb_spec (pycmp (mYear a) (mYear b)) 0) as [E1|E1].
  2:{ destruct (Z.eqb_spec (pycmp (mYear a) (mYear b)) 0); intros; lia. }
  destruct (Z.eqb_spec (pycmp (mMonth a) (mMonth b)) 0) as [E2|E2].
  2:{ destruct (Z.eqb_spec (pycmp (mMonth a) (mMonth b)) 0); intros; lia. }
  destruct (Z.eqb_spec (pycmp (mDay a) (mDay b)) 0) as [E3|E3]; [|lia].
  destruct (Z.eqb_spec (pycmp (mHours a) (mHours b)) 0) as [E4|E4]; [|lia].
  destruct (Z.eqb_spec (pycmp (mMinutes a) (mMinutes b)) 0) as [E5|E5]; [|lia].
  intro E6. rewrite pycmp_0 in E1, E2, E3, E4, E5, E6. rewrite E1, E2, E3. auto.
Qed.

(** Equal values that are not floating and not date-only have the same hash. *)
Lemma eq_hash a b : coherent tzo a -> coherent tzo b ->
  mDateOnly a = false -> mDateOnly b = false -> floating a = false -> floating b = false ->
  dt_eq tzo a b = Ok true -> dt_hash tzo a = dt_hash tzo b.
Proof.
  intros Ca Cb Da Db Fa Fb. unfold dt_eq, dt_hash, compareDateTime. rewrite Da, Db. cbn [orb].
  destruct (tz_same _ _ _ _) eqn:T.
  - cbn [rbind]. intro H. assert (E : cmp_fields a b = 0) by (injection H as H; lia). clear H.
    apply cmp_fields_0 in E as (E1 & E2 & E3 & E4).
    rewrite !getPosixTime_fresh by auto. unfold fresh_posix, daysSince1970, secs_of_day, tz_lookup.
    unfold ymd in E1. injection E1 as E1 E5 E6. rewrite E1, E2, E3, E4, E5, E6, Da, Db.
    unfold tz_same in T. unfold floating in Fa, Fb. unfold is_float in T. rewrite Fa, Fb in T. cbn [orb] in T.
    destruct (mTZUTC a), (mTZUTC b); cbn in T; try discriminate; auto.
    apply tz_eqb_eq in T. rewrite T. reflexivity.
  - destruct (snd (getPosixTime tzo a)) as [pa|]; [|discriminate].
    destruct (snd (getPosixTime tzo b)) as [pb|]; [|discriminate]. cbn [rbind].
    intro H. injection H as H. f_equal. rewrite pycmp_eq in H. lia.
Qed.

(** For those, all comparisons are comparisons of instants. *)
Lemma cmp_fixed a b oa ob n : valid_dt a -> valid_dt b -> mDateOnly a = false -> mDateOnly b = false ->
  1901 <= mYear a <= 2100 -> 1901 <= mYear b <= 2100 -> coherent tzo a -> coherent tzo b ->
  fixed_zone a oa -> fixed_zone b ob ->
  days_between hist_leap (ymd a) (ymd b) n ->
  all_ops tzo a b ((86400 * n + secs_of_day b - ob) - (secs_of_day a - oa)).
Proof.
  intros Va Vb Da Db Ya Yb Ca Cb [Fa Za] [Fb Zb] B.
  assert (La : tz_lookup tzo a false = oa) by (unfold tz_lookup; destruct Za as [[-> ->]|[-> ->]]; reflexivity).
  assert (Lb : tz_lookup tzo b false = ob) by (unfold tz_lookup; destruct Zb as [[-> ->]|[-> ->]]; reflexivity).
  destruct (cmp_same_offset a b Va Vb Da Db Ya Yb Ca Cb) as (pa & pb & Pa & Pb & O).
  { intros [[U T]|[F|F]]; [|congruence|congruence]. unfold tz_lookup. rewrite U, T.
    destruct Za as [[Ua ->]|[Ua Ta]]; rewrite <- U, Ua; auto. rewrite <- T, Ta. reflexivity. }
  rewrite getPosixTime_fresh in Pa, Pb by auto. rewrite fresh_posix_ok in Pa, Pb by (apply valid_month; auto).
  apply Ok_inj in Pa, Pb.
  replace (86400 * n + secs_of_day b - ob - (secs_of_day a - oa)) with (pb - pa); [exact O|].
  subst pa pb. rewrite La, Lb, !code_days_hist. apply err_hist_zero in Ya, Yb. rewrite Ya, Yb.
  apply hb in B; [|apply Va|apply Vb]. unfold dnd, ymd in B. unfold hdn. lia.
Qed.

Lemma eq_trans_fixed a b c oa ob oc :
  valid_dt a -> valid_dt b -> valid_dt c ->
  mDateOnly a = false -> mDateOnly b = false -> mDateOnly c = false ->
  1901 <= mYear a <= 2100 -> 1901 <= mYear b <= 2100 -> 1901 <= mYear c <= 2100 ->
  coherent tzo a -> coherent tzo b -> coherent tzo c ->
  fixed_zone a oa -> fixed_zone b ob -> fixed_zone c oc ->
  dt_eq tzo a b = Ok true -> dt_eq tzo b c = Ok true -> dt_eq tzo a c = Ok true.
Proof.
  intros Va Vb Vc Da Db Dc Ya Yb Yc Ca Cb Cc Za Zb Zc.
  destruct (days_between_exists hist_leap Lh Lh_step (ymd a) (ymd b)) as (n1 & B1); [apply Va|apply Vb|].
  destruct (days_between_exists hist_leap Lh Lh_step (ymd b) (ymd c)) as (n2 & B2); [apply Vb|apply Vc|].
  assert (B3 : days_between hist_leap (ymd a) (ymd c) (n1 + n2)).
  { apply hb; [apply Va|apply Vc|]. apply hb in B1; [|apply Va|apply Vb]. apply hb in B2; [|apply Vb|apply Vc]. lia. }
  destruct (cmp_fixed a b oa ob n1 Va Vb Da Db Ya Yb Ca Cb Za Zb B1) as (_ & _ & _ & _ & -> & _).
  destruct (cmp_fixed b c ob oc n2 Vb Vc Db Dc Yb Yc Cb Cc Zb Zc B2) as (_ & _ & _ & _ & -> & _).
  destruct (cmp_fixed a c oa oc _ Va Vc Da Dc Ya Yc Ca Cc Za Zc B3) as (_ & _ & _ & _ & -> & _).
  intros H1 H2. apply Ok_inj in H1, H2. f_equal. lia.
Qed.

Lemma lt_trans_fixed a b c oa ob oc :
  valid_dt a -> valid_dt b -> valid_dt c ->
  mDateOnly a = false -> mDateOnly b = false -> mDateOnly c = false ->
  1901 <= mYear a <= 2100 -> 1901 <= mYear b <= 2100 -> 1901 <= mYear c <= 2100 ->
  coherent tzo a -> coherent tzo b -> coherent tzo c ->
  fixed_zone a oa -> fixed_zone b ob -> fixed_zone c oc ->
  dt_lt tzo a b = Ok true -> dt_lt tzo b c = Ok true -> dt_lt tzo a c = Ok true.
Proof.
  intros Va Vb Vc Da Db Dc Ya Yb Yc Ca Cb Cc Za Zb Zc.
  destruct (days_between_exists hist_leap Lh Lh_step (ymd a) (ymd b)) as (n1 & B1); [apply Va|apply Vb|].
  destruct (days_between_exists hist_leap Lh Lh_step (ymd b) (ymd c)) as (n2 & B2); [apply Vb|apply Vc|].
  assert (B3 : days_between hist_leap (ymd a) (ymd c) (n1 + n2)).
  { apply hb; [apply Va|apply Vc|]. apply hb in B1; [|apply Va|apply Vb]. apply hb in B2; [|apply Vb|apply Vc]. lia. }
  destruct (cmp_fixed a b oa ob n1 Va Vb Da Db Ya Yb Ca Cb Za Zb B1) as (-> & _).
  destruct (cmp_fixed b c ob oc n2 Vb Vc Db Dc Yb Yc Cb Cc Zb Zc B2) as (-> & _).
  destruct (cmp_fixed a c oa oc _ Va Vc Da Dc Ya Yc Ca Cc Za Zc B3) as (-> & _).
  intros H1 H2. apply Ok_inj in H1, H2. f_equal. lia.
Qed.
End Cmp.

(** The difference of two date-times. *)
Lemma posix_reads tzo d x : valid_dt d -> 1901 <= mYear d <= 2100 -> mTZOffset d = None -> mPosixTimeCached d = false ->
  clock_reads d x -> snd (getPosixTime tzo d) = Ok (x - zone_offset tzo (mTZUTC d, mTZID d) d).
Proof.
  intros V Y O C (k & K & ->). rewrite posix_uncached by assumption.
  rewrite fresh_posix_ok by (apply valid_month; assumption).
  rewrite code_days_hist. apply err_hist_zero in Y. rewrite Y.
  apply hb in K; [|unfold valid_date; cbn; lia|apply V].
  unfold dnd in K. change (ymd d) with (mYear d, mMonth d, mDay d) in K. cbn [fst snd] in K. unfold hdn.
  unfold zone_offset, tz_lookup, secs_of_day. cbn [fst snd]. f_equal. destruct (mTZUTC d); [lia|].
  destruct (mTZID d); lia.
Qed.

Lemma difference tzo a b x y : valid_dt a -> valid_dt b -> 1901 <= mYear a <= 2100 -> 1901 <= mYear b <= 2100 ->
  mTZOffset a = None -> mTZOffset b = None -> mPosixTimeCached a = false -> mPosixTimeCached b = false ->
  clock_reads a x -> clock_reads b y ->
  subDateTime tzo a b = Ok ((x - zone_offset tzo (zone_for a b) a) - (y - zone_offset tzo (zone_for b a) b)).
Proof.
  intros Va Vb Ya Yb Oa Ob Ca Cb Ra Rb.
  assert (G : forall d u t x, valid_dt d -> 1901 <= mYear d <= 2100 -> clock_reads d x ->
     snd (getPosixTime tzo (changed (with_tz d u t))) = Ok (x - zone_offset tzo (u, t) d)).
  { intros d u t z V Y R. exact (posix_reads tzo (changed (with_tz d u t)) z V Y eq_refl eq_refl R). }
  assert (GU : forall d x, floating d = true -> valid_dt d -> 1901 <= mYear d <= 2100 -> clock_reads d x ->
     snd (getPosixTime tzo (setTimezoneUTC d true)) = Ok (x - 0)).
  { intros d z F V Y R. unfold setTimezoneUTC. unfold floating in F. destruct (mTZUTC d); [discriminate|].
    cbn [Bool.eqb negb]. rewrite (G d true (mTZID d) z V Y R). reflexivity. }
  assert (GZ : forall d u t x, valid_dt d -> 1901 <= mYear d <= 2100 -> clock_reads d x ->
     snd (getPosixTime tzo (setTimezoneUTC (setTimezoneID d t) u)) = Ok (x - zone_offset tzo (u, t) d)).
  { intros d u t z V Y R. unfold setTimezoneUTC, setTimezoneID. cbn [changed with_tz with_tzoff with_posix mTZUTC].
    destruct u; cbn [Bool.eqb negb].
    - exact (posix_reads tzo (changed (with_tz (changed (with_tz d false t)) true t)) z V Y eq_refl eq_refl R).
    - exact (G d false t z V Y R). }
  unfold subDateTime, zone_for, posix_diff.
  destruct (floating a) eqn:Fa, (floating b) eqn:Fb; cbn [orb andb].
  - rewrite (GU a x), (GU b y) by assumption. reflexivity.
  - rewrite (GZ a _ _ x), (posix_reads tzo b y) by assumption. reflexivity.
  - rewrite (GZ b _ _ y), (posix_reads tzo a x) by assumption. reflexivity.
  - rewrite (posix_reads tzo a x), (posix_reads tzo b y) by assumption. reflexivity.
Qed.
