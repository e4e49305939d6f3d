(** Proofs about moving a date-time to another time zone. *)
From Coq Require Import Lia ZifyBool.
From Verif Require Import PyBase PyProofs CalSpec DateTimeModel DateTimeSpec DateTimeSpec2 CalProofs DateTimeProofs DateTimeProofs4 PeriodModel PeriodSpec PeriodProofs
  RecurUnionSpec VTimezoneModel VTimezoneSpec AdjustSpec.
From Verif Require CalTzProofs RecurCacheProofs.
Ltac Zify.zify_post_hook ::= Z.div_mod_to_equations.

Section WithTz.
Variable tzo : tzid -> Z -> Z -> Z -> Z -> Z -> Z -> bool -> bool -> Z.

Lemma offset_is d : honest tzo d -> snd (timeZoneSecondsOffset tzo d false) = zone_offset tzo (mTZUTC d, mTZID d) d.
Proof.
  intros [H _]. destruct d as [y mo da h mi se on u t o c p]. cbn [mTZUTC mTZID mTZOffset] in *. destruct u; [reflexivity|]. destruct o as [o|].
  - cbn [timeZoneSecondsOffset mTZUTC mTZOffset snd]. rewrite (H eq_refl o eq_refl). destruct t; reflexivity.
  - destruct t; reflexivity.
Qed.
Lemma offset_keeps d rel : exists o, fst (timeZoneSecondsOffset tzo d rel) = with_tzoff d o.
Proof.
  unfold timeZoneSecondsOffset. destruct (mTZUTC d); [exists (mTZOffset d); destruct d; reflexivity|].
  destruct (mTZOffset d) as [o|] eqn:O; [exists (Some o); rewrite <- O; destruct d; reflexivity|eexists; reflexivity].
Qed.
Lemma instant_zone u t u' t' d x : instant (InZone u t) d x -> instant (InZone u' t') (setTimezone d u' t') x.
Proof. intros [V (D & _ & _ & K)]. split; [exact V|]. repeat split; assumption. Qed.
Lemma instant_off sc d x o : sc <> Offsets -> instant sc d x -> instant sc (with_tzoff d o) x.
Proof. intros N [V H]. split; [exact V|]. destruct sc; [exact H|exact H|congruence]. Qed.
Lemma instant_posix sc d x c p : sc <> Offsets -> instant sc d x -> instant sc (with_posix d c p) x.
Proof. intros N [V H]. split; [exact V|]. destruct sc; [exact H|exact H|congruence]. Qed.

Lemma to_utc t d x : tz_true t = true -> instant (InZone false t) d x -> honest tzo d ->
  instant (InZone true TzNone) (adjustToUTC tzo d) (x - zone_offset tzo (false, t) d).
Proof.
  intros T I H. pose proof I as [_ (D & U & Z & _)]. unfold adjustToUTC. assert (L : local d = true) by (unfold local; rewrite U, Z, T; reflexivity).
  rewrite L, D. cbn [andb negb]. pose proof (offset_is d H) as E. rewrite U, Z in E. destruct (offset_keeps d false) as [o K].
  destruct (timeZoneSecondsOffset tzo d false) as [d1 off]. cbn [fst snd] in *. subst d1 off.
  apply instant_off; [discriminate|]. set (r := offsetSeconds _ _).
  assert (R : instant (InZone true TzNone) r (x - zone_offset tzo (false, t) d)).
  { unfold r. change offsetSeconds with addSeconds. replace (x - zone_offset tzo (false, t) d) with (x + - zone_offset tzo (false, t) d) by lia.
    apply (add_instant tzo); try discriminate. eapply instant_zone. apply instant_off; [discriminate|exact I]. }
  destruct (mPosixTimeCached d); [apply instant_posix; [discriminate|]|]; exact R.
Qed.

Lemma to_zone u0 t0 d x u t : instant (InZone u0 t0) d x -> honest tzo d -> (u0, t0) <> (u, t) ->
  exists m, instant (InZone true TzNone) m (x - ahead tzo u0 t0 d) /\
    instant (InZone u t) (adjustTimezone tzo d u t) (x - ahead tzo u0 t0 d + utc_offset tzo (u, t) m).
Proof.
  intros I H N. pose proof I as [_ (D & U & Z & _)]. unfold adjustTimezone.
  assert (C : negb (Bool.eqb u (mTZUTC d)) || negb (tz_eqb t (mTZID d)) = true).
  { rewrite U, Z. destruct (Bool.eqb u u0) eqn:B; [|reflexivity]. apply Bool.eqb_prop in B. subst u0. destruct (tz_eqb t t0) eqn:T; [|reflexivity].
    apply CalTzProofs.tz_eqb_eq in T. subst. congruence. }
  rewrite C. set (d1 := if negb (mTZUTC d) then adjustToUTC tzo d else d).
  assert (M : exists m, instant (InZone true TzNone) m (x - ahead tzo u0 t0 d) /\ visible m = visible (setTimezone d1 true TzNone)).
  { eexists. split; [|reflexivity]. unfold ahead. unfold d1. rewrite U. destruct u0; cbn [negb andb].
    - rewrite Z.sub_0_r. eapply instant_zone. exact I.
    - destruct (tz_true t0) eqn:T.
      + eapply instant_zone. apply to_utc; assumption.
      + rewrite Z.sub_0_r. unfold adjustToUTC. assert (L : local d = false) by (unfold local; rewrite U, Z, T; reflexivity). rewrite L. cbn [andb].
        eapply instant_zone. exact I. }
  destruct M as (m & Im & Vm). exists m. split; [exact Im|].
  assert (I1 : instant (InZone u t) (setTimezone d1 u t) (x - ahead tzo u0 t0 d)).
  { destruct Im as [Vd (Dm & _ & _ & k & K & X)]. injection Vm as E1 E2 E3 E4 E5 E6 E7 E8 E9. 
    unfold valid_dt, valid_date, ymd, secs_of_day in *. cbn [setTimezone changed with_tz with_tzoff with_posix mYear mMonth mDay mHours mMinutes mSeconds mDateOnly] in E1, E2, E3, E4, E5, E6, E7.
    rewrite E1, E2, E3, E4, E5, E6, E7 in *. split; [exact Vd|]. split; [exact Dm|]. split; [reflexivity|]. split; [reflexivity|]. exists k. split; [exact K|exact X]. }
  assert (O : snd (timeZoneSecondsOffset tzo (setTimezone d1 u t) true) = utc_offset tzo (u, t) m).
  { unfold timeZoneSecondsOffset, utc_offset, tz_lookup. cbn [fst snd setTimezone changed with_tz with_tzoff with_posix mTZUTC mTZID mTZOffset]. destruct u; [reflexivity|]. cbn [snd].
    injection Vm as E1 E2 E3 E4 E5 E6 E7 E8 E9. cbn [setTimezone changed with_tz with_tzoff with_posix mYear mMonth mDay mHours mMinutes mSeconds mDateOnly] in *.
    rewrite E1, E2, E3, E4, E5, E6, E7. reflexivity. }
  destruct (offset_keeps (setTimezone d1 u t) true) as [o K].
  destruct (timeZoneSecondsOffset tzo (setTimezone d1 u t) true) as [d3 off]. cbn [fst snd] in *. subst d3 off.
  change offsetSeconds with addSeconds. apply (add_instant tzo); try discriminate. apply instant_off; [discriminate|exact I1].
Qed.

Lemma adjusted_fresh d u t : (mTZUTC d, mTZID d) <> (u, t) -> mTZOffset (adjustTimezone tzo d u t) = None /\ mPosixTimeCached (adjustTimezone tzo d u t) = false.
Proof.
  intros N. unfold adjustTimezone.
  assert (C : negb (Bool.eqb u (mTZUTC d)) || negb (tz_eqb t (mTZID d)) = true).
  { destruct (Bool.eqb u (mTZUTC d)) eqn:B; [|reflexivity]. apply Bool.eqb_prop in B. destruct (tz_eqb t (mTZID d)) eqn:T; [|reflexivity].
    apply CalTzProofs.tz_eqb_eq in T. congruence. }
  rewrite C. destruct (timeZoneSecondsOffset _ _ _) as [d3 off]. unfold offsetSeconds.
  pose proof (normalise_spec (with_hms d3 (mHours d3) (mMinutes d3) (mSeconds d3 + off))) as S. cbv zeta in S. split; apply S.
Qed.
Lemma clock_of u t d x : instant (InZone u t) d x -> clock_reads d x.
Proof. intros [V (_ & _ & _ & k & K & ->)]. exists k. split; [exact K|]. unfold secs_of_day. lia. Qed.
Lemma honest_posix d : honest tzo d -> floating d = false -> snd (getPosixTime tzo d) = snd (getPosixTime tzo (rebuilt d)).
Proof.
  intros [H1 H2] F. unfold getPosixTime at 1. rewrite F, Bool.orb_false_r. destruct (mPosixTimeCached d) eqn:C; cbn [negb].
  - cbn [snd]. apply H2; auto.
  - unfold getPosixTime. change (mPosixTimeCached (rebuilt d)) with false. cbn [negb orb]. change (daysSince1970 (rebuilt d)) with (daysSince1970 d).
    destruct (daysSince1970 d) as [n|]; [|reflexivity].
    assert (E : snd (timeZoneSecondsOffset tzo d false) = snd (timeZoneSecondsOffset tzo (rebuilt d) false)).
    { unfold timeZoneSecondsOffset at 1. destruct (mTZUTC d) eqn:U; [unfold timeZoneSecondsOffset; change (mTZUTC (rebuilt d)) with (mTZUTC d); rewrite U; reflexivity|].
      destruct (mTZOffset d) as [o|] eqn:O; [apply H1; auto|]. unfold timeZoneSecondsOffset. change (mTZUTC (rebuilt d)) with (mTZUTC d). change (mTZOffset (rebuilt d)) with (@None Z). rewrite U. reflexivity. }
    destruct (timeZoneSecondsOffset tzo d false) as [a b], (timeZoneSecondsOffset tzo (rebuilt d) false) as [a' b']. cbn [snd] in *. subst. reflexivity.
Qed.
Lemma posix_at u t d x : instant (InZone u t) d x -> honest tzo d -> negb u && negb (tz_true t) = false -> 1901 <= mYear d <= 2100 ->
  snd (getPosixTime tzo d) = Ok (x - ahead tzo u t d).
Proof.
  intros I H F Y. pose proof I as [V (D & U & T & _)].
  assert (Fl : floating d = false) by (unfold floating; rewrite U, T; exact F).
  rewrite honest_posix by assumption. rewrite (posix_reads tzo (rebuilt d) x); try reflexivity; try assumption; [|exact (clock_of u t d x I)].
  change (mTZUTC (rebuilt d)) with (mTZUTC d). change (mTZID (rebuilt d)) with (mTZID d). rewrite U, T. f_equal. f_equal.
  unfold ahead. destruct u; [reflexivity|]. cbn [negb andb] in *. destruct (tz_true t); [reflexivity|discriminate].
Qed.
Lemma fresh_honest d : mTZOffset d = None -> mPosixTimeCached d = false -> honest tzo d.
Proof. intros O C. split; [intros _ o E; congruence|congruence]. Qed.

(** The instant is kept if both questions about the new zone have the same answer. *)
Lemma keeps u0 t0 d x u t : instant (InZone u0 t0) d x -> honest tzo d -> (u0, t0) <> (u, t) ->
  negb u0 && negb (tz_true t0) = false -> negb u && negb (tz_true t) = false ->
  1901 <= mYear d <= 2100 -> 1901 <= mYear (adjustTimezone tzo d u t) <= 2100 ->
  (forall m, instant (InZone true TzNone) m (x - ahead tzo u0 t0 d) -> zone_offset tzo (u, t) (adjustTimezone tzo d u t) = utc_offset tzo (u, t) m) ->
  snd (getPosixTime tzo (adjustTimezone tzo d u t)) = snd (getPosixTime tzo d) /\
  (u0 = true -> visible (adjustTimezone tzo (adjustTimezone tzo d u t) u0 t0) = visible d).
Proof.
  intros I H N F0 F Y0 Y A. destruct (to_zone u0 t0 d x u t I H N) as (m & Im & I').
  assert (Fr : honest tzo (adjustTimezone tzo d u t)).
  { pose proof I as [_ (_ & U & T & _)]. destruct (adjusted_fresh d u t) as [O C]; [congruence|]. apply fresh_honest; assumption. }
  assert (E : ahead tzo u t (adjustTimezone tzo d u t) = utc_offset tzo (u, t) m).
  { rewrite <- (A m Im). unfold ahead. destruct u; [reflexivity|]. cbn [negb andb] in *. destruct (tz_true t); [reflexivity|discriminate]. }
  split.
  - rewrite (posix_at u t _ _ I' Fr F Y), (posix_at u0 t0 d x I H F0 Y0). f_equal. rewrite E. lia.
  - intros ->. destruct (to_zone u t (adjustTimezone tzo d u t) _ true t0 I' Fr ltac:(congruence)) as (m' & _ & I2).
    cbn [utc_offset fst] in I2. rewrite E in I2. replace (x - ahead tzo true t0 d + utc_offset tzo (u, t) m - utc_offset tzo (u, t) m + 0) with x in I2 by (unfold ahead; cbn; lia).
    destruct (RecurCacheProofs.instant_same (InZone true t0) _ d x ltac:(discriminate) I2 I) as [Y1 Y2].
    destruct I2 as [_ (D2 & U2 & T2 & _)], I as [_ (D & U & T & _)]. unfold visible. congruence.
Qed.
Lemma to_utc_posix t d x : tz_true t = true -> instant (InZone false t) d x -> honest tzo d -> 1901 <= mYear d <= 2100 -> 1901 <= mYear (adjustToUTC tzo d) <= 2100 ->
  snd (getPosixTime tzo (adjustToUTC tzo d)) = snd (getPosixTime tzo d).
Proof.
  intros T I H Y Y'. pose proof (to_utc t d x T I H) as I'. rewrite (posix_at false t d x I H) by (cbn; rewrite ?T; auto).
  set (d' := adjustToUTC tzo d) in *. 
  assert (P : mPosixTimeCached d' = true -> mPosixTime d' = x - zone_offset tzo (false, t) d).
  { unfold d', adjustToUTC. pose proof I as [_ (D & U & Z & _)]. assert (L : local d = true) by (unfold local; rewrite U, Z, T; reflexivity). rewrite L, D. cbn [andb negb].
    destruct (timeZoneSecondsOffset tzo d false) as [d1 off]. destruct (mPosixTimeCached d) eqn:C.
    - intros _. cbn [with_tzoff with_posix mPosixTime]. destruct H as [_ H2]. assert (Fl : floating d = false) by (unfold floating; rewrite U, Z, T; reflexivity).
      pose proof (H2 C Fl) as Q. rewrite (posix_reads tzo (rebuilt d) x) in Q; try reflexivity; try assumption; [|apply I|exact (clock_of false t d x I)].
      change (mTZUTC (rebuilt d)) with (mTZUTC d) in Q. change (mTZID (rebuilt d)) with (mTZID d) in Q. rewrite U, Z in Q. injection Q as Q. rewrite Q. reflexivity.
    - unfold offsetSeconds. match goal with |- context [normalise ?e] => pose proof (normalise_spec e) as S end. cbv zeta in S.
      destruct S as (_ & _ & _ & _ & _ & _ & _ & S). cbn [with_tzoff mPosixTimeCached]. rewrite S. discriminate. }
  assert (U' : mTZUTC d' = true) by apply I'.
  unfold ahead. cbn [negb andb]. rewrite T. destruct (mPosixTimeCached d') eqn:C.
  - unfold getPosixTime. rewrite C. unfold floating. rewrite U'. cbn [negb andb orb snd]. rewrite P by reflexivity. reflexivity.
  - assert (E : snd (getPosixTime tzo d') = snd (getPosixTime tzo (rebuilt d'))).
    { apply honest_posix; [split; congruence|unfold floating; rewrite U'; reflexivity]. }
    rewrite E, (posix_reads tzo (rebuilt d') (x - zone_offset tzo (false, t) d)); try reflexivity; try assumption; [|apply I'|exact (clock_of _ _ _ _ I')].
    change (mTZUTC (rebuilt d')) with (mTZUTC d'). rewrite U'. cbn [zone_offset fst]. rewrite Z.sub_0_r. reflexivity.
Qed.
End WithTz.

(** ** When both questions about a zone have the same answer *)
Lemma agree es u o x f v : chained es -> utc_ordered es -> unambiguous es true ->
  onset es x f o -> x - f <= u -> (forall y g p, onset es y g p -> y - g <= u -> y - g <= x - f) -> f - o <= u - (x - f) ->
  in_force es false (u + o) v -> v = o.
Proof.
  intros Ch Or Un On Le La Re Fo.
  assert (Fut : forall n y g p, onset es y g p -> u < y - g <= u + Z.of_nat n -> u + o < y).
  { induction n as [|n IH]; intros y g p Oy Hy; [lia|]. destruct (Z.ltb_spec (u + o) y) as [L|G]; [exact L|exfalso].
    assert (g = o); [|lia]. apply (Ch x f o y g p On Oy); [lia|]. intros z h q Oz [Z1 Z2].
    assert (u < z - h) by (destruct (Z.ltb_spec u (z - h)); [assumption|specialize (La z h q Oz ltac:(lia)); lia]).
    assert (u + o < z) by (apply (IH z h q Oz); lia).
    pose proof (Or y g p z h q Oy Oz ltac:(lia)). lia. }
  destruct Fo as [[_ B]|(x' & f' & O' & L' & M')].
  - specialize (B x f o On). unfold change_at in B. lia.
  - unfold change_at in *. specialize (M' x f o On ltac:(lia)).
    destruct (Z.leb_spec (x' - f') u) as [A|A].
    + specialize (La x' f' v O' A). pose proof (Or x f o x' f' v On O' M'). apply (Un x' f' v x f o O' On). unfold change_at. lia.
    + assert (u + o < x') by (apply (Fut (Z.to_nat (x' - f' - u)) x' f' v O'); lia). lia.
Qed.

Lemma zone_keeps tzo u0 t0 d x n es : instant (InZone u0 t0) d x -> honest tzo d -> (u0, t0) <> (false, TzName n) -> n <> [] ->
  negb u0 && negb (tz_true t0) = false ->
  1901 <= mYear d <= 2100 -> 1901 <= mYear (adjustTimezone tzo d false (TzName n)) <= 2100 ->
  chained es -> utc_ordered es -> unambiguous es true -> settled es (x - ahead tzo u0 t0 d) ->
  (forall m, instant (InZone true TzNone) m (x - ahead tzo u0 t0 d) -> answers tzo (TzName n) es true m) ->
  answers tzo (TzName n) es false (adjustTimezone tzo d false (TzName n)) ->
  snd (getPosixTime tzo (adjustTimezone tzo d false (TzName n))) = snd (getPosixTime tzo d) /\
  (u0 = true -> visible (adjustTimezone tzo (adjustTimezone tzo d false (TzName n)) u0 t0) = visible d).
Proof.
  intros I H N Nn F Y Y' Ch Or Un (y & f & o & On & Le & La & Re) A1 A2.
  assert (Fn : negb false && negb (tz_true (TzName n)) = false) by (destruct n; [congruence|reflexivity]).
  apply (keeps tzo u0 t0 d x false (TzName n)); try assumption.
  intros m Im. destruct (to_zone tzo u0 t0 d x false (TzName n) I H N) as (m' & Im' & I').
  assert (NO : InZone true TzNone <> Offsets) by discriminate.
  assert (E : utc_offset tzo (false, TzName n) m' = utc_offset tzo (false, TzName n) m).
  { destruct (RecurCacheProofs.instant_same _ _ _ _ NO Im' Im) as [A B]. unfold ymd in A. injection A as B1 B2 B3. injection B as B4 B5 B6. unfold utc_offset. cbn [fst snd].
    destruct Im as [_ (-> & _)], Im' as [_ (-> & _)]. rewrite B1, B2, B3, B4, B5, B6. reflexivity. }
  rewrite E in I'. specialize (A1 m Im _ (clock_of tzo _ _ _ _ Im)). fold (utc_offset tzo (false, TzName n) m) in A1. specialize (A2 _ (clock_of tzo _ _ _ _ I')).
  assert (O : utc_offset tzo (false, TzName n) m = o).
  { destruct A1 as [[_ B]|(x1 & f1 & O1 & L1 & M1)]; [specialize (B y f o On); unfold change_at in B; lia|]. unfold change_at in *.
    specialize (M1 y f o On Le). specialize (La _ _ _ O1 L1). apply (Un x1 f1 _ y f o O1 On). unfold change_at. lia. }
  rewrite O in *. apply (agree es (x - ahead tzo u0 t0 d) o y f); assumption.
Qed.
