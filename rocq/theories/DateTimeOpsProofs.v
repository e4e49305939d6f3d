(** The caches of a DateTime are coherent after any sequence of public operations. *)
From Coq Require Import Lia ZifyBool ZifyNat.
From Verif Require Import PyBase PyProofs ParserCtx CalModel CalSpec DateTimeModel DateTimeSpec DateTimeSpec2 DateTimeText DateTimeOps
  CalProofs DateTimeProofs DateTimeProofs2 PropDateProofs DateTimeProofs4.
Ltac Zify.zify_post_hook ::= Z.div_mod_to_equations.

Section Ops.
Variable tzo : tzid -> Z -> Z -> Z -> Z -> Z -> Z -> bool -> bool -> Z.
Variable ctx : pctx.

Lemma coh_changed d : coherent tzo (changed d).
Proof. split; cbn; discriminate. Qed.
Lemma normalise_changed d : exists e, normalise d = changed e.
Proof.
  unfold normalise. destruct (if mDateOnly d then _ else _) as [[h mi] s].
  destruct (norm_days _ _ _) as [[y mo] x]. eexists; reflexivity.
Qed.
Lemma coh_norm d : coherent tzo (normalise d).
Proof. destruct (normalise_changed d) as (e & ->). apply coh_changed. Qed.

Lemma coh_new y m d h mi s b u t : coherent tzo (mkDT y m d h mi s b u t None false 0).
Proof. split; cbn; discriminate. Qed.

Lemma coh_offset d : coherent tzo d -> coherent tzo (fst (timeZoneSecondsOffset tzo d false)).
Proof.
  intros C. unfold timeZoneSecondsOffset. destruct (mTZUTC d) eqn:U; [exact C|].
  destruct (mTZOffset d) eqn:O; [exact C|]. cbn [fst]. destruct C as [_ C]. split.
  - intros _ o H. cbn in H. injection H as <-. reflexivity.
  - exact C.
Qed.

Lemma coh_posix d r : coherent tzo d -> snd (getPosixTime tzo d) = Ok r -> coherent tzo (fst (getPosixTime tzo d)).
Proof.
  intros C H. pose proof (getPosixTime_fresh tzo d C) as F. rewrite H in F. revert H.
  unfold getPosixTime. destruct (negb (mPosixTimeCached d) || floating d); [|intros _; exact C].
  destruct (daysSince1970 d) as [n|]; [|discriminate].
  pose proof (coh_offset d C) as C1. pose proof (tz_offset_fresh tzo d C) as C2.
  assert (V : visible (fst (timeZoneSecondsOffset tzo d false)) = visible d).
  { unfold timeZoneSecondsOffset. destruct (mTZUTC d) eqn:U; [reflexivity|]. destruct (mTZOffset d); reflexivity. }
  destruct (timeZoneSecondsOffset tzo d false) as [d1 o]. cbn [fst snd] in *.
  intro H. split.
  - destruct C1 as [C1 _]. exact C1.
  - intros _ _. cbn [with_posix mPosixTime]. rewrite H. rewrite F. symmetry. apply visible_fresh. exact V.
Qed.

(** Is the posix time that adjustToUTC keeps still the right one? *)
Definition adjust_safe (d : dt) : Prop :=
  mPosixTimeCached d = false \/
  (1 <= mMonth d <= 12 /\ 1901 <= mYear d <= 2100 /\ 1901 <= mYear (adjustToUTC tzo d) <= 2100).

Lemma coh_toUTC d : coherent tzo d -> adjust_safe d -> coherent tzo (adjustToUTC tzo d).
Proof.
  intros C S. unfold adjust_safe in S. revert S. unfold adjustToUTC.
  destruct (local d && negb (mDateOnly d)) eqn:L; [|intros _; exact C].
  apply andb_prop in L as [L D].
  pose proof (tz_offset_fresh tzo d C) as TO.
  assert (V : visible (fst (timeZoneSecondsOffset tzo d false)) = visible d).
  { unfold timeZoneSecondsOffset. destruct (mTZUTC d) eqn:U; [reflexivity|]. destruct (mTZOffset d); reflexivity. }
  destruct (timeZoneSecondsOffset tzo d false) as [d1 off]. cbn [fst snd] in TO, V. intro S.
  set (e := with_hms (setTimezone d1 true TzNone) (mHours (setTimezone d1 true TzNone)) (mMinutes (setTimezone d1 true TzNone))
                     (mSeconds (setTimezone d1 true TzNone) + - off)).
  change (offsetSeconds (setTimezone d1 true TzNone) (- off)) with (normalise e) in *.
  assert (U3 : mTZUTC (normalise e) = true).
  { unfold normalise. destruct (if mDateOnly e then _ else _) as [[? ?] ?]. destruct (norm_days _ _ _) as [[? ?] ?]. reflexivity. }
  destruct (mPosixTimeCached d) eqn:PC.
  2:{ split; cbn [with_tzoff with_posix mTZUTC mPosixTimeCached]; [rewrite U3; discriminate|].
      destruct (normalise_changed e) as (e' & ->). discriminate. }
  destruct S as [S|(M & Y1 & Y2)]; [discriminate|]. cbn [with_tzoff with_posix mYear] in Y2.
  split; cbn [with_tzoff with_posix mTZUTC]; [rewrite U3; discriminate|].
  intros _ _. cbn [with_tzoff with_posix mPosixTime].
  destruct C as [_ C]. specialize (C PC).
  assert (NF : floating d = false) by (unfold floating, local in *; destruct (mTZUTC d), (tz_true (mTZID d)); auto; discriminate).
  specialize (C NF). rewrite C. clear C.
  assert (VV : fresh_posix tzo (with_tzoff (with_posix (normalise e) true (mPosixTime d)) (Some 0)) = fresh_posix tzo (normalise e)) by (apply visible_fresh; reflexivity).
  rewrite VV. clear VV.
  assert (Ef : mYear e = mYear d /\ mMonth e = mMonth d /\ mDay e = mDay d /\ secs_of_day e = secs_of_day d - off /\ mDateOnly e = mDateOnly d).
  { unfold visible, ymd in V. injection V as V1 V2 V3 V4 V5 V6 V7 V8 V9. subst e. unfold secs_of_day. cbn. rewrite V1, V2, V3, V4, V5, V6, V7. repeat split; lia. }
  destruct Ef as (E1 & E2 & E3 & E4 & E5).
  pose proof (normalise_inmonth e ltac:(rewrite E2; exact M)) as (Vr & H & Sr & _). cbv zeta in *.
  rewrite !fresh_posix_ok; [|apply (valid_month _ Vr)|exact M].
  rewrite !code_days_hist. apply err_hist_zero in Y1, Y2. rewrite Y1, Y2, H, Sr, E1, E2, E3, E4, E5.
  rewrite <- TO. unfold tz_lookup. rewrite U3.
  replace (mDateOnly d) with false by (destruct (mDateOnly d); auto; discriminate).
  f_equal. lia.
Qed.

Lemma coh_same_or_changed d d' : coherent tzo d -> d' = d \/ (exists e, d' = changed e) -> coherent tzo d'.
Proof. intros C [->|(e & ->)]; [exact C|apply coh_changed]. Qed.

Ltac chg := first [left; reflexivity | right; first [eexists; reflexivity | apply normalise_changed]].

Lemma recur_changed d f n ai : exists e, recur d f n ai = changed e.
Proof.
  destruct f; cbn [recur]; try apply normalise_changed.
  - destruct ai; cbn [negb]; eexists; reflexivity.
  - destruct ai; [eexists; reflexivity|apply normalise_changed].
Qed.

Lemma setYearDay_changed d n ai : exists e, setYearDay d n ai = changed e.
Proof.
  unfold setYearDay. destruct (if n =? 366 then _ else _) as [m dd].
  destruct ai; cbn [negb]; [eexists; reflexivity|apply normalise_changed].
Qed.

Lemma adjustTimezone_changed d u t : adjustTimezone tzo d u t = d \/ exists e, adjustTimezone tzo d u t = changed e.
Proof.
  unfold adjustTimezone. destruct (negb _ || negb _); [|left; reflexivity].
  destruct (timeZoneSecondsOffset _ _ true) as [d3 off]. right. apply normalise_changed.
Qed.

Lemma step_coherent d o d' : coherent tzo d -> (o = OAdjustToUTC -> adjust_safe d) ->
  step tzo ctx d o = Ok d' -> coherent tzo d'.
Proof.
  intros C A H. destruct o; cbn [step] in H.
  - destruct (getPosixTime tzo d) as [e r] eqn:G. destruct r as [r|]; [|discriminate]. cbn in H. injection H as <-.
    pose proof (coh_posix d r C) as P. rewrite G in P. apply P. reflexivity.
  - injection H as <-. apply coh_offset. exact C.
  - injection H as <-. apply coh_changed.
  - injection H as <-. apply (coh_same_or_changed d); [exact C|]. unfold setYYMMDD. destruct (_ || _); chg.
  - injection H as <-. apply (coh_same_or_changed d); [exact C|]. unfold setYear. destruct (negb _); chg.
  - injection H as <-. apply coh_norm.
  - injection H as <-. apply (coh_same_or_changed d); [exact C|]. unfold setMonth. destruct (negb _); chg.
  - injection H as <-. apply coh_norm.
  - injection H as <-. apply (coh_same_or_changed d); [exact C|]. unfold setDay. destruct (negb _); chg.
  - injection H as <-. apply coh_norm.
  - injection H as <-. destruct (setYearDay_changed d n ai) as (e & ->). apply coh_changed.
  - unfold setMonthDay in H. destruct (if 0 <? n then _ else _) as [dd|]; [|discriminate]. cbn [rbind] in H. injection H as <-.
    destruct ai; cbn [negb]; [apply coh_changed|apply coh_norm].
  - unfold setWeekNo in H. destruct (getWeekNo d) as [w|]; [|discriminate]. cbn [rbind] in H.
    destruct (w =? n); [injection H as <-; exact C|].
    destruct (getDayOfWeek _) as [fd|]; [|discriminate]. cbn [rbind] in H.
    destruct (getDayOfWeek d) as [cd|]; [|discriminate]. cbn [rbind] in H.
    apply Ok_inj in H. subst d'.
    match goal with |- coherent tzo (if ?b then _ else _) => destruct b end;
    match goal with |- coherent tzo (setYearDay ?x ?y ?z) => destruct (setYearDay_changed x y z) as (e & ->); apply coh_changed end.
  - unfold setDayOfWeekInYear in H. destruct (getDayOfWeek _) as [fd|]; [|discriminate]. cbn [rbind] in H.
    apply Ok_inj in H. subst d'. apply coh_norm.
  - unfold setDayOfWeekInMonth in H. destruct (getDayOfWeek _) as [fd|]; [|discriminate]. cbn [rbind] in H.
    destruct (if 0 <? n then _ else _) as [dd|]; [|discriminate]. cbn [rbind] in H.
    apply Ok_inj in H. subst d'. destruct ai; cbn [negb]; [apply coh_changed|apply coh_norm].
  - unfold setNextDayOfWeek in H. destruct (getDayOfWeek _) as [fd|]; [|discriminate]. cbn [rbind] in H.
    apply Ok_inj in H. subst d'. apply coh_norm.
  - injection H as <-. apply (coh_same_or_changed d); [exact C|]. unfold setHHMMSS. destruct (_ || _); chg.
  - injection H as <-. apply (coh_same_or_changed d); [exact C|]. unfold setHours. destruct (negb _); chg.
  - injection H as <-. apply coh_norm.
  - injection H as <-. apply (coh_same_or_changed d); [exact C|]. unfold setMinutes. destruct (negb _); chg.
  - injection H as <-. apply coh_norm.
  - injection H as <-. apply (coh_same_or_changed d); [exact C|]. unfold setSeconds. destruct (negb _); chg.
  - injection H as <-. apply coh_norm.
  - injection H as <-. apply (coh_same_or_changed d); [exact C|]. unfold setTimezoneUTC. destruct (negb _); chg.
  - injection H as <-. apply coh_changed.
  - injection H as <-. apply coh_changed.
  - injection H as <-. apply (coh_same_or_changed d); [exact C|]. apply adjustTimezone_changed.
  - injection H as <-. apply coh_toUTC; auto.
  - injection H as <-. destruct (recur_changed d f n ai) as (e & ->). apply coh_changed.
  - injection H as <-. apply coh_norm.
  - injection H as <-. apply coh_norm.
  - unfold dt_parse in H. destruct (dt_parse_body ctx full data d) as [e [x|x]].
    + injection H as <-. apply coh_changed.
    + destruct x; discriminate.
Qed.

(** Every adjustToUTC in the sequence is applied to a value, and gives a value, in the
    range where day counts are exact (or nothing was cached). *)
Fixpoint adjusts_safe (d : dt) (l : list op) : Prop :=
  match l with
  | [] => True
  | o :: l => (o = OAdjustToUTC -> adjust_safe d) /\
              match step tzo ctx d o with Ok d' => adjusts_safe d' l | Raise _ => True end
  end.

Lemma run_coherent l : forall d d', coherent tzo d -> adjusts_safe d l -> run tzo ctx d l = Ok d' -> coherent tzo d'.
Proof.
  induction l as [|o l IH]; cbn [run adjusts_safe]; intros d d' C S H; [injection H as <-; exact C|].
  destruct S as [S1 S2]. destruct (step tzo ctx d o) as [e|] eqn:E; [|discriminate]. cbn [rbind] in H.
  apply (IH e); auto. apply (step_coherent d o); auto.
Qed.

Lemma run_posix l d d' : adjusts_safe (rebuilt d) l -> run tzo ctx (rebuilt d) l = Ok d' ->
  snd (getPosixTime tzo d') = snd (getPosixTime tzo (rebuilt d')).
Proof.
  intros S H. assert (C : coherent tzo d') by (apply (run_coherent l (rebuilt d)); auto; apply coh_new).
  rewrite !getPosixTime_fresh; [|apply coh_new|exact C]. apply visible_fresh. reflexivity.
Qed.
End Ops.

(** The forms used in the properties: the objects have empty caches. *)
Section Rebuilt.
Variable tzo : tzid -> Z -> Z -> Z -> Z -> Z -> Z -> bool -> bool -> Z.
Lemma coh_rebuilt d : coherent tzo (rebuilt d).
Proof. apply coh_new. Qed.

Lemma cmp_posix_rebuilt a b : valid_dt a -> valid_dt b -> mDateOnly a = false -> mDateOnly b = false ->
  1901 <= mYear a <= 2100 -> 1901 <= mYear b <= 2100 ->
  (field_comparable a b -> tz_lookup tzo a false = tz_lookup tzo b false) ->
  exists pa pb, snd (getPosixTime tzo (rebuilt a)) = Ok pa /\ snd (getPosixTime tzo (rebuilt b)) = Ok pb /\
                all_ops tzo (rebuilt a) (rebuilt b) (pb - pa).
Proof.
  intros Va Vb Da Db Ya Yb H. apply cmp_same_offset; auto using coh_rebuilt.
Qed.

Lemma cmp_fixed_rebuilt a b oa ob n : valid_dt a -> valid_dt b -> mDateOnly a = false -> mDateOnly b = false ->
  1901 <= mYear a <= 2100 -> 1901 <= mYear b <= 2100 -> fixed_zone a oa -> fixed_zone b ob ->
  days_between hist_leap (ymd a) (ymd b) n ->
  all_ops tzo (rebuilt a) (rebuilt b) ((86400 * n + secs_of_day b - ob) - (secs_of_day a - oa)).
Proof.
  intros Va Vb Da Db Ya Yb Za Zb B.
  apply (cmp_fixed tzo (rebuilt a) (rebuilt b) oa ob n); auto using coh_rebuilt.
Qed.

Lemma eq_hash_rebuilt a b :
  mDateOnly a = false -> mDateOnly b = false -> floating a = false -> floating b = false ->
  dt_eq tzo (rebuilt a) (rebuilt b) = Ok true -> dt_hash tzo (rebuilt a) = dt_hash tzo (rebuilt b).
Proof. intros. apply eq_hash; auto using coh_rebuilt. Qed.

Lemma eq_trans_rebuilt a b c oa ob oc :
  valid_dt a -> valid_dt b -> valid_dt c ->
  mDateOnly a = false -> mDateOnly b = false -> mDateOnly c = false ->
  1901 <= mYear a <= 2100 -> 1901 <= mYear b <= 2100 -> 1901 <= mYear c <= 2100 ->
  fixed_zone a oa -> fixed_zone b ob -> fixed_zone c oc ->
  dt_eq tzo (rebuilt a) (rebuilt b) = Ok true -> dt_eq tzo (rebuilt b) (rebuilt c) = Ok true ->
  dt_eq tzo (rebuilt a) (rebuilt c) = Ok true.
Proof.
  intros. apply (eq_trans_fixed tzo (rebuilt a) (rebuilt b) (rebuilt c) oa ob oc); auto using coh_rebuilt.
Qed.
End Rebuilt.
