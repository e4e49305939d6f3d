(** Proofs about PeriodModel. *)
From Coq Require Import Lia ZifyBool ZifyNat.
From Verif Require Import PyBase PyProofs ParserCtx CalModel CalSpec CalProofs DateTimeModel DateTimeSpec DateTimeSpec2
  DateTimeProofs DateTimeProofs2 DateTimeProofs4 PropDateProofs DateTimeText DateTimeTextProofs DurationModel DurationProofs
  DateTimeOpsProofs PeriodModel PeriodSpec.
Ltac Zify.zify_post_hook ::= Z.div_mod_to_equations.

Section S.
Variable tzo : tzid -> Z -> Z -> Z -> Z -> Z -> Z -> bool -> bool -> Z.

Lemma db_hdn d k : valid_dt d -> days_between hist_leap (1970, 1, 1) (ymd d) k -> hdn (mYear d) (mMonth d) (mDay d) = hdn 1970 1 1 + k.
Proof.
  intros V H. apply hb in H; [|cbn; lia|apply V]. unfold dnd, ymd in H. unfold hdn. lia.
Qed.
Lemma hdn_db d : valid_dt d -> days_between hist_leap (1970, 1, 1) (ymd d) (hdn (mYear d) (mMonth d) (mDay d) - hdn 1970 1 1).
Proof.
  intros V. apply hb; [cbn; lia|apply V|]. unfold dnd, ymd, hdn. lia.
Qed.
Lemma db_diff a b i j : valid_dt a -> valid_dt b -> days_between hist_leap (1970, 1, 1) (ymd a) i ->
  days_between hist_leap (1970, 1, 1) (ymd b) j -> days_between hist_leap (ymd a) (ymd b) (j - i).
Proof.
  intros Va Vb Ha Hb. apply db_hdn in Ha; [|assumption]. apply db_hdn in Hb; [|assumption].
  apply hb; [apply Va|apply Vb|]. unfold dnd, ymd. unfold hdn in *. lia.
Qed.

Lemma uncached_coh d : mTZOffset d = None -> mPosixTimeCached d = false -> coherent tzo d.
Proof. intros H1 H2; split; [rewrite H1|rewrite H2]; discriminate. Qed.

Lemma instant_ops sc a b x y : instant sc a x -> instant sc b y -> all_ops tzo a b (y - x).
Proof.
  intros [Va Ha] [Vb Hb]. destruct sc.
  - destruct Ha as (Da & Ua & Ta & i & Hi & ->). destruct Hb as (Db & Ub & Tb & j & Hj & ->).
    replace (86400 * j + secs_of_day b - (86400 * i + secs_of_day a)) with (86400 * (j - i) + secs_of_day b - secs_of_day a) by lia.
    apply cmp_times; auto; [left; split; congruence|]. apply db_diff; assumption.
  - destruct Ha as (Da & Hi). destruct Hb as (Db & Hj). apply cmp_dates; auto. apply db_diff; assumption.
  - destruct Ha as (Da & Ya & Oa & Ca & i & o & Za & Hi & ->). destruct Hb as (Db & Yb & Ob & Cb & j & p & Zb & Hj & ->).
    replace (86400 * j + secs_of_day b - p - (86400 * i + secs_of_day a - o)) with ((86400 * (j - i) + secs_of_day b - p) - (secs_of_day a - o)) by lia.
    apply cmp_fixed; auto using uncached_coh. apply db_diff; assumption.
Qed.

Lemma within_spec sc p t e a b x : snd (getEnd p) = Ok e -> instant sc (pStart p) a -> instant sc e b -> instant sc t x ->
  isDateWithinPeriod tzo p t = Ok ((a <=? x) && (x <? b)) /\
  isDateBeforePeriod tzo p t = Ok (x <? a) /\ isDateAfterPeriod tzo p t = Ok (b <=? x).
Proof.
  intros He Ha Hb Hx. unfold isDateWithinPeriod, isDateBeforePeriod, isDateAfterPeriod. rewrite He; cbn [rbind].
  destruct (instant_ops sc _ _ _ _ Hx Ha) as (L1 & _ & _ & G1 & _). destruct (instant_ops sc _ _ _ _ Hx Hb) as (L2 & _ & _ & G2 & _).
  rewrite L1, G1, L2, G2. cbn [rbind].
  split; [|split; f_equal; lia]. destruct (Z.leb_spec (a - x) 0), (Z.leb_spec a x); try lia; cbn; auto. f_equal; lia.
Qed.

Lemma overlap_spec sc p q pe qe a b c d : snd (getEnd p) = Ok pe -> snd (getEnd q) = Ok qe ->
  instant sc (pStart p) a -> instant sc pe b -> instant sc (pStart q) c -> instant sc qe d ->
  isPeriodOverlap tzo p q = Ok ((a <? d) && (c <? b)).
Proof.
  intros Hp Hq Ha Hb Hc Hd. unfold isPeriodOverlap. rewrite Hp, Hq; cbn [rbind].
  destruct (instant_ops sc _ _ _ _ Ha Hd) as (_ & _ & _ & G1 & _). destruct (instant_ops sc _ _ _ _ Hb Hc) as (_ & L2 & _).
  rewrite G1, L2. cbn [rbind]. destruct (Z.leb_spec (d - a) 0), (Z.ltb_spec a d); try lia; cbn; auto. f_equal; lia.
Qed.

Lemma overlap_common sc p q pe qe a b c d : snd (getEnd p) = Ok pe -> snd (getEnd q) = Ok qe ->
  instant sc (pStart p) a -> instant sc pe b -> instant sc (pStart q) c -> instant sc qe d -> a < b -> c < d ->
  exists r, isPeriodOverlap tzo p q = Ok r /\ isPeriodOverlap tzo q p = Ok r /\
    (r = true <-> exists t, a <= t < b /\ c <= t < d).
Proof.
  intros Hp Hq Ha Hb Hc Hd Hab Hcd. exists ((a <? d) && (c <? b)).
  split; [eapply overlap_spec; eassumption|]. split; [rewrite andb_comm; eapply overlap_spec; eassumption|].
  split; [|intros (t & H1 & H2); lia]. intros H. exists (Z.max a c). lia.
Qed.

Lemma eqlt_spec sc p q pe qe a b c d : snd (getEnd p) = Ok pe -> snd (getEnd q) = Ok qe ->
  instant sc (pStart p) a -> instant sc pe b -> instant sc (pStart q) c -> instant sc qe d ->
  period_eq tzo p q = Ok ((a =? c) && (b =? d)) /\
  period_lt tzo p q = Ok ((a <? c) || ((a =? c) && (b <? d))).
Proof.
  intros Hp Hq Ha Hb Hc Hd. unfold period_eq, period_lt. rewrite Hp, Hq; cbn [rbind].
  destruct (instant_ops sc _ _ _ _ Ha Hc) as (L1 & _ & _ & _ & E1 & _).
  destruct (instant_ops sc _ _ _ _ Hb Hd) as (L2 & _ & _ & _ & E2 & _).
  rewrite L1, E1, E2, L2. cbn [rbind].
  destruct (Z.eqb_spec (c - a) 0), (Z.eqb_spec a c); try lia; cbn; (split; [f_equal; lia|]);
  destruct (Z.ltb_spec 0 (c - a)), (Z.ltb_spec a c); try lia; cbn; auto. f_equal; lia.
Qed.

Lemma add_uncached d n : mTZOffset (addSeconds d n) = None /\ mPosixTimeCached (addSeconds d n) = false.
Proof.
  unfold addSeconds. destruct (normalise_spec (with_hms d (mHours d) (mMinutes d) (mSeconds d + n)))
      as (_ & _ & _ & _ & _ & _ & A & B). auto.
Qed.

Lemma add_instant sc d x n : instant sc d x -> sc <> Dates ->
  (sc = Offsets -> 1901 <= mYear (addSeconds d n) <= 2100) -> instant sc (addSeconds d n) (x + n).
Proof.
  intros [V H] HD HY. destruct (add_uncached d n) as [O' C'].
  destruct sc as [u t| |]; [|congruence|].
  - destruct H as (D & U & T & k & Hk & ->). destruct (addSeconds_spec d n V D) as (V' & E & D' & U' & T').
    split; [assumption|]. split; [congruence|]. split; [congruence|]. split; [congruence|].
    eexists; split; [apply hdn_db; assumption|]. apply db_hdn in Hk; [|assumption]. unfold abs_secs in E. lia.
  - destruct H as (D & Y & O & C & k & o & Z & Hk & ->). destruct (addSeconds_spec d n V D) as (V' & E & D' & U' & T').
    split; [assumption|]. split; [congruence|]. split; [auto|]. split; [assumption|]. split; [assumption|].
    eexists; exists o. split; [|split; [apply hdn_db; assumption|]].
    + destruct Z as [F Z]. split; [unfold floating in *; rewrite U', T'; exact F|]. rewrite U', T'. exact Z.
    + apply db_hdn in Hk; [|assumption]. unfold abs_secs in E. lia.
Qed.

Lemma fixed_posix d o : valid_dt d -> fixed_zone d o -> mTZOffset d = None -> mPosixTimeCached d = false -> 1901 <= mYear d <= 2100 ->
  snd (getPosixTime tzo d) = Ok (86400 * (hdn (mYear d) (mMonth d) (mDay d) - hdn 1970 1 1) + secs_of_day d - o).
Proof.
  intros V [F Z] O C Y. rewrite posix_uncached by assumption. rewrite fresh_posix_ok by (apply valid_month; assumption).
  f_equal. rewrite code_days_hist. apply err_hist_zero in Y. rewrite Y.
  assert (L : tz_lookup tzo d false = o) by (unfold tz_lookup; destruct Z as [[-> ->]|[-> ->]]; reflexivity).
  rewrite L. unfold hdn. lia.
Qed.

Lemma sub_instants a b x y : instant Offsets a x -> instant Offsets b y -> subDateTime tzo a b = Ok (x - y).
Proof.
  intros [Va (Da & Ya & Oa & Ca & i & o & Za & Hi & ->)] [Vb (Db & Yb & Ob & Cb & j & p & Zb & Hj & ->)].
  unfold subDateTime. rewrite (proj1 Za), (proj1 Zb). cbn [orb]. unfold posix_diff.
  rewrite (fixed_posix a o), (fixed_posix b p) by assumption. cbn [rbind].
  apply db_hdn in Hi; [|assumption]. apply db_hdn in Hj; [|assumption]. f_equal; lia.
Qed.

(** Either representation: the end is the start plus the duration. *)
Lemma end_start_duration p a b e : instant Offsets (pStart p) a -> snd (getEnd p) = Ok e -> instant Offsets e b ->
  (pDur p = None \/ pEnd p = None) -> 1901 <= mYear (addSeconds (pStart p) (b - a)) <= 2100 ->
  exists du, snd (getDuration tzo p) = Ok du /\ getTotalSeconds du = b - a /\
    dt_eq tzo (addSeconds (pStart p) (getTotalSeconds du)) e = Ok true.
Proof.
  intros Ha He Hb Hor HY. unfold getDuration, getEnd in *.
  assert (Q : forall n, instant Offsets (addSeconds (pStart p) n) b -> dt_eq tzo (addSeconds (pStart p) n) e = Ok true).
  { intros n Hn. destruct (instant_ops Offsets _ _ _ _ Hn Hb) as (_ & _ & _ & _ & E & _). rewrite E. f_equal; lia. }
  destruct (pDur p) as [du|] eqn:Ed.
  - destruct Hor as [Hor|Hor]; [discriminate|]. rewrite Hor in He. cbn [snd] in He. apply Ok_inj in He; subst e.
    exists du; split; [reflexivity|].
    assert (Hi : instant Offsets (addSeconds (pStart p) (getTotalSeconds du)) (a + getTotalSeconds du)).
    { apply add_instant; [assumption|discriminate|]. intros _. apply Hb. }
    pose proof (instant_ops Offsets _ _ _ _ Hb Hi) as (_ & _ & _ & _ & E & _). rewrite eq_refl' in E.
    assert (Hd : getTotalSeconds du = b - a) by (apply Ok_inj in E; lia).
    split; [assumption|]. apply eq_refl'.
  - destruct (pEnd p) as [e'|]; [|discriminate]. cbn [snd] in He. apply Ok_inj in He; subst e'.
    rewrite (sub_instants e (pStart p) b a) by assumption. cbn [snd].
    eexists; split; [reflexivity|]. rewrite total_setDuration. split; [reflexivity|].
    apply Q. replace b with (a + (b - a)) at 2 by lia. apply add_instant; [assumption|discriminate|]. auto.
Qed.

(** Floating times: the same without offsets. *)
Lemma float_utc t d x : tz_true t = false -> instant (InZone false t) d x -> 1901 <= mYear d <= 2100 -> instant Offsets (setTimezoneUTC d true) x.
Proof.
  intros Ht [V (D & U & T & k & Hk & ->)] Y. unfold setTimezoneUTC. rewrite U. cbn.
  split; [exact V|]. split; [exact D|]. split; [exact Y|]. split; [reflexivity|]. split; [reflexivity|].
  exists k, 0. split; [split; [reflexivity|left; split; reflexivity]|]. split; [exact Hk|]. unfold secs_of_day; cbn. lia.
Qed.

Lemma sub_floating t a b x y : tz_true t = false -> instant (InZone false t) a x -> instant (InZone false t) b y ->
  1901 <= mYear a <= 2100 -> 1901 <= mYear b <= 2100 -> subDateTime tzo a b = Ok (x - y).
Proof.
  intros Ht Ha Hb Ya Yb. pose proof (float_utc t a x Ht Ha Ya) as Ia. pose proof (float_utc t b y Ht Hb Yb) as Ib.
  rewrite <- (sub_instants _ _ _ _ Ia Ib).
  assert (Fa : floating a = true) by (destruct Ha as [_ (_ & U & T & _)]; unfold floating; rewrite U, T, Ht; reflexivity).
  assert (Fb : floating b = true) by (destruct Hb as [_ (_ & U & T & _)]; unfold floating; rewrite U, T, Ht; reflexivity).
  assert (Ga : floating (setTimezoneUTC a true) = false) by (destruct Ia as [_ (_ & _ & _ & _ & k & o & [F _] & _)]; exact F).
  assert (Gb : floating (setTimezoneUTC b true) = false) by (destruct Ib as [_ (_ & _ & _ & _ & k & o & [F _] & _)]; exact F).
  unfold subDateTime. rewrite Fa, Fb, Ga, Gb. reflexivity.
Qed.

Lemma end_start_duration_floating t p a b e : tz_true t = false ->
  instant (InZone false t) (pStart p) a -> snd (getEnd p) = Ok e -> instant (InZone false t) e b ->
  (pDur p = None \/ pEnd p = None) -> 1901 <= mYear (pStart p) <= 2100 -> 1901 <= mYear e <= 2100 ->
  exists du, snd (getDuration tzo p) = Ok du /\ getTotalSeconds du = b - a /\
    dt_eq tzo (addSeconds (pStart p) (getTotalSeconds du)) e = Ok true.
Proof.
  intros Ht Ha He Hb Hor Y1 Y2. unfold getDuration, getEnd in *.
  destruct (pDur p) as [du|] eqn:Ed.
  - destruct Hor as [Hor|Hor]; [discriminate|]. rewrite Hor in He. cbn [snd] in He. apply Ok_inj in He; subst e.
    exists du; split; [reflexivity|].
    assert (Hi : instant (InZone false t) (addSeconds (pStart p) (getTotalSeconds du)) (a + getTotalSeconds du)).
    { apply add_instant; [assumption|discriminate|discriminate]. }
    pose proof (instant_ops (InZone false t) _ _ _ _ Hb Hi) as (_ & _ & _ & _ & E & _). rewrite eq_refl' in E.
    assert (Hd : getTotalSeconds du = b - a) by (apply Ok_inj in E; lia).
    split; [assumption|]. apply eq_refl'.
  - destruct (pEnd p) as [e'|]; [|discriminate]. cbn [snd] in He. apply Ok_inj in He; subst e'.
    rewrite (sub_floating t e (pStart p) b a) by assumption. cbn [snd].
    eexists; split; [reflexivity|]. rewrite total_setDuration. split; [reflexivity|].
    assert (Hi : instant (InZone false t) (addSeconds (pStart p) (b - a)) b).
    { replace b with (a + (b - a)) at 2 by lia. apply add_instant; [assumption|discriminate|discriminate]. }
    destruct (instant_ops _ _ _ _ _ Hi Hb) as (_ & _ & _ & _ & E & _). rewrite E. f_equal; lia.
Qed.

(** Switching the representation keeps the end. *)
Lemma use_duration_end p use q : setUseDuration tzo p use = (q, Ok tt) -> pStart q = pStart p /\ pUse q = use /\ snd (getEnd q) = snd (getEnd p).
Proof.
  unfold setUseDuration, getDuration, getEnd. destruct use, (pDur p) as [du|] eqn:Ed, (pEnd p) as [e|] eqn:Ee; cbn [pStart pEnd pDur pUse snd rbind];
    rewrite ?Ed, ?Ee; try destruct (subDateTime tzo e (pStart p)); cbn; intros HH; inversion HH; subst; cbn; auto.
Qed.
End S.

(** ** Text *)
Lemma split1_app c a b : ~ In c a -> split1 c (a ++ c :: b) = Some (a, b).
Proof.
  induction a as [|x a IH]; intros H; cbn [app split1]; [rewrite Ascii.eqb_refl; reflexivity|].
  destruct (Ascii.eqb_spec c x) as [->|_]; [exfalso; apply H; left; reflexivity|].
  rewrite IH; [reflexivity|]. intros Hi; apply H; right; assumption.
Qed.

Definition noslash (s : bytes) : Prop := ~ In "/"%char s.
Lemma noslash_app a b : noslash a -> noslash b -> noslash (a ++ b).
Proof. unfold noslash; intros Ha Hb H; apply in_app_iff in H; tauto. Qed.
Lemma noslash_digits s : all_digits s = true -> noslash s.
Proof.
  unfold noslash, all_digits; intros H Hi. rewrite forallb_forall in H. apply H in Hi. discriminate.
Qed.
Lemma fmt0_digits w n : 0 <= n -> all_digits (fmt0 w n) = true.
Proof.
  intros H. unfold fmt0. destruct (Z.ltb_spec n 0); [lia|]. destruct (udigits_spec n H) as (D & _). unfold pad0, all_digits in *.
  rewrite forallb_app, D, andb_true_r. apply forallb_forall. intros x Hx. apply repeat_spec in Hx. subst; reflexivity.
Qed.
Lemma noslash_fmt0 w n : 0 <= n -> noslash (fmt0 w n).
Proof. intros; apply noslash_digits, fmt0_digits; assumption. Qed.

Ltac ns := repeat first [apply noslash_app | apply noslash_fmt0; lia | (unfold noslash, lit; cbn; intuition discriminate)].

Lemma noslash_getText d : printable d -> noslash (getText d) /\ noslash (getXMLText d).
Proof.
  intros P. unfold printable in P. unfold getText, getXMLText, tz_sign.
  split; (destruct (mDateOnly d); [ns|]; destruct (mTZUTC d); [ns|]; destruct (mTZID d) as [| |n]; [ns|ns|]; destruct (n <? 0); ns).
Qed.

Lemma text_head d : printable d -> exists c t, is_digit c = true /\ getText d = c :: t.
Proof.
  intros P. unfold printable in P. destruct (num4 (mYear d)) as (a & b & c & e & E & A & _); [lia|].
  unfold getText. rewrite E. destruct (mDateOnly d); cbn [app]; eauto.
  destruct (mTZUTC d); cbn [app]; eauto. destruct (mTZID d); cbn [app]; eauto.
Qed.
Lemma xml_head d : printable d -> exists c t, is_digit c = true /\ getXMLText d = c :: t.
Proof.
  intros P. unfold printable in P. destruct (num4 (mYear d)) as (a & b & c & e & E & A & _); [lia|].
  unfold getXMLText. rewrite E. destruct (mDateOnly d); cbn [app]; eauto.
  destruct (mTZUTC d); cbn [app]; eauto. destruct (mTZID d); cbn [app]; eauto.
Qed.

Lemma parse_of_text ctx full s d : dt_parseText ctx full s = Ok d -> dt_parse ctx full s newDefault = (d, Ok tt).
Proof.
  unfold dt_parseText. destruct (dt_parse ctx full s newDefault) as [d' [[]|]]; [|discriminate]. intros H; injection H as ->; reflexivity.
Qed.

Lemma period_end_read ctx full s e S E : noslash S -> (exists c t, is_digit c = true /\ E = c :: t) ->
  dt_parseText ctx full S = Ok s -> dt_parseText ctx full E = Ok e ->
  period_parseText ctx full (S ++ "/"%char :: E) = Ok (newPeriodEnd s e).
Proof.
  intros HS (c & t & Hc & ->) H1 H2. apply parse_of_text in H1, H2.
  unfold period_parseText, period_parse. rewrite split1_app by assumption. cbn [newPeriod newPeriodEnd pStart pEnd pDur pUse]. rewrite H1.
  rewrite (dneq c "P" Hc eq_refl), H2. reflexivity.
Qed.

Lemma period_dur_read ctx full s S t du : noslash S -> dt_parseText ctx full S = Ok s -> dur_parseText ctx ("P"%char :: t) = Ok du ->
  period_parseText ctx full (S ++ "/"%char :: "P"%char :: t) = Ok (newPeriodDur s du).
Proof.
  intros HS H1 H2. apply parse_of_text in H1.
  unfold period_parseText, period_parse. rewrite split1_app by assumption. cbn [newPeriod newPeriodEnd pStart pEnd pDur pUse]. rewrite H1.
  rewrite Ascii.eqb_refl, H2. reflexivity.
Qed.

Lemma dur_gen_head n : exists t, dur_generate (setDuration n) = (if n <? 0 then lit "-" else []) ++ "P"%char :: t.
Proof.
  unfold dur_generate. pose proof (total_setDuration n) as T. unfold getTotalSeconds in T.
  destruct (setDuration_fields n) as [F _]. cbv zeta in F.
  destruct (mForward (setDuration n)) eqn:E; cbn [negb andb].
  - assert (0 <= n) by (apply F; reflexivity). destruct (Z.ltb_spec n 0); [lia|]. eexists; reflexivity.
  - destruct (Z.ltb_spec n 0); [|assert (false = true) by (apply F; lia); discriminate].
    cbn [negb] in T. replace (_ || _) with true; [eexists; reflexivity|]. unfold nz. lia.
Qed.

Lemma end_text ctx full s e : printable s -> printable e -> zone_ok full s -> zone_ok full e ->
  period_parseText ctx full (period_generate (newPeriodEnd s e)) = Ok (newPeriodEnd (said s) (said e)).
Proof.
  intros Ps Pe Zs Ze. unfold period_generate; cbn [newPeriodEnd pStart pEnd pDur pUse].
  apply period_end_read; [apply noslash_getText; assumption|apply text_head; assumption| |]; apply text_round_trip; assumption.
Qed.

Lemma end_json ctx s e : printable s -> printable e -> zone_ok true s -> zone_ok true e ->
  exists t, period_json (newPeriodEnd s e) = Ok t /\ period_parseJSON ctx t newPeriod = (newPeriodEnd (said s) (said e), Ok tt).
Proof.
  intros Ps Pe Zs Ze. eexists; split; [reflexivity|]. cbn [newPeriodEnd pStart pEnd pDur pUse].
  assert (H : period_parseText ctx true (getXMLText s ++ "/"%char :: getXMLText e) = Ok (newPeriodEnd (said s) (said e))).
  { apply period_end_read; [apply noslash_getText; assumption|apply xml_head; assumption| |]; apply xml_round_trip; auto;
    intros A B; [specialize (Zs A B); destruct (mTZID s)|specialize (Ze A B); destruct (mTZID e)]; tauto. }
  unfold period_parseText in H. unfold period_parseJSON; cbn [fst snd].
  destruct (period_parse ctx true _ newPeriod) as [p [[]|]]; [|discriminate]. injection H as ->; reflexivity.
Qed.

Lemma dur_text ctx full s n : printable s -> zone_ok full s -> 0 <= n ->
  exists du, period_parseText ctx full (period_generate (newPeriodDur s (setDuration n))) = Ok (newPeriodDur (said s) du) /\
    getTotalSeconds du = n.
Proof.
  intros Ps Zs Hn. unfold period_generate; cbn [newPeriodDur pStart pEnd pDur pUse].
  destruct (dur_text_total ctx n) as (du & H1 & H2 & _). exists du. split; [|assumption].
  destruct (dur_gen_head n) as (t & Ht). destruct (Z.ltb_spec n 0); [lia|]. cbn [app] in Ht. rewrite Ht in *.
  apply period_dur_read; [apply noslash_getText; assumption|apply text_round_trip; assumption|assumption].
Qed.

Lemma dur_json ctx s n : printable s -> zone_ok true s -> 0 <= n ->
  exists t du, period_json (newPeriodDur s (setDuration n)) = Ok t /\
    period_parseJSON ctx t newPeriod = (newPeriodDur (said s) du, Ok tt) /\ getTotalSeconds du = n.
Proof.
  intros Ps Zs Hn. destruct (dur_text_total ctx n) as (du & H1 & H2 & _). eexists; exists du; split; [reflexivity|]. split; [|assumption].
  cbn [newPeriodDur pStart pEnd pDur pUse]. unfold period_parseJSON; cbn [fst snd].
  destruct (dur_gen_head n) as (t & Ht). destruct (Z.ltb_spec n 0); [lia|]. cbn [app] in Ht. rewrite Ht in *.
  assert (HP : period_parseText ctx true (getXMLText s ++ "/"%char :: "P"%char :: t) = Ok (newPeriodDur (said s) du)).
  { apply period_dur_read; [apply noslash_getText; assumption| |assumption]. apply xml_round_trip; auto.
    intros A B; specialize (Zs A B); destruct (mTZID s); tauto. }
  unfold period_parseText in HP.
  destruct (period_parse ctx true _ newPeriod) as [p [[]|]]; [|discriminate]. injection HP as ->; reflexivity.
Qed.

(** A negative duration is written as "-P...", which is then taken for a date. *)
Lemma pyint_dashP t : pyint (firstn 4 ("-"%char :: "P"%char :: t)) = Raise ValueError.
Proof. reflexivity. Qed.

Lemma dur_text_neg ctx full s n : printable s -> zone_ok full s -> n < 0 ->
  period_parseText ctx full (period_generate (newPeriodDur s (setDuration n))) = Raise ValueError.
Proof.
  intros Ps Zs Hn. unfold period_generate; cbn [newPeriodDur pStart pEnd pDur pUse].
  destruct (dur_gen_head n) as (t & ->). destruct (Z.ltb_spec n 0); [|lia]. cbn [app lit list_ascii_of_string].
  unfold period_parseText, period_parse. rewrite split1_app by (apply noslash_getText; assumption).
  cbn [newPeriod newPeriodEnd pStart pEnd pDur pUse]. rewrite (parse_of_text ctx full _ (said s)) by (apply text_round_trip; assumption).
  reflexivity.
Qed.

Lemma period_only_value ctx full data p e : pEnd p <> None -> snd (period_parse ctx full data p) = Raise e -> e = ValueError.
Proof.
  intros HE. unfold period_parse. destruct (split1 "/" data) as [[s t]|]; [|cbn; congruence].
  destruct (dt_parse ctx full s (pStart p)) as [d [[]|x]] eqn:E1.
  2:{ pose proof (dt_parse_only_value ctx full s (pStart p) x) as H. rewrite E1 in H. rewrite (H eq_refl). cbn. congruence. }
  destruct t as [|c t]; [cbn; congruence|]. destruct (Ascii.eqb c "P").
  - destruct (dur_parseText ctx (c :: t)) as [du|x] eqn:E2; [discriminate|].
    unfold dur_parseText in E2. destruct (dur_parse ctx (c :: t) (newDuration 0 0 0 0 0)) as [du [[]|y]] eqn:E3; [discriminate|].
    injection E2 as <-. pose proof (dur_parse_only_value ctx (c :: t) (newDuration 0 0 0 0 0) y) as H. rewrite E3 in H. rewrite (H eq_refl). cbn. congruence.
  - cbn [pEnd]. destruct (pEnd p) as [old|]; [|congruence].
    destruct (dt_parse ctx full (c :: t) old) as [d2 [[]|x]] eqn:E2; [discriminate|].
    pose proof (dt_parse_only_value ctx full (c :: t) old x) as H. rewrite E2 in H. rewrite (H eq_refl). cbn. congruence.
Qed.

(** ** UTC offsets *)
Lemma offset_parts a : 0 <= a < 360000 -> 0 <= a / 3600 < 100 /\ 0 <= (a / 60) mod 60 < 100 /\ 0 <= a mod 60 < 100 /\
  ((a / 3600) * 60 + (a / 60) mod 60) * 60 + a mod 60 = a.
Proof. intros. lia. Qed.

Lemma offset_round vcard v old : Z.abs v < 360000 -> utcoffset_parse vcard (utcoffset_generate vcard v) old = (v, Ok tt).
Proof.
  intros Hv. unfold utcoffset_generate. set (a := if v <? 0 then - v else v).
  assert (Ha : 0 <= a < 360000 /\ (if v <? 0 then - a else a) = v) by (unfold a; destruct (Z.ltb_spec v 0); lia).
  clearbody a. destruct Ha as [Ha Hs]. destruct (offset_parts a Ha) as (A & B & C & D).
  destruct (num2 _ A) as (h1 & h2 & -> & _ & _ & H1). destruct (num2 _ B) as (m1 & m2 & -> & _ & _ & H2).
  destruct (num2 _ C) as (s1 & s2 & -> & _ & _ & H3).
  assert (Hx : forall s, (if v <? 0 then lit "-" else lit "+") ++ s = (if v <? 0 then "-"%char else "+"%char) :: s) by (intro; destruct (v <? 0); reflexivity).
  destruct (Z.eqb_spec (a mod 60) 0) as [E|E]; cbn [negb]; destruct vcard; rewrite <- ?app_assoc, Hx; cbn [app lit list_ascii_of_string];
    unfold utcoffset_parse; cbn [List.length existsb Nat.eqb orb negb slice firstn skipn Nat.sub Nat.add Nat.ltb Nat.leb];
    rewrite H1, H2, ?H3; cbn [rbind]; destruct (Z.ltb_spec v 0); cbn [Ascii.eqb Bool.eqb orb negb]; do 2 f_equal; lia.
Qed.

Lemma offset_only_value vcard s old e : snd (utcoffset_parse vcard s old) = Raise e -> e = ValueError.
Proof.
  unfold utcoffset_parse. destruct (negb (existsb _ _)) eqn:L; [cbn; congruence|].
  destruct s as [|c s]; [destruct vcard; discriminate|]. destruct (negb (_ || _)); [cbn; congruence|].
  set (i := if vcard then 4%nat else 3%nat). set (j := if vcard then 7%nat else 5%nat).
  destruct (pyint (slice (c :: s) 1 3)) as [h|x] eqn:E1; cbn [rbind]; [|intros H; injection H as <-; eapply pyint_only_value; eassumption].
  destruct (pyint (slice (c :: s) i (i + 2))) as [m|x] eqn:E2; cbn [rbind]; [|intros H; injection H as <-; eapply pyint_only_value; eassumption].
  destruct (6 <? List.length (c :: s))%nat; cbn [rbind]; [|discriminate].
  destruct (pyint (skipn j (c :: s))) as [m'|x] eqn:E3; cbn [rbind]; [discriminate|intros H; injection H as <-; eapply pyint_only_value; eassumption].
Qed.

(** XML: whole minutes only. *)
Lemma offset_xml v old : Z.abs v < 360000 ->
  if v mod 60 =? 0 then utcoffset_parse true (utcoffset_xml v) old = (v, Ok tt)
  else utcoffset_parse true (utcoffset_xml v) old = (0, Raise ValueError).
Proof.
  intros Hv. unfold utcoffset_xml, utcoffset_generate. set (a := if v <? 0 then - v else v).
  assert (Ha : 0 <= a < 360000 /\ (if v <? 0 then - a else a) = v /\ (v mod 60 =? 0) = (a mod 60 =? 0)).
  { unfold a; destruct (Z.ltb_spec v 0); split; try lia. }
  clearbody a. destruct Ha as (Ha & Hs & ->). destruct (offset_parts a Ha) as (A & B & C & D).
  destruct (num2 _ A) as (h1 & h2 & -> & _ & _ & H1). destruct (num2 _ B) as (m1 & m2 & -> & _ & _ & H2).
  destruct (num2 _ C) as (s1 & s2 & -> & _ & _ & H3).
  assert (Hx : forall s, (if v <? 0 then lit "-" else lit "+") ++ s = (if v <? 0 then "-"%char else "+"%char) :: s) by (intro; destruct (v <? 0); reflexivity).
  destruct (Z.eqb_spec (a mod 60) 0) as [E|E]; cbn [negb]; rewrite <- ?app_assoc, Hx; cbn [app lit list_ascii_of_string List.length Nat.sub firstn skipn].
  - unfold utcoffset_parse; cbn [List.length existsb Nat.eqb orb negb slice firstn skipn Nat.sub Nat.add Nat.ltb Nat.leb];
    rewrite H1, H2; cbn [rbind]; destruct (Z.ltb_spec v 0); cbn [Ascii.eqb Bool.eqb orb negb]; do 2 f_equal; lia.
  - reflexivity.
Qed.

Lemma reuse_clean ctx full a b p q : ~ In "/"%char a ->
  period_parse ctx full (a ++ "/"%char :: b) p = (q, Ok tt) ->
  (exists s, dt_parse ctx full a (pStart p) = (s, Ok tt) /\
   ((exists du, dur_parseText ctx b = Ok du /\ q = newPeriodDur s du) \/
    (exists old e, pEnd p = Some old /\ dt_parse ctx full b old = (e, Ok tt) /\ q = newPeriodEnd s e))).
Proof.
  intro H. unfold period_parse. rewrite split1_app by exact H.
  destruct (dt_parse ctx full a (pStart p)) as [s [[]|x]]; [|destruct x; discriminate].
  intro E. exists s. split; [reflexivity|].
  destruct b as [|c b]; [discriminate|]. destruct (Ascii.eqb c "P").
  - left. destruct (dur_parseText ctx (c :: b)) as [du|x]; [|destruct x; discriminate].
    exists du. split; [reflexivity|]. injection E as <-. reflexivity.
  - right. cbn [pEnd] in E. destruct (pEnd p) as [old|]; [|discriminate].
    exists old. destruct (dt_parse ctx full (c :: b) old) as [e [[]|x]]; [|destruct x; discriminate].
    exists e. split; [reflexivity|]. split; [reflexivity|]. injection E as <-. reflexivity.
Qed.
