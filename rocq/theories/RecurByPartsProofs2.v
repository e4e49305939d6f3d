(** The hypotheses of the expansion theorem, frequency by frequency. *)
From Coq Require Import Lia ZifyBool ZifyNat Sorting.Sorted.
From Verif Require Import PyBase PyProofs CalModel CalSpec CalProofs DateTimeModel DateTimeSpec DateTimeSpec2 DateTimeProofs DateTimeProofs2 DateTimeProofs4 DateTimeOpsProofs.
From Verif Require Import PeriodModel PeriodSpec PeriodProofs RecurModel RecurSpec RecurExpand RecurExpandSpec RecurSimpleProofs
  RecurCacheProofs RecurComplexSpec RecurMiscProofs RecurSetSpec RecurSetProofs RecurSortProofs RecurSetProofs2 RecurSetProofs3
  RecurByPartsSpec RecurLoopProofs RecurByPartsProofs RecurCohProofs.
Ltac Zify.zify_post_hook ::= Z.div_mod_to_equations.

Lemma given_dec {A} (l : option (list A)) : {given l} + {~ given l}.
Proof. destruct l as [[|x t]|]; cbn; auto. Qed.
Lemma by_month_dec r : {yearly_by_month r} + {~ yearly_by_month r}.
Proof.
  unfold yearly_by_month. destruct (given_dec (rByMonth r)); [left; auto|]. destruct (given_dec (rByMonthDay r)); [left; auto|].
  destruct (given_dec (rByDay r)); [right; tauto|left; auto].
Defined.
Lemma fine_or r : step_months r = None -> (hours_free (rFreq r) = false \/ rFreq r = DAILY) \/ rFreq r = WEEKLY.
Proof. unfold step_months. destruct (rFreq r); intros; try discriminate; cbn; auto. Qed.

Lemma set_selects tzo sc r s : by_ok sc r -> set_start s -> (step_months r = None -> valid_dt s) -> 1902 <= mYear s <= 2099 ->
  exists out, generate_set tzo r s = Ok out /\ in_order tzo out /\ describes out (selects r s).
Proof.
  intros (R & _ & G & _ & _ & GY & YO) SS V Y.
  destruct (step_months r) as [p|] eqn:SM.
  - specialize (GY ltac:(discriminate)). destruct (rFreq r) eqn:F; unfold step_months in SM; rewrite F in SM; try discriminate SM.
    + destruct (monthly_set tzo r s F R G GY SS ltac:(lia)) as (o & E & O & D). exists o. split; [exact E|]. split; [exact O|].
      revert D. apply describes_iff. intro e. unfold selects. rewrite F. tauto.
    + destruct (YO eq_refl) as [GW YB]. destruct (by_month_dec r) as [BM|BM].
      * destruct (yearly_month_set tzo r s F R G GY GW BM SS ltac:(lia)) as (o & E & O & D). exists o. split; [exact E|]. split; [exact O|].
        revert D. apply describes_iff. intro e. unfold selects. rewrite F. unfold year_days. clear - BM. change (items (rByMonth r)) with (elems (rByMonth r)). tauto.
      * destruct YB as [|R52]; [contradiction|]. unfold yearly_by_month in BM.
        destruct (given_dec (rByMonth r)) as [|G1]; [tauto|]. destruct (given_dec (rByMonthDay r)) as [|G2]; [tauto|].
        destruct (given_dec (rByDay r)) as [G3|]; [|tauto].
        destruct (yearly_day_set tzo r s F R G GY GW G1 G2 G3 R52 SS ltac:(lia)) as (o & E & O & D). exists o. split; [exact E|]. split; [exact O|].
        revert D. apply describes_iff. intro e. unfold selects. rewrite F. unfold year_days, yearly_by_month. change (year_of (ymd e)) with (mYear e).
        clear - G1 G2 G3. tauto.
  - specialize (V eq_refl). destruct (fine_or r SM) as [F|F].
    + destruct (fine_set tzo r s F R G V ltac:(lia)) as (o & E & O & D). exists o. split; [exact E|]. split; [exact O|].
      revert D. apply describes_iff. intro e. unfold selects. destruct (rFreq r); destruct F as [F|F]; try discriminate F; clear; tauto.
    + destruct (weekly_set tzo r s F R G V ltac:(lia)) as (o & E & O & D). exists o. split; [exact E|]. split; [exact O|].
      revert D. apply describes_iff. intro e. unfold selects. rewrite F. tauto.
Qed.

Lemma unit_range l free (P : Z -> Prop) s e : all_in P l -> P s -> clock_unit l free s e -> P e.
Proof.
  unfold all_in, clock_unit. destruct l as [[|x t]|]; intros A Ps C; try (rewrite C; exact Ps). destruct C as [C _].
  rewrite Forall_forall in A. apply A, C.
Qed.
Lemma unit_not l free s e : ~ given l -> clock_unit l free s e -> e = s.
Proof. unfold clock_unit. destruct l as [[|x t]|]; cbn; tauto. Qed.
Lemma unit_bound l s e : clock_unit l false s e -> e = s.
Proof. unfold clock_unit. destruct l as [[|x t]|]; auto. intros [_ H]. apply H, eq_refl. Qed.

Lemma same_kind_scaled sc s e : same_kind s e -> scaled sc s -> scaled sc e.
Proof. intros (D & U & T) S. destruct sc; cbn in *; rewrite ?D, ?U, ?T; exact S. Qed.
Lemma scaled_dates sc s : scaled sc s -> mDateOnly s = true -> sc = Dates.
Proof. destruct sc; cbn; [|auto|tauto]. intros (D & _) H. congruence. Qed.

Lemma week_near wkst a b : 0 <= wkst <= 6 -> valid_date greg_leap a -> valid_date greg_leap b -> same_week wkst a b ->
  (gdn b - gdn (1970,1,1) + 4 - wkst) / 7 = (gdn a - gdn (1970,1,1) + 4 - wkst) / 7.
Proof.
  intros W Va Vb S. pose proof (same_week_gdn no_tz wkst a b Va Vb W S _ eq_refl) as H. lia.
Qed.
(** The days of a week after 1902 all have the same numbers on both calendars. *)
Lemma week_hist wkst a b : 0 <= wkst <= 6 -> valid_date hist_leap a -> valid_date greg_leap b -> 1902 <= year_of a -> same_week wkst a b ->
  valid_date hist_leap b /\ year_of a - 1 <= year_of b <= year_of a + 1 /\
  (dnd hist_leap Lh b - hdn 1970 1 1 + 4 - wkst) / 7 = (dnd hist_leap Lh a - hdn 1970 1 1 + 4 - wkst) / 7.
Proof.
  intros W Va Vb Y S. destruct a as [[y m] d], b as [[y' m'] d']. unfold year_of in *. cbn [fst snd] in *.
  assert (Vg : valid_date greg_leap (y, m, d)) by (apply valid_greg_hist; [lia|exact Va]).
  pose proof (week_near wkst _ _ W Vg Vb S) as N. assert (Yl : 1752 < y) by lia. rewrite (gdn_hdn y) in N by exact Yl. rewrite !(gdn_hdn 1970) in N by reflexivity.
  assert (Y' : 1752 < y').
  { destruct (Z.lt_ge_cases 1752 y') as [|L]; [assumption|exfalso].
    pose proof (dn_lt_year greg_leap Lg Lg_step y' m' d' 1753 1 1 Vb (valid_first greg_leap 1753 1 ltac:(lia)) ltac:(lia)) as H.
    pose proof (dn_lt_year hist_leap Lh Lh_step 1901 1 1 y m d (valid_first hist_leap 1901 1 ltac:(lia)) Va ltac:(lia)) as H2.
    change (dn greg_leap Lg y' m' d') with (gdn (y', m', d')) in H. change (dn greg_leap Lg 1753 1 1) with (gdn (1753, 1, 1)) in H.
    rewrite (gdn_hdn 1753) in H by lia. fold (hdn y m d) in H2. fold (hdn 1901 1 1) in H2.
    assert (hdn 1753 1 1 + 100 < hdn 1901 1 1) by (vm_compute; reflexivity). lia. }
  rewrite (gdn_hdn y') in N by lia. assert (Vh : valid_date hist_leap (y', m', d')) by (apply valid_greg_hist; [lia|exact Vb]).
  split; [exact Vh|]. unfold dnd. cbn [fst snd]. fold (hdn y' m' d') (hdn y m d). split; [|exact N].
  apply (near_year no_tz (y, m, d) (y', m', d') Va Vh). unfold dnd. fold (hdn y' m' d') (hdn y m d). lia.
Qed.

(** ** What is selected is a valid value near the interval *)
Lemma range_both (P Q T : Z -> Prop) l : all_in P l -> all_in Q l -> (forall n, P n -> Q n -> T n) -> all_in T l.
Proof.
  destruct l as [l|]; [|auto]. cbn. intros A B H. rewrite Forall_forall in *. intros n Hn. apply H; [apply A, Hn|apply B, Hn].
Qed.

Lemma year_days_year r s e : year_days r s e -> valid_date greg_leap e /\ year_of e = mYear s.
Proof.
  intros [A B]. destruct (by_month_dec r) as [H|H].
  - destruct (A H) as (m & _ & _ & V & Y & _). auto.
  - destruct (B H) as (V & Y & _). auto.
Qed.

Lemma selects_valid sc r s e : by_ok sc r -> set_start s -> scaled sc s -> (step_months r = None -> valid_dt s) -> 1902 <= mYear s ->
  selects r s e -> valid_dt e /\ scaled sc e /\ mYear s - 1 <= mYear e <= mYear s + 1.
Proof.
  intros (R & _ & _ & S59 & DT & _ & _) (Mo & (Th & Tm & Ts) & Sd) Sc V Y (K & (C1 & C2 & C3) & Sel).
  destruct R as (_ & _ & R1 & R2 & R3 & _ & _ & _ & _ & _ & WK).
  assert (R59 : all_in (fun n => 0 <= n <= 59) (rBySeconds r)) by (apply (range_both _ _ _ _ R1 S59); lia).
  assert (VT : valid_time (mHours e) (mMinutes e) (mSeconds e)).
  { split; [|split].
    - pose proof (unit_range _ _ (fun n => 0 <= n <= 23) (mHours s) (mHours e) R3 ltac:(cbv beta; lia) C1) as H. cbv beta in H. lia.
    - pose proof (unit_range _ _ (fun n => 0 <= n <= 59) (mMinutes s) (mMinutes e) R2 ltac:(cbv beta; lia) C2) as H. cbv beta in H. lia.
    - pose proof (unit_range _ _ (fun n => 0 <= n <= 59) (mSeconds s) (mSeconds e) R59 ltac:(cbv beta; lia) C3) as H. cbv beta in H. lia. }
  assert (VS : mDateOnly e = true -> secs_of_day e = 0).
  { destruct K as (KD & _). rewrite KD. intro D. rewrite <- (Sd D). destruct (DT (scaled_dates _ _ Sc D)) as (_ & G1 & G2 & G3).
    unfold secs_of_day. rewrite (unit_not _ _ _ _ G1 C1), (unit_not _ _ _ _ G2 C2), (unit_not _ _ _ _ G3 C3). reflexivity. }
  pose proof (same_kind_scaled sc s e K Sc) as Se.
  assert (VD : valid_date hist_leap (ymd e) /\ mYear s - 1 <= mYear e <= mYear s + 1).
  { assert (Same : valid_dt s -> ymd e = ymd s -> valid_date hist_leap (ymd e) /\ mYear s - 1 <= mYear e <= mYear s + 1).
    { intros Vs Eq. rewrite Eq. split; [apply Vs|]. unfold ymd in Eq. injection Eq as -> _ _. lia. }
    assert (Year : valid_date greg_leap (ymd e) -> mYear e = mYear s -> valid_date hist_leap (ymd e) /\ mYear s - 1 <= mYear e <= mYear s + 1).
    { intros Ve Eq. split; [|lia]. apply valid_greg_hist; [lia|exact Ve]. }
    unfold step_months in V. destruct (rFreq r); try (apply Same; [apply V, eq_refl|exact (proj1 Sel)]).
    - destruct Sel as (_ & _ & Wk & _ & NW). specialize (V eq_refl). destruct (given_dec (rByDay r)) as [G|G].
      + destruct (Wk G) as [Ve SW]. destruct (week_hist (rWeekstart r) (ymd s) (ymd e) WK ltac:(apply V) Ve Y SW) as (A & B & _). auto.
      + apply Same; [exact V|apply NW, G].
    - destruct Sel as (_ & Ve & Ye & _). apply Year; assumption.
    - apply year_days_year in Sel as [Ve Ye]. apply Year; assumption. }
  split; [|split; [exact Se|apply VD]]. split; [apply VD|]. split; [exact VT|exact VS].
Qed.

(** ** The buckets of the frequencies with a fixed length *)
(** Weeks start on weekday WKST; 1 January 1970 was a Thursday. *)
Definition shift (sc : scale) (r : rule) : Z :=
  match rFreq r with WEEKLY => match sc with InZone _ _ => 86400 * (4 - rWeekstart r) | _ => 4 - rWeekstart r end | _ => 0 end.
Lemma same_bucket sc r s e u : by_ok sc r -> step_units sc (rFreq r) = Some u -> valid_dt s -> scaled sc s -> 1902 <= mYear s ->
  selects r s e -> (on_scale sc e + shift sc r) / u = (on_scale sc s + shift sc r) / u.
Proof.
  intros Ok U V Sc Y Hs.
  assert (SM : step_months r = None) by (unfold step_months; destruct sc, (rFreq r); try discriminate U; reflexivity).
  assert (SS : set_start s) by (split; [apply valid_month, V|apply V]).
  destruct (selects_valid sc r s e Ok SS Sc (fun _ => V) Y Hs) as (Ve & Se & _).
  destruct Hs as (K & (C1 & C2 & C3) & Sel). destruct Ok as ((_ & _ & _ & _ & _ & _ & _ & _ & _ & _ & WK) & _ & _ & _ & DT & _).
  pose proof (valid_secs s V) as Vs. pose proof (valid_secs e Ve) as Vse.
  assert (T : valid_time (mHours s) (mMinutes s) (mSeconds s)) by apply V. assert (Te : valid_time (mHours e) (mMinutes e) (mSeconds e)) by apply Ve.
  destruct T as (T1 & T2 & T3), Te as (T1' & T2' & T3').
  assert (Wk : rFreq r = WEEKLY -> (hdn (mYear e) (mMonth e) (mDay e) - hdn 1970 1 1 + 4 - rWeekstart r) / 7 =
                                   (hdn (mYear s) (mMonth s) (mDay s) - hdn 1970 1 1 + 4 - rWeekstart r) / 7).
  { intro F. rewrite F in Sel. destruct Sel as (_ & _ & W & _ & NW). destruct (given_dec (rByDay r)) as [G|G].
    - destruct (W G) as [Vg SW]. apply (week_hist (rWeekstart r) (ymd s) (ymd e) WK ltac:(apply V) Vg Y SW).
    - specialize (NW G). unfold ymd in NW. injection NW as -> -> ->. reflexivity. }
  assert (Dy : rFreq r <> WEEKLY -> hdn (mYear e) (mMonth e) (mDay e) = hdn (mYear s) (mMonth s) (mDay s)).
  { intro F. assert (Q : ymd e = ymd s) by (unfold step_months in SM; destruct (rFreq r); try discriminate SM; try congruence; exact (proj1 Sel)).
    unfold ymd in Q. injection Q as -> -> ->. reflexivity. }
  unfold shift, on_scale, civil, secs_of_day in *.
  destruct sc as [z t| |]; [| |destruct Sc].
  - destruct (rFreq r) eqn:F; cbn [step_units] in U; apply Some_eq in U || discriminate U; subst u;
      cbn [hours_free minutes_free seconds_free] in *.
    + rewrite (Dy ltac:(discriminate)), (unit_bound _ _ _ C1), (unit_bound _ _ _ C2), (unit_bound _ _ _ C3). reflexivity.
    + rewrite (Dy ltac:(discriminate)), (unit_bound _ _ _ C1), (unit_bound _ _ _ C2). lia.
    + rewrite (Dy ltac:(discriminate)), (unit_bound _ _ _ C1). lia.
    + rewrite (Dy ltac:(discriminate)). lia.
    + specialize (Wk eq_refl). lia.
  - destruct (rFreq r) eqn:F; cbn [step_units] in U; try discriminate U; apply Some_eq in U; subst u.
    + rewrite (Dy ltac:(discriminate)). reflexivity.
    + specialize (Wk eq_refl). rewrite !Z.add_sub_assoc. exact Wk.
Qed.

(** ** Sorted sets *)
Lemma sorted_le_map (l : list dt) f (Q : dt -> dt -> Prop) : (forall x y, In x l -> In y l -> Q x y -> f x <= f y) ->
  StronglySorted Q l -> StronglySorted Z.le (map f l).
Proof.
  intros H S. induction S as [|x t S IH A]; cbn; constructor.
  - apply IH. intros; apply H; try (right; assumption); assumption.
  - apply Forall_forall. intros z Hz. apply in_map_iff in Hz as (y & <- & Hy). rewrite Forall_forall in A.
    apply H; [left; reflexivity|right; exact Hy|apply A, Hy].
Qed.
Lemma set_sorted tzo sc r s o : sc <> Offsets -> by_ok sc r -> set_start s -> scaled sc s -> (step_months r = None -> valid_dt s) -> 1902 <= mYear s <= 2099 ->
  coherent tzo s -> clock_ordered tzo sc -> generate_set tzo r s = Ok o -> in_order tzo o -> describes o (selects r s) ->
  StronglySorted Z.le (map (on_scale sc) o).
Proof.
  intros NO Ok SS Sc V Y Ch CO E IO [D _].
  assert (G : ~ given (rBySetPos r)) by apply Ok.
  pose proof (set_coh tzo r s o Ch G E) as Co. rewrite Forall_forall in Co.
  assert (Post : forall x p, In x o -> snd (getPosixTime tzo x) = PyBase.Ok p -> snd (getPosixTime tzo (rebuilt x)) = PyBase.Ok p).
  { intros x p Hx <-. rewrite !getPosixTime_fresh by auto using coh_rebuilt. reflexivity. }
  apply (sorted_le_map _ _ _) with (2 := IO). intros x y Hx Hy (p & q & P & Q & L).
  destruct (Z.le_gt_cases (on_scale sc x) (on_scale sc y)) as [|G']; [assumption|exfalso].
  destruct (selects_valid sc r s x Ok SS Sc V ltac:(lia) (D x Hx)) as (Vx & Sx & Yx).
  destruct (selects_valid sc r s y Ok SS Sc V ltac:(lia) (D y Hy)) as (Vy & Sy & Yy).
  assert (q < p); [|lia].
  apply (CO y x (on_scale sc y) (on_scale sc x)); try lia; auto; try (apply instant_iff; auto; fail).
  destruct (D x Hx) as ((_ & U1 & T1) & _), (D y Hy) as ((_ & U2 & T2) & _). split; congruence.
Qed.

(** ** Sets of at most one element *)
Lemma keepr_len {A} (f : A -> res bool) l o : keepr f l = Ok o -> (List.length o <= List.length l)%nat.
Proof.
  revert o. induction l as [|x t IH]; intros o H; cbn [keepr] in H; [injection H as <-; auto|].
  destruct (f x) as [b|]; [|discriminate]. cbn [rbind] in H. destruct (keepr f t) as [o'|]; [|discriminate]. cbn [rbind] in H.
  injection H as <-. specialize (IH o' eq_refl). destruct b; cbn; lia.
Qed.
Lemma limit_len {A} (l : option (list A)) f (ds o : list dt) : (given l -> forall a o, f a ds = Ok o -> (List.length o <= List.length ds)%nat) ->
  part l f ds = Ok o -> (List.length o <= List.length ds)%nat.
Proof.
  intros H. unfold part. destruct (has l) eqn:E; [apply has_given in E; apply H, E|]. intro Q. injection Q as <-. lia.
Qed.
Lemma limits_small tzo r s o : only_limits r -> ~ given (rBySetPos r) -> generate_set tzo r s = Ok o -> (List.length o <= 1)%nat.
Proof.
  intros (F & H1 & H2 & H3) G. rewrite plain_set by exact G. destruct (pre_set r s) as [ds|] eqn:E; [|discriminate]. cbn [rbind].
  destruct (drop_invalid ds) as [ds'|] eqn:E'; [|discriminate]. cbn [rbind]. intro S.
  assert (L : (List.length o = List.length ds')%nat).
  { apply sort_keys in S as (ks & _ & _ & _ & P). apply Permutation.Permutation_length in P. rewrite !map_length in P. lia. }
  apply keepr_len in E'. enough (List.length ds <= 1)%nat by lia. clear - F H1 H2 H3 E.
  assert (E0 : pre_fine r s = Ok ds) by (unfold pre_set in E; destruct (rFreq r); try exact E; destruct F as [F|F]; discriminate F).
  clear E. unfold pre_fine in E0.
  assert (L : (List.length [s] <= 1)%nat) by (cbn; lia).
  repeat match goal with
    | L : (List.length ?ds <= 1)%nat, H : rbind (part ?l ?f ?ds) _ = Ok _ |- _ =>
      let o := fresh "o" in let E := fresh "E" in destruct (part l f ds) as [o|] eqn:E; [|discriminate]; cbn [rbind] in H;
      apply limit_len in E; [assert (List.length o <= 1)%nat by lia; clear L E|try (intros _ ? ?; apply keepr_len)]
    | L : (List.length ?ds <= 1)%nat, H : part ?l ?f ?ds = Ok _ |- _ => apply limit_len in H; [lia|]
    end.
  all: intros Gv a o'; first [apply keepr_len|
    match goal with |- (if ?b then _ else _) _ _ = _ -> _ => destruct b end; [exfalso; tauto|apply keepr_len]].
Qed.
Lemma small_sorted {A} (R : A -> A -> Prop) l : (List.length l <= 1)%nat -> StronglySorted R l.
Proof. destruct l as [|x [|y t]]; cbn; intro H; [constructor|constructor; constructor|lia]. Qed.

(** ** The starts of the intervals *)
Section Starts.
Variable tzo : tzid -> Z -> Z -> Z -> Z -> Z -> Z -> bool -> bool -> Z.
Variables (sc : scale) (r : rule) (start : dt) (a : Z).
Hypothesis NO : sc <> Offsets.
Hypothesis HOk : by_ok sc r.
Hypothesis start_at : instant sc start a.
Let v (k : nat) : dt := interval_start r (normalise start) k.

Lemma v_coh k : coherent tzo (v k).
Proof.
  unfold v, interval_start. destruct k; [apply coh_norm|]. cbn [Nat.iter nat_rect].
  match goal with |- context [recur ?d ?f ?n ?x] => destruct (recur_changed d f n x) as (e & ->) end. apply coh_changed.
Qed.
Lemma v_units u k : step_units sc (rFreq r) = Some u -> instant sc (v k) (a + Z.of_nat k * (rInterval r * u)).
Proof.
  intro U. induction k as [|k IH].
  - replace (a + Z.of_nat 0 * (rInterval r * u)) with a by lia. apply (norm_same sc start a NO start_at).
  - replace (a + Z.of_nat (S k) * (rInterval r * u)) with (a + Z.of_nat k * (rInterval r * u) + rInterval r * u) by lia.
    apply recur_instant; assumption.
Qed.
Lemma v_months p k : step_months r = Some p -> months_later start (Z.of_nat k * p) (v k).
Proof.
  intro P. assert (V : valid_dt start) by apply start_at. induction k as [|k IH].
  - pose proof (normalise_valid start V) as N. unfold visible, ymd in N. injection N as Y M D h m s DO U T.
    unfold v, interval_start, months_later. cbn [Nat.iter nat_rect]. rewrite Y, M, D, h, m, s, DO, U, T. pose proof (valid_month start V).
    repeat split; lia.
  - replace (Z.of_nat (S k) * p) with (Z.of_nat k * p + p) by lia. apply (recur_months r p start _ _ P IH).
Qed.
Lemma units_or_months : (exists u, step_units sc (rFreq r) = Some u /\ step_months r = None) \/ (exists p, step_months r = Some p).
Proof.
  destruct HOk as (_ & _ & _ & _ & DT & _). unfold step_months.
  destruct sc as [z t| |]; [destruct (rFreq r); cbn; eauto|specialize (DT eq_refl); destruct (rFreq r); cbn in *; destruct DT; try discriminate; eauto|congruence].
Qed.

(** An interval start in the sense of the statement is one of these, up to the zone of a date. *)
Lemma interval_of k s e x : 0 <= k -> interval_at sc r start a k s -> selects r s e -> instant sc e x ->
  exists e', selects r (v (Z.to_nat k)) e' /\ instant sc e' x.
Proof.
  intros Hk I Sel Ie. unfold interval_at in I. destruct units_or_months as [(u & U & SM)|(p & SM)]; rewrite SM in I.
  - destruct I as (u' & U' & I). rewrite U in U'. apply Some_eq in U'. subst u'.
    pose proof (v_units u (Z.to_nat k) U) as J. rewrite Z2Nat.id in J by exact Hk. set (s' := v (Z.to_nat k)) in *. clearbody s'.
    destruct (instant_same sc _ _ _ NO I J) as [D T]. injection T as h m ss.
    exists (mkDT (mYear e) (mMonth e) (mDay e) (mHours e) (mMinutes e) (mSeconds e) (mDateOnly e) (mTZUTC s') (mTZID s') None false 0).
    apply instant_iff in I as (_ & Sc & _); [|exact NO]. apply instant_iff in J as (_ & Sc' & _); [|exact NO].
    apply instant_iff in Ie as (Ve & Se & ->); [|exact NO].
    destruct Sel as ((KD & KU & KT) & C & Sel). split.
    + split; [split; [|split; reflexivity]; cbn; rewrite KD; destruct sc; cbn in *; intuition congruence|].
      unfold clock_ok in *. cbn [mHours mMinutes mSeconds]. rewrite <- h, <- m, <- ss. split; [exact C|].
      unfold year_days. change (ymd (mkDT _ _ _ _ _ _ _ _ _ _ _ _)) with (ymd e). rewrite <- D.
      unfold step_months in SM. destruct (rFreq r); try discriminate SM; exact Sel.
    + apply instant_iff; [exact NO|]. split; [exact Ve|]. split; [|reflexivity]. destruct sc; cbn in *; intuition congruence.
  - pose proof (v_months p (Z.to_nat k) SM) as J. rewrite Z2Nat.id in J by exact Hk. exists e. split; [|exact Ie].
    revert Sel. apply selects_visible. destruct I as (A1 & A2 & A3 & A4 & A5 & A6 & A7 & A8 & A9). destruct J as (B1 & B2 & B3 & B4 & B5 & B6 & B7 & B8 & B9).
    unfold visible, ymd. rewrite A1, A2, A3, A4, A5, A6, A7, B1, B2, B3, B4, B5, B6, B7.
    replace (mYear (v (Z.to_nat k))) with (mYear s) by lia. replace (mMonth (v (Z.to_nat k))) with (mMonth s) by lia. reflexivity.
Qed.
Lemma of_interval k : interval_at sc r start a (Z.of_nat k) (v k).
Proof.
  unfold interval_at. destruct units_or_months as [(u & U & SM)|(p & SM)]; rewrite SM.
  - exists u. split; [exact U|apply v_units, U].
  - apply v_months, SM.
Qed.
Lemma all_intervals x : (exists k d, selects r (v k) d /\ instant sc d x) <->
  (exists k s e, 0 <= k /\ interval_at sc r start a k s /\ selects r s e /\ instant sc e x).
Proof.
  split.
  - intros (k & d & S & I). exists (Z.of_nat k), (v k), d. split; [lia|]. split; [apply of_interval|]. auto.
  - intros (k & s & e & Hk & I & S & Ie). destruct (interval_of k s e x Hk I S Ie) as (e' & S' & I'). eauto.
Qed.
End Starts.
