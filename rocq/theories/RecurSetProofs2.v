(** Proofs about the sets generated for each frequency. *)
From Coq Require Import Lia ZifyBool ZifyNat Sorting.Permutation Sorting.Sorted.
From Verif Require Import PyBase PyProofs CalModel CalSpec DateTimeModel DateTimeSpec CalProofs DateTimeProofs DateTimeProofs2
  DateTimeProofs3 RecurModel RecurSpec RecurExpand RecurSetSpec RecurSetProofs RecurSortProofs PropDateProofs.
Ltac Zify.zify_post_hook ::= Z.div_mod_to_equations.

Section WithTz.
Variable tzo : tzid -> Z -> Z -> Z -> Z -> Z -> Z -> bool -> bool -> Z.

Lemma finish_desc r s ds (D : date -> Prop) H M S : ~ given (rBySetPos r) -> pre_set r s = Ok ds ->
  describes ds (cset s D H M S) ->
  (forall dd, D dd -> 1 <= month_of dd <= 12 /\ 1752 < year_of dd) ->
  exists out, generate_set tzo r s = Ok out /\ in_order tzo out /\
    describes out (cset s (fun dd => D dd /\ valid_date greg_leap dd) H M S).
Proof.
  intros G E Dd I. rewrite plain_set by exact G. rewrite E. cbn [rbind].
  destruct (drop_stage s D H M S ds I Dd) as (o & -> & Do). cbn [rbind].
  destruct (sort_ok tzo o) as [out Eo].
  { intros d Hd. apply Do in Hd. destruct Hd as (_ & [Hd _] & _). apply I in Hd. apply Hd. }
  exists out. split; [exact Eo|]. split; [eapply sort_sorted; exact Eo|].
  eapply sort_desc; [apply cset_visible|exact Eo|exact Do].
Qed.

Ltac step L := let o := fresh "ds" in let E := fresh "E" in let D := fresh "D" in
  edestruct L as (o & E & D); cycle -1; [rewrite E; cbn [rbind]; clear E|..].

(** The clock parts that follow the date parts for DAILY and coarser frequencies. *)
Lemma clock_tail r s ds D : hours_free (rFreq r) = true -> describes ds (dset s D) ->
  exists o, (do ds <- part (rByHours r) byHourExpand ds; do ds <- part (rByMinutes r) byMinuteExpand ds;
             part (rBySeconds r) bySecondExpand ds) = Ok o /\
    describes o (fun e => same_kind s e /\ D (ymd e) /\ clock_ok r s e).
Proof.
  intros F H. assert (minutes_free (rFreq r) = true /\ seconds_free (rFreq r) = true) as [F2 F3]
    by (destruct (rFreq r); try discriminate F; split; reflexivity).
  destruct (hours_part s D (rByHours r) _ _ ds H) as (o1 & -> & H1). cbn [rbind].
  destruct (minutes_part s D (rByMinutes r) _ _ o1 H1) as (o2 & -> & H2). cbn [rbind].
  destruct (seconds_part s D (rBySeconds r) _ _ o2 H2) as (o3 & -> & H3).
  exists o3. split; [reflexivity|]. revert H3. apply describes_iff. intro e. unfold cset, clock_ok. rewrite F, F2, F3. reflexivity.
Qed.

Lemma fine_set r s : hours_free (rFreq r) = false \/ rFreq r = DAILY -> in_ranges r -> ~ given (rBySetPos r) ->
  valid_dt s -> 1901 <= mYear s <= 2100 ->
  exists out, generate_set tzo r s = Ok out /\ in_order tzo out /\
    describes out (fun e => same_kind s e /\ ymd e = ymd s /\ day_passes r (ymd s) /\ clock_ok r s e).
Proof.
  intros F R G V Y.
  assert (SS : set_start s) by (split; [apply valid_month, V|apply V]).
  assert (PP : forall dd, ymd s = dd -> proper dd).
  { intros dd <-. split; [apply valid_gh; [exact V|lia]|exact Y]. }
  assert (exists ds, pre_set r s = Ok ds /\
    describes ds (cset s (fun dd => (((ymd s = dd /\ listed (rByMonth r) (fun n => month_of dd = n)) /\
       listed (rByWeekNo r) (fun n => 0 < n /\ iso_week dd n)) /\ listed (rByMonthDay r) (is_month_day dd)) /\
       listed (rByDay r) (is_month_weekday dd))
     (clock_unit (rByHours r) (hours_free (rFreq r)) (mHours s)) (clock_unit (rByMinutes r) (minutes_free (rFreq r)) (mMinutes s))
     (clock_unit (rBySeconds r) (seconds_free (rFreq r)) (mSeconds s)))) as (ds & E & Dd).
  { assert (E0 : pre_set r s = pre_fine r s).
    { unfold pre_set. destruct (rFreq r); try reflexivity; destruct F as [F|F]; discriminate F. }
    rewrite E0. unfold pre_fine.
    destruct (month_limit s _ (rByMonth r) [s] (start_desc s)) as (o & -> & D1). cbn [rbind].
    destruct (week_limit s SS _ (rByWeekNo r) o D1 ltac:(intros dd [H _]; auto)) as (o1 & -> & D2). cbn [rbind].
    destruct (monthday_limit s SS _ (rByMonthDay r) o1 D2 ltac:(intros dd [[H _] _]; auto)) as (o2 & -> & D3). cbn [rbind].
    destruct (day_limit s SS _ (rByDay r) o2 D3 ltac:(intros dd [[[H _] _] _]; auto)
      ltac:(destruct R as (_ & _ & _ & _ & _ & R & _); destruct (rByDay r); [|exact I]; eapply Forall_impl; [|exact R]; intros a [_ Ha]; exact Ha)) as (o3 & -> & D4). cbn [rbind].
    destruct (hours_free (rFreq r)); [destruct (hours_part s _ (rByHours r) _ _ o3 D4) as (o4 & -> & D5)|
      destruct (hours_limit s _ (rByHours r) _ _ o3 D4) as (o4 & -> & D5)]; cbn [rbind];
    (destruct (minutes_free (rFreq r)); [destruct (minutes_part s _ (rByMinutes r) _ _ o4 D5) as (o5 & -> & D6)|
      destruct (minutes_limit s _ (rByMinutes r) _ _ o4 D5) as (o5 & -> & D6)]; cbn [rbind];
      (destruct (seconds_free (rFreq r)); [destruct (seconds_part s _ (rBySeconds r) _ _ o5 D6) as (o6 & -> & D7)|
       destruct (seconds_limit s _ (rBySeconds r) _ _ o5 D6) as (o6 & -> & D7)]; exists o6; exact (conj eq_refl D7))). }
  destruct (finish_desc r s ds _ _ _ _ G E Dd) as (out & Eo & Ho & Do).
  { intros dd H. assert (P : proper dd) by (apply PP; tauto). destruct P as [P1 P2]. destruct dd as [[y m] d].
    unfold month_of, year_of in *. cbn [fst snd] in *. split; [apply P1|lia]. }
  exists out. split; [exact Eo|]. split; [exact Ho|]. revert Do. apply describes_iff. intro e.
  unfold cset, clock_ok, day_passes. split.
  - intros (K & (((((E1 & H1) & H2) & H3) & H4) & H5) & C). rewrite <- E1 in *. tauto.
  - intros (K & E1 & (H1 & H2 & H3 & H4) & C). rewrite E1.
    pose proof (proj1 (PP _ eq_refl)). tauto.
Qed.

(** ** BYMONTHDAY and BYDAY within a month *)
Lemma expand_part {A} s D (l : option (list A)) f Q ds :
  describes ds (dset s D) ->
  (forall x v, dset s D x -> In v (items l) -> exists ys, f x v = Ok ys /\ describes ys (dset s (Q (ymd x) v))) ->
  exists o, part l (fun l => flat_mapr (fun x => flat_mapr (f x) l)) ds = Ok o /\
    describes o (dset s (fun dd => (given l /\ exists d0, D d0 /\ exists v, In v (items l) /\ Q d0 v dd) \/ (~ given l /\ D dd))).
Proof.
  intros H F. unfold part. destruct l as [[|v t]|]; cbn [has items given].
  2:{ destruct (expand_stage (fun x => flat_mapr (f x) (v :: t)) (fun d0 dd => exists w, In w (v :: t) /\ Q d0 w dd) s D ds H) as (o & E & Do).
      - intros x Hx. destruct (flat_mapr_desc (f x) (fun w => dset s (Q (ymd x) w)) (v :: t)) as (ys & E & Dy).
        + intros w Hw. apply F; assumption.
        + exists ys. split; [exact E|]. revert Dy. apply describes_iff. intro e. unfold dset, cset. split.
          * intros (w & Hw & K & HQ & C). split; [exact K|]. split; [exists w; auto|exact C].
          * intros (K & (w & Hw & HQ) & C). exists w. auto.
      - exists o. split; [exact E|]. revert Do. apply describes_iff. intro e. unfold dset, cset. tauto. }
  all: exists ds; split; [reflexivity|]; revert H; apply describes_iff; intro e; unfold dset, cset; tauto.
Qed.

Definition mday (y m n : Z) : Z := if 0 <? n then n else month_len greg_leap y m + 1 + n.
Lemma mday_iff dd n : n <> 0 -> is_month_day dd n <-> day_of dd = mday (year_of dd) (month_of dd) n.
Proof. intro H. unfold is_month_day, mday. destruct (Z.ltb_spec 0 n); lia. Qed.

Lemma flat_one {A B} (f : A -> res B) l : mapr f l = flat_mapr (fun x => do y <- f x; Ok [y]) l.
Proof.
  induction l as [|x t IH]; [reflexivity|]. cbn [mapr flat_mapr]. destruct (f x); [cbn [rbind]|reflexivity].
  rewrite IH. destruct (flat_mapr (fun x0 => do y <- f x0; Ok [y]) t); reflexivity.
Qed.
Lemma flat_ext {A B} (f g : A -> res (list B)) l : (forall x, f x = g x) -> flat_mapr f l = flat_mapr g l.
Proof. intro H. induction l as [|x t IH]; [reflexivity|]. cbn [flat_mapr]. rewrite H, IH. reflexivity. Qed.
Lemma part_ext {A} (l : option (list A)) f g ds : (forall l, f l ds = g l ds) -> part l f ds = part l g ds.
Proof. intro H. unfold part. destruct (has l); auto. Qed.

(** A value on a given day of the month of [x], all the rest being that of [x]. *)
Lemma move_desc s D x y m k : dset s D x -> 
  describes [changed (with_ymd x y m k)] (dset s (eq (y, m, k))).
Proof.
  intro H. apply one_desc; [|intros dd <-; reflexivity].
  destruct H as (K & _ & C). split; [exact K|]. split; [reflexivity|exact C].
Qed.

Definition ranged (dd : date) : Prop := 1 <= month_of dd <= 12 /\ 1901 <= year_of dd <= 2100.

Lemma monthday_part s D l ds : describes ds (dset s D) -> (forall dd, D dd -> ranged dd) -> all_in (fun n => 1 <= Z.abs n <= 31) l ->
  exists o, part l byMonthDayExpand ds = Ok o /\
    describes o (dset s (fun dd => (given l /\ exists d0, D d0 /\ exists n, In n (items l) /\ 
       (year_of d0, month_of d0, mday (year_of d0) (month_of d0) n) = dd) \/ (~ given l /\ D dd))).
Proof.
  intros H I R.
  destruct (expand_part s D l (fun d n => do t <- setMonthDay d n true; Ok [t])
    (fun d0 n => eq (year_of d0, month_of d0, mday (year_of d0) (month_of d0) n)) ds H) as (o & E & Do).
  - intros x n Hx Hn. assert (1 <= Z.abs n <= 31) as Rn.
    { destruct l as [l|]; [|destruct Hn]. apply (proj1 (Forall_forall _ _) R), Hn. }
    destruct (I _ (proj1 (proj2 Hx))) as [Hm Hy]. unfold month_of, year_of, ymd in Hm, Hy. cbn [fst snd] in Hm, Hy.
    unfold setMonthDay. rewrite daysInMonth_r_ok by exact Hm. cbn [rbind negb]. unfold mday.
    rewrite month_len_greg by lia. unfold month_of, year_of, ymd. cbn [fst snd].
    destruct (Z.ltb_spec 0 n); [|destruct (Z.ltb_spec n 0); [|lia]]; cbn [rbind]; eexists; (split; [reflexivity|]).
    + replace (1 + (n - 1)) with n by lia. apply (move_desc s D x), Hx.
    + replace (month_len greg_leap (mYear x) (mMonth x) + (n + 1)) with (month_len greg_leap (mYear x) (mMonth x) + 1 + n) by lia.
      apply (move_desc s D x), Hx.
  - exists o. split; [|exact Do]. rewrite <- E. apply part_ext. intro l0. unfold byMonthDayExpand.
    apply flat_ext. intro x. apply flat_one.
Qed.

(** The days that setDayOfWeekInMonth picks, whether they exist or not. *)
Definition raw_wd (y m k : Z) (nw : Z * Z) : Prop :=
  snd nw = (4 + (hdn y m k - hdn 1970 1 1)) mod 7 /\
  (0 < fst nw -> 7 * (fst nw - 1) < k <= 7 * fst nw) /\
  (fst nw < 0 -> 7 * (- fst nw - 1) <= month_len hist_leap y m - k < 7 * - fst nw).

Lemma raw_iff y m k nw : valid_date greg_leap (y, m, k) -> 1901 <= y <= 2100 ->
  (raw_wd y m k nw <-> is_month_weekday (y, m, k) nw).
Proof.
  intros V Y. unfold raw_wd, is_month_weekday, year_of, month_of. cbn [fst snd]. destruct nw as [n w]. cbn [fst snd].
  assert (1 <= m <= 12) as Hm by apply V.
  rewrite is_weekday_gdn by exact V. rewrite !gdn_hdn by lia.
  assert (A : 0 < n -> nth_wd_from (y, m, 1) w n (y, m, k) <-> 7 * (n - 1) < k <= 7 * n /\ w = (4 + (hdn y m k - hdn 1970 1 1)) mod 7).
  { intro Hn. rewrite nth_from_iff by (auto using valid_first). rewrite !gdn_hdn by lia. unfold hdn, dn. lia. }
  assert (B : n < 0 -> nth_wd_back (y, m, month_len greg_leap y m) w (- n) (y, m, k) <->
     7 * (- n - 1) <= month_len hist_leap y m - k < 7 * - n /\ w = (4 + (hdn y m k - hdn 1970 1 1)) mod 7).
  { intro Hn. rewrite nth_back_iff by (auto using valid_last). rewrite !gdn_hdn by lia. rewrite <- month_len_greg by lia. unfold hdn, dn. lia. }
  tauto.
Qed.

Lemma first_ok s D x : set_start s -> dset s D x -> ranged (ymd x) -> valid_dt (with_ymd x (mYear x) (mMonth x) 1).
Proof.
  intros SS Hx [Hm Hy]. change (month_of (ymd x)) with (mMonth x) in Hm. change (year_of (ymd x)) with (mYear x) in Hy.
  apply (dset_valid s SS (fun _ => True)).
  - destruct Hx as (K & _ & C). split; [exact K|]. split; [exact I|exact C].
  - apply (valid_first greg_leap (mYear x) (mMonth x) Hm).
  - cbn. lia.
Qed.

Lemma dowim_true s D x n w : set_start s -> dset s D x -> ranged (ymd x) -> 0 <= w <= 6 -> n <> 0 ->
  exists k, setDayOfWeekInMonth x n w true = Ok (changed (with_ymd x (mYear x) (mMonth x) k)) /\
    raw_wd (mYear x) (mMonth x) k (n, w).
Proof.
  intros SS Hx Hr Hw Hn. pose proof (first_ok s D x SS Hx Hr) as V. destruct Hr as [Hm Hy].
  change (year_of (ymd x)) with (mYear x) in Hy.
  destruct (dowim_day _ n w true V Hy Hw Hn) as (k & r & E & _ & R & W & P & N).
  exists k. split.
  - rewrite (R eq_refl) in E. exact E.
  - split; [exact W|]. split; [exact P|exact N].
Qed.

Lemma raw_unique y m k k' nw : fst nw <> 0 -> raw_wd y m k nw -> raw_wd y m k' nw -> k = k'.
Proof. intros H (W & A & B) (W' & A' & B'). unfold hdn, dn in *. lia. Qed.

Definition weekdays_in (d0 : date) (nw : Z * Z) (dd : date) : Prop :=
  year_of dd = year_of d0 /\ month_of dd = month_of d0 /\ raw_wd (year_of dd) (month_of dd) (day_of dd) nw /\
  (fst nw = 0 -> 1 <= day_of dd <= 42).

Lemma byday_monthly s D l ds : set_start s -> describes ds (dset s D) -> (forall dd, D dd -> ranged dd) -> all_in (fun nw => 0 <= snd nw <= 6) l ->
  exists o, part l byDayExpandMonthly ds = Ok o /\
    describes o (dset s (fun dd => (given l /\ exists d0, D d0 /\ exists nw, In nw (items l) /\ weekdays_in d0 nw dd) \/ (~ given l /\ D dd))).
Proof.
  intros SS H I R. apply (expand_part s D l (fun d nw => if negb (fst nw =? 0) then do t <- setDayOfWeekInMonth d (fst nw) (snd nw) true; Ok [t]
    else flat_mapr (fun i => do t <- setDayOfWeekInMonth d i (snd nw) true; Ok (if mMonth t =? mMonth d then [t] else [])) (ints1 6)) weekdays_in ds H).
  intros x nw Hx Hn. assert (0 <= snd nw <= 6) as Rw.
  { destruct l as [l|]; [|destruct Hn]. apply (proj1 (Forall_forall _ _) R), Hn. }
  pose proof (I _ (proj1 (proj2 Hx))) as Hr. clear Hn.
  destruct (Z.eqb_spec (fst nw) 0) as [Z0|Z0]; cbn [negb].
  - destruct (flat_mapr_desc (fun i => do t <- setDayOfWeekInMonth x i (snd nw) true; Ok (if mMonth t =? mMonth x then [t] else []))
      (fun i => dset s (weekdays_in (ymd x) (i, snd nw))) (ints1 6)) as (ys & E & Dy).
    + intros i Hi. apply in_map_iff in Hi as (j & <- & Hj). apply in_seq in Hj.
      destruct (dowim_true s D x (Z.of_nat j) (snd nw) SS Hx Hr Rw ltac:(lia)) as (k & E & W).
      rewrite E. cbn [rbind]. change (mMonth (changed (with_ymd x (mYear x) (mMonth x) k))) with (mMonth x). rewrite Z.eqb_refl.
      eexists. split; [reflexivity|]. apply one_desc.
      * destruct Hx as (K & _ & C). split; [exact K|]. split; [|exact C]. split; [reflexivity|]. split; [reflexivity|].
        split; [exact W|]. cbn [fst]. lia.
      * intros [[y m] d] (E1 & E2 & W' & _). unfold year_of, month_of, day_of, ymd in *. cbn in *. subst y m. do 2 f_equal.
        eapply raw_unique; [|exact W'|exact W]. cbn. lia.
    + exists ys. split; [exact E|]. revert Dy. apply describes_iff. intro e. unfold dset, cset. split.
      * intros (i & Hi & K & (E1 & E2 & (W1 & W2 & W3) & _) & C). split; [exact K|]. split; [|exact C].
        split; [exact E1|]. split; [exact E2|]. apply in_map_iff in Hi as (j & <- & Hj). apply in_seq in Hj. cbn [fst snd] in *.
        split; [split; [exact W1|lia]|lia].
      * intros (K & (E1 & E2 & (W1 & _) & B) & C). specialize (B Z0). set (j := Z.to_nat ((day_of (ymd e) - 1) / 7 + 1)).
        exists (Z.of_nat j). split; [apply in_map, in_seq; lia|]. split; [exact K|]. split; [|exact C].
        split; [exact E1|]. split; [exact E2|]. cbn [fst]. split; [|lia]. split; [exact W1|]. cbn [fst]. lia.
  - destruct (dowim_true s D x (fst nw) (snd nw) SS Hx Hr Rw Z0) as (k & E & W). rewrite E. cbn [rbind].
    eexists. split; [reflexivity|]. apply one_desc.
    * destruct Hx as (K & _ & C). split; [exact K|]. split; [|exact C]. split; [reflexivity|]. split; [reflexivity|].
      split; [|tauto]. destruct nw. exact W.
    * intros [[y m] d] (E1 & E2 & W' & _). unfold year_of, month_of, day_of, ymd in *. cbn in *. subst y m. do 2 f_equal.
      eapply raw_unique; [|exact W'|]; [exact Z0|]. destruct nw; exact W.
Qed.

Lemma norm_ymd_vis a b : visible a = visible b -> ymd (normalise a) = ymd (normalise b).
Proof.
  intro V. apply visible_split in V as (E1 & E2 & E3 & E4 & E5 & _). unfold ymd in E1. injection E1 as Ey Em Ed.
  unfold normalise. rewrite Ey, Em, Ed, E2, E3, E4, E5.
  destruct (mDateOnly b); destruct (norm_days _ _ _) as [[y m] d]; reflexivity.
Qed.
Lemma dowim_vis x y n w : visible x = visible y -> isDayOfWeekInMonth x n w = isDayOfWeekInMonth y n w.
Proof.
  intro V. assert (V0 := V). apply visible_split in V as (E1 & E2 & E3 & E4 & E5 & E6 & E7). unfold ymd in E1. injection E1 as Ey Em Ed.
  assert (G : forall a b c, getDayOfWeek (with_ymd x a b c) = getDayOfWeek (with_ymd y a b c)) by reflexivity.
  assert (G0 : getDayOfWeek x = getDayOfWeek y).
  { unfold getDayOfWeek, daysSince1970. rewrite Ey, Em, Ed. reflexivity. }
  unfold isDayOfWeekInMonth, setDayOfWeekInMonth. rewrite G0, Ey, Em, G.
  destruct (getDayOfWeek y) as [w0|]; [cbn [rbind]|reflexivity].
  destruct (negb (w0 =? w)); [reflexivity|]. destruct (n =? 0); [reflexivity|].
  destruct (getDayOfWeek (with_ymd y (mYear y) (mMonth y) 1)) as [w1|]; [cbn [rbind]|reflexivity].
  match goal with |- (do t <- (do dd <- ?a; _); _) = _ => destruct a as [dd|] end; [cbn [rbind negb]|reflexivity].
  f_equal. unfold compareDate. rewrite Ey, Em, Ed.
  assert (N : ymd (normalise (with_ymd (with_ymd x (mYear y) (mMonth y) 1) (mYear y) (mMonth y) dd)) =
              ymd (normalise (with_ymd (with_ymd y (mYear y) (mMonth y) 1) (mYear y) (mMonth y) dd))).
  { apply norm_ymd_vis. unfold visible, with_ymd, ymd. cbn [mYear mMonth mDay mHours mMinutes mSeconds mDateOnly mTZUTC mTZID].
    rewrite E2, E3, E4, E5, E6, E7. reflexivity. }
  unfold ymd in N. injection N as N1 N2 N3. rewrite N1, N2, N3. reflexivity.
Qed.
Lemma dowim_total x n w : 1 <= mMonth x <= 12 -> exists b, isDayOfWeekInMonth x n w = Ok b.
Proof.
  intro Hm. unfold isDayOfWeekInMonth. rewrite getDayOfWeek_ok by exact Hm. cbn [rbind].
  destruct (negb _); [eauto|]. destruct (n =? 0); [eauto|]. unfold setDayOfWeekInMonth.
  rewrite getDayOfWeek_ok by exact Hm. rewrite daysInMonth_r_ok by exact Hm. cbn [rbind negb].
  destruct (0 <? n); [cbn [rbind]; eauto|]. destruct (n <? 0); cbn [rbind]; eauto.
Qed.

Definition passes_day (s : dt) (dd : date) (nw : Z * Z) : Prop :=
  isDayOfWeekInMonth (rebuild s dd) (fst nw) (snd nw) = Ok true.
Lemma day_limit_any s D l ds : describes ds (dset s D) -> (forall dd, D dd -> ranged dd) ->
  exists o, part l byDayLimit ds = Ok o /\ describes o (dset s (fun dd => D dd /\ listed l (passes_day s dd))).
Proof.
  intros H I. apply (listed_limit s (fun d nw => isDayOfWeekInMonth d (fst nw) (snd nw)) (passes_day s) D l ds H).
  intros x v Hx _. destruct (I _ (proj1 (proj2 Hx))) as [Hm _].
  destruct (dowim_total x (fst v) (snd v) Hm) as [b E]. exists b. split; [exact E|].
  unfold passes_day. rewrite <- (dowim_vis x) by (apply (dset_visible s D), Hx). rewrite E. split; [congruence|intro K; injection K; auto].
Qed.
Lemma passes_iff s dd nw : set_start s -> valid_date greg_leap dd -> ranged dd -> 0 <= snd nw <= 6 ->
  passes_day s dd nw <-> is_month_weekday dd nw.
Proof.
  intros SS V [Hm Hy] Hw. unfold passes_day.
  destruct (isDayOfWeekInMonth_spec (rebuild s dd) (fst nw) (snd nw)) as (b & E & B).
  - apply (dset_valid s SS (eq dd)); [apply rebuild_dset; reflexivity|rewrite ymd_rebuild; exact V|cbn; lia].
  - cbn. lia.
  - exact Hw.
  - rewrite E. rewrite ymd_rebuild in B. unfold is_month_weekday. cbn [rebuild mYear mMonth] in B. rewrite <- B.
    split; [intro K; injection K; auto|intros ->; reflexivity].
Qed.

Lemma listed_iff {A} (l : option (list A)) P Q : (forall v, In v (items l) -> (P v <-> Q v)) -> listed l P <-> listed l Q.
Proof.
  destruct l as [[|x t]|]; cbn [listed items]; try tauto. intro H. split; intros (v & Hv & K); exists v; (split; [exact Hv|apply H; assumption]).
Qed.
Lemma listed_given {A} (l : option (list A)) P : given l -> listed l P <-> exists v, In v (items l) /\ P v.
Proof. destruct l as [[|x t]|]; cbn; tauto. Qed.
Lemma listed_absent {A} (l : option (list A)) P : ~ given l -> listed l P <-> True.
Proof. destruct l as [[|x t]|]; cbn; tauto. Qed.

Lemma date_eta (dd : date) : dd = (year_of dd, month_of dd, day_of dd).
Proof. destruct dd as [[y m] d]. reflexivity. Qed.

(** BYMONTHDAY, then BYDAY as a limit or an expansion. *)
Lemma month_parts r s D ds : set_start s -> in_ranges r -> describes ds (dset s D) -> (forall dd, D dd -> ranged dd) ->
  exists o D', (do ds <- part (rByMonthDay r) byMonthDayExpand ds;
             part (rByDay r) (if has (rByMonthDay r) then byDayLimit else byDayExpandMonthly) ds) = Ok o /\
    describes o (dset s D') /\ (forall dd, D' dd -> ranged dd) /\
    (forall dd, valid_date greg_leap dd -> (D' dd <-> exists d0, D d0 /\ month_days r (year_of d0) (month_of d0) (day_of d0) dd)).
Proof.
  intros SS R H I.
  assert (R1 : all_in (fun n => 1 <= Z.abs n <= 31) (rByMonthDay r)) by apply R.
  assert (R2 : all_in (fun nw => 0 <= snd nw <= 6) (rByDay r)).
  { destruct R as (_ & _ & _ & _ & _ & R & _). destruct (rByDay r); [|exact Logic.I]. eapply Forall_impl; [|exact R]. intros a [_ Ha]. exact Ha. }
  destruct (monthday_part s D (rByMonthDay r) ds H I R1) as (o & -> & D1). cbn [rbind].
  set (Da := fun dd => _ \/ _) in D1.
  assert (Ia : forall dd, Da dd -> ranged dd).
  { intros dd [(_ & d0 & H0 & n & _ & <-)|[_ K]]; [|auto]. apply I in H0. exact H0. }
  assert (Ea : forall dd, valid_date greg_leap dd -> (Da dd <-> exists d0, D d0 /\ year_of dd = year_of d0 /\ month_of dd = month_of d0 /\
     listed (rByMonthDay r) (is_month_day dd) /\ (~ given (rByMonthDay r) -> dd = d0))).
  { intros dd V. unfold Da. split.
    - intros [(G & d0 & H0 & n & Hn & <-)|[G K]].
      + exists d0. split; [exact H0|]. split; [reflexivity|]. split; [reflexivity|]. split; [|tauto].
        apply listed_given; [exact G|]. exists n. split; [exact Hn|]. apply mday_iff; [|reflexivity].
        destruct (rByMonthDay r) as [l|]; [|destruct Hn]. pose proof (proj1 (Forall_forall _ _) R1 n Hn) as Q. cbn beta in Q. lia.
      + exists dd. rewrite (listed_absent _ _ G). tauto.
    - intros (d0 & H0 & E1 & E2 & L & N). destruct (has (rByMonthDay r)) eqn:Hh.
      + apply has_given in Hh. left. split; [exact Hh|]. exists d0. split; [exact H0|].
        apply listed_given in L; [|exact Hh]. destruct L as (n & Hn & Md). exists n. split; [exact Hn|].
        apply mday_iff in Md.
        * rewrite <- E1, <- E2, <- Md. symmetry. apply date_eta.
        * destruct (rByMonthDay r) as [l|]; [|destruct Hn]. pose proof (proj1 (Forall_forall _ _) R1 n Hn) as Q. cbn beta in Q. lia.
      + apply has_not_given in Hh. right. split; [exact Hh|]. rewrite (N Hh). exact H0. }
  destruct (has (rByMonthDay r)) eqn:Hh.
  - apply has_given in Hh. destruct (day_limit_any s Da (rByDay r) o D1 Ia) as (o2 & -> & D2).
    exists o2. eexists. split; [reflexivity|]. split; [exact D2|]. split; [intros dd [K _]; auto|].
    intros dd V. split.
    + intros [K L]. pose proof (Ia _ K) as Rd. apply Ea in K; [|exact V]. destruct K as (d0 & H0 & E1 & E2 & Md & _).
      exists d0. split; [exact H0|]. split; [exact V|]. split; [exact E1|]. split; [exact E2|]. split; [exact Md|].
      split; [|tauto]. revert L. apply listed_iff. intros v Hv. symmetry. apply passes_iff; auto.
      destruct (rByDay r) as [l|]; [|destruct Hv]. apply (proj1 (Forall_forall _ _) R2), Hv.
    + intros (d0 & H0 & _ & E1 & E2 & Md & L & _).
      assert (Rd : ranged dd) by (destruct (I _ H0) as [Q1 Q2]; split; [rewrite E2; exact Q1|rewrite E1; exact Q2]).
      split; [apply Ea; [exact V|]; exists d0; tauto|].
      revert L. apply listed_iff. intros v Hv. apply passes_iff; auto.
      destruct (rByDay r) as [l|]; [|destruct Hv]. apply (proj1 (Forall_forall _ _) R2), Hv.
  - apply has_not_given in Hh. destruct (byday_monthly s Da (rByDay r) o SS D1 Ia R2) as (o2 & -> & D2).
    exists o2. eexists. split; [reflexivity|]. split; [exact D2|]. split.
    + intros dd [(_ & d0 & H0 & nw & _ & E1 & E2 & _)|[_ K]]; [|auto]. apply Ia in H0. destruct H0 as [Q1 Q2]. split; congruence.
    + intros dd V. assert (Ed : forall d0, Da d0 <-> D d0) by (intro d0; unfold Da; tauto). split.
      * intros [(G & d0 & H0 & nw & Hn & E1 & E2 & W & _)|[G K]].
        -- apply Ed in H0. exists d0. split; [exact H0|]. split; [exact V|]. split; [exact E1|]. split; [exact E2|].
           split; [apply listed_absent; auto|]. split; [|tauto]. apply listed_given; [exact G|]. exists nw. split; [exact Hn|].
           rewrite (date_eta dd). apply raw_iff; [rewrite <- date_eta; exact V|destruct (I _ H0); lia|exact W].
        -- apply Ed in K. exists dd. split; [exact K|]. split; [exact V|]. split; [reflexivity|]. split; [reflexivity|].
           split; [apply listed_absent; auto|]. split; [apply listed_absent; auto|]. auto.
      * intros (d0 & H0 & _ & E1 & E2 & _ & L & N). destruct (has (rByDay r)) eqn:Hd.
        -- apply has_given in Hd. left. split; [exact Hd|]. exists d0. split; [apply Ed, H0|]. apply listed_given in L; [|exact Hd].
           destruct L as (nw & Hn & W). exists nw. split; [exact Hn|]. split; [exact E1|]. split; [exact E2|].
           pose proof V as V'. rewrite (date_eta dd) in V', W. split.
           ++ apply raw_iff; [exact V'|destruct (I _ H0); lia|exact W].
           ++ destruct V' as [Q1 Q2]. pose proof (month_len_bounds greg_leap (year_of dd) (month_of dd)). intros _. lia.
        -- apply has_not_given in Hd. right. split; [exact Hd|]. apply Ed.
           assert (dd = d0) as ->; [|exact H0]. rewrite (date_eta dd), (date_eta d0), E1, E2. f_equal. auto.
Qed.

Lemma monthly_set r s : rFreq r = MONTHLY -> in_ranges r -> ~ given (rBySetPos r) -> ~ given (rByYearDay r) ->
  set_start s -> 1901 <= mYear s <= 2100 ->
  exists out, generate_set tzo r s = Ok out /\ in_order tzo out /\
    describes out (fun e => same_kind s e /\ clock_ok r s e /\
      listed (rByMonth r) (fun n => mMonth s = n) /\ month_days r (mYear s) (mMonth s) (mDay s) (ymd e)).
Proof.
  intros F R G GY SS Y.
  destruct (month_limit s _ (rByMonth r) [s] (start_desc s)) as (o & Eo & D1).
  destruct (month_parts r s _ o SS R D1) as (o2 & D2 & E2 & H2 & I2 & S2).
  { intros dd [<- _]. split; [apply SS|exact Y]. }
  destruct (clock_tail r s o2 D2) as (o3 & E3 & H3); [rewrite F; reflexivity|exact H2|].
  assert (E : pre_set r s = Ok o3).
  { unfold pre_set. rewrite F. unfold pre_monthly. apply has_not_given in GY. rewrite GY, Eo. cbn [rbind orb].
    rewrite <- bind_assoc. rewrite E2. cbn [rbind]. exact E3. }
  destruct (finish_desc r s o3 D2 (clock_unit (rByHours r) (hours_free (rFreq r)) (mHours s))
    (clock_unit (rByMinutes r) (minutes_free (rFreq r)) (mMinutes s)) (clock_unit (rBySeconds r) (seconds_free (rFreq r)) (mSeconds s)) G E)
    as (out & Eo' & Ho & Do).
  - exact H3.
  - intros dd K. destruct (I2 dd K). lia.
  - exists out. split; [exact Eo'|]. split; [exact Ho|]. revert Do. apply describes_iff. intro e.
    unfold cset, clock_ok. split.
    + intros (K & [D' V] & C). split; [exact K|]. split; [exact C|]. apply S2 in D'; [|exact V].
      destruct D' as (d0 & [<- L] & M). split; [exact L|exact M].
    + intros (K & C & L & M). split; [exact K|]. split; [|exact C]. split; [|apply M].
      apply S2; [apply M|]. exists (ymd s). split; [split; [reflexivity|exact L]|exact M].
Qed.

(** YEARLY with BYMONTH or BYMONTHDAY. *)
Lemma yearly_month_set r s : rFreq r = YEARLY -> in_ranges r -> ~ given (rBySetPos r) -> ~ given (rByYearDay r) -> ~ given (rByWeekNo r) ->
  given (rByMonth r) \/ given (rByMonthDay r) \/ ~ given (rByDay r) -> set_start s -> 1901 <= mYear s <= 2100 ->
  exists out, generate_set tzo r s = Ok out /\ in_order tzo out /\
    describes out (fun e => same_kind s e /\ clock_ok r s e /\
      exists m, (given (rByMonth r) -> In m (items (rByMonth r))) /\ (~ given (rByMonth r) -> m = mMonth s) /\
        month_days r (mYear s) m (mDay s) (ymd e)).
Proof.
  intros F R G GY GW GM SS Y.
  assert (exists o, part (rByMonth r) byMonthExpand [s] = Ok o /\ describes o (dset s (fun dd =>
    year_of dd = mYear s /\ day_of dd = mDay s /\ (given (rByMonth r) -> In (month_of dd) (items (rByMonth r))) /\ (~ given (rByMonth r) -> month_of dd = mMonth s))))
    as (o & Eo & D1).
  { destruct (expand_part s (eq (ymd s)) (rByMonth r) (fun d n => Ok [setMonth d n]) (fun d0 n => eq (year_of d0, n, day_of d0)) [s] (start_desc s)) as (o & E & Do).
    - intros x v Hx _. eexists. split; [reflexivity|]. destruct Hx as (K & E0 & C).
      apply one_desc; [|intros dd <-; pose proof (setMonth_visible x v) as V; apply visible_split in V as (V & _); rewrite V; reflexivity].
      eapply cset_visible; [apply setMonth_visible|]. split; [exact K|]. split; [reflexivity|exact C].
    - exists o. split.
      + rewrite <- E. apply part_ext. intro l. unfold byMonthExpand. apply flat_ext. intro x.
        clear. induction l as [|n t IH]; [reflexivity|]. cbn [flat_mapr map rbind]. rewrite <- IH. reflexivity.
      + revert Do. apply describes_iff. intro e. unfold dset, cset.
        match goal with |- _ /\ ?a /\ _ <-> _ /\ ?b /\ _ => enough (a <-> b) by tauto end. split.
        * intros [(Gm & d0 & <- & v & Hv & <-)|[Gm <-]]; (split; [reflexivity|]); (split; [reflexivity|]); (split; [|]);
            solve [tauto|intros _; exact Hv|intros _; reflexivity].
        * intros (E1 & E2 & E3 & E4). destruct (has (rByMonth r)) eqn:Hh.
          -- apply has_given in Hh. left. split; [exact Hh|]. exists (ymd s). split; [reflexivity|]. exists (month_of (ymd e)).
             split; [auto|]. rewrite (date_eta (ymd e)), E1, E2. reflexivity.
          -- apply has_not_given in Hh. right. split; [exact Hh|]. rewrite (date_eta (ymd e)), E1, E2, (E4 Hh). reflexivity. }
  assert (RM : forall m, In m (items (rByMonth r)) -> 1 <= m <= 12).
  { intros m Hm. assert (R1 : all_in (fun n => 1 <= n <= 12) (rByMonth r)) by apply R.
    destruct (rByMonth r); [|destruct Hm]. apply (proj1 (Forall_forall _ _) R1), Hm. }
  destruct (month_parts r s _ o SS R D1) as (o2 & D2 & E2 & H2 & I2 & S2).
  { intros dd (E1 & _ & E3 & E4). split; [|rewrite E1; exact Y]. destruct (has (rByMonth r)) eqn:Hh.
    - apply has_given in Hh. auto.
    - apply has_not_given in Hh. rewrite E4 by exact Hh. apply SS. }
  destruct (clock_tail r s o2 D2) as (o3 & E3 & H3); [rewrite F; reflexivity|exact H2|].
  assert (E : pre_set r s = Ok o3).
  { unfold pre_set. rewrite F. unfold pre_yearly. rewrite Eo. cbn [rbind].
    pose proof GY as GY'. pose proof GW as GW'. apply has_not_given in GY', GW'. unfold part at 1 2. rewrite GY', GW'. cbn [rbind orb].
    rewrite <- bind_assoc.
    match goal with |- context [do ds <- part (rByMonthDay r) byMonthDayExpand o; part (rByDay r) ?f ds] =>
      assert (Ef : part (rByDay r) f = part (rByDay r) (if has (rByMonthDay r) then byDayLimit else byDayExpandMonthly)) end.
    { destruct GM as [GM|[GM|GM]].
      - apply has_given in GM. rewrite GM. reflexivity.
      - apply has_given in GM. rewrite GM. reflexivity.
      - apply has_not_given in GM. unfold part. rewrite GM. reflexivity. }
    rewrite Ef, E2. cbn [rbind]. exact E3. }
  destruct (finish_desc r s o3 D2 (clock_unit (rByHours r) (hours_free (rFreq r)) (mHours s))
    (clock_unit (rByMinutes r) (minutes_free (rFreq r)) (mMinutes s)) (clock_unit (rBySeconds r) (seconds_free (rFreq r)) (mSeconds s)) G E)
    as (out & Eo' & Ho & Do).
  - exact H3.
  - intros dd K. destruct (I2 dd K). lia.
  - exists out. split; [exact Eo'|]. split; [exact Ho|]. revert Do. apply describes_iff. intro e.
    unfold cset, clock_ok. split.
    + intros (K & [D' V] & C). split; [exact K|]. split; [exact C|]. apply S2 in D'; [|exact V].
      destruct D' as (d0 & (E1 & E4 & L1 & L2) & M). exists (month_of d0). rewrite E1, E4 in M. auto.
    + intros (K & C & m & L1 & L2 & M). split; [exact K|]. split; [|exact C]. split; [|apply M].
      apply S2; [apply M|]. exists (mYear s, m, mDay s). split; [|exact M]. split; [reflexivity|]. split; [reflexivity|]. auto.
Qed.
End WithTz.
