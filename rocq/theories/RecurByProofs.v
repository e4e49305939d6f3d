(** Proofs about the functions for single BY parts. *)
From Coq Require Import Lia ZifyBool ZifyNat Sorting.Permutation.
From Verif Require Import PyBase PyProofs CalModel CalSpec DateTimeModel DateTimeSpec CalProofs DateTimeProofs DateTimeProofs2
  DateTimeProofs3 RecurModel RecurSpec RecurExpand RecurSetSpec PropDateProofs RecurSetProofs RecurSortProofs RecurSetProofs2.
Ltac Zify.zify_post_hook ::= Z.div_mod_to_equations.

Definition in_years (d : dt) : Prop := valid_dt d /\ 1901 <= mYear d <= 2100.

Lemma keeps_any {A} f (P : dt -> A -> Prop) l ds :
  (forall d v, In d ds -> In v l -> exists b, f d v = Ok b /\ (b = true <-> P d v)) ->
  keeps (fun l ds => keepr (fun d => anyr (f d) l) ds) P l ds.
Proof.
  intro H. apply (keepr_spec (fun d => anyr (f d) l) (fun d => exists v, In v l /\ P d v)).
  intros d Hd. apply anyr_spec. intros v Hv. apply H; assumption.
Qed.
Lemma month_keeps l ds : keeps byMonthLimit (fun d n => mMonth d = n) l ds.
Proof. apply (keeps_any (fun d n => Ok (mMonth d =? n))). intros. eexists. split; [reflexivity|]. apply Z.eqb_eq. Qed.
Lemma hour_keeps l ds : keeps byHourLimit (fun d n => mHours d = n) l ds.
Proof. apply (keeps_any (fun d n => Ok (mHours d =? n))). intros. eexists. split; [reflexivity|]. apply Z.eqb_eq. Qed.
Lemma minute_keeps l ds : keeps byMinuteLimit (fun d n => mMinutes d = n) l ds.
Proof. apply (keeps_any (fun d n => Ok (mMinutes d =? n))). intros. eexists. split; [reflexivity|]. apply Z.eqb_eq. Qed.
Lemma second_keeps l ds : keeps bySecondLimit (fun d n => mSeconds d = n) l ds.
Proof. apply (keeps_any (fun d n => Ok (mSeconds d =? n))). intros. eexists. split; [reflexivity|]. apply Z.eqb_eq. Qed.
Lemma week_keeps l ds : Forall in_years ds -> keeps byWeekNoLimit (fun d n => 0 < n /\ iso_week (ymd d) n) l ds.
Proof.
  intro F. apply (keeps_any isWeekNo). intros d n Hd _. rewrite Forall_forall in F. destruct (F d Hd) as [V Y].
  apply isWeekNo_iff; assumption.
Qed.
Lemma monthday_keeps l ds : Forall (fun d => valid_dt d /\ 1752 < mYear d) ds -> keeps byMonthDayLimit (fun d n => is_month_day (ymd d) n) l ds.
Proof.
  intro F. apply (keeps_any isMonthDay). intros d n Hd _. rewrite Forall_forall in F. destruct (F d Hd) as [V Y].
  destruct (isMonthDay_spec d n V) as (b & E & B). exists b. split; [exact E|]. rewrite B, month_len_greg by lia. reflexivity.
Qed.
Lemma day_keeps l ds : Forall in_years ds -> Forall (fun nw => 0 <= snd nw <= 6) l -> keeps byDayLimit (fun d nw => is_month_weekday (ymd d) nw) l ds.
Proof.
  intros F R. apply (keeps_any (fun d nw => isDayOfWeekInMonth d (fst nw) (snd nw))). intros d n Hd Hn.
  rewrite Forall_forall in F, R. destruct (F d Hd) as [V Y]. apply isDayOfWeekInMonth_spec; auto.
Qed.

Lemma yields_map {A} (g : dt -> A -> dt) (Q : dt -> A -> dt -> Prop) l ds : (forall d v, In d ds -> In v l -> Q d v (g d v)) ->
  yields (fun l ds => flat_mapr (fun d => Ok (map (g d) l)) ds) Q l ds.
Proof.
  intro H. induction ds as [|d t IH].
  - exists []. split; [reflexivity|constructor].
  - destruct IH as (parts & E & F); [intros; apply H; [right|]; assumption|].
    exists (map (g d) l :: parts). cbn [flat_mapr rbind]. rewrite E. split; [reflexivity|]. constructor; [|exact F].
    assert (G : forall v, In v l -> Q d v (g d v)) by (intros; apply H; [left; reflexivity|assumption]). clear - G.
    induction l; [constructor|]. cbn. constructor; [apply G; left; reflexivity|apply IHl; intros; apply G; right; assumption].
Qed.
Lemma mapr_all {A B} (f : A -> res B) (Q : A -> B -> Prop) l : (forall v, In v l -> exists e, f v = Ok e /\ Q v e) ->
  exists o, mapr f l = Ok o /\ Forall2 Q l o.
Proof.
  induction l as [|v t IH]; intro H; [exists []; split; [reflexivity|constructor]|].
  destruct (H v (or_introl eq_refl)) as (e & E & HQ). destruct IH as (o & Eo & Fo); [intros; apply H; right; assumption|].
  exists (e :: o). cbn [mapr]. rewrite E. cbn [rbind]. rewrite Eo. split; [reflexivity|]. constructor; assumption.
Qed.
Lemma yields_mapr {A} (g : dt -> A -> res dt) (Q : dt -> A -> dt -> Prop) l ds :
  (forall d v, In d ds -> In v l -> exists e, g d v = Ok e /\ Q d v e) ->
  yields (fun l ds => flat_mapr (fun d => mapr (g d) l) ds) Q l ds.
Proof.
  intro H. induction ds as [|d t IH].
  - exists []. split; [reflexivity|constructor].
  - destruct IH as (parts & E & F); [intros; apply H; [right|]; assumption|].
    destruct (mapr_all (g d) (Q d) l) as (o & Eo & Fo); [intros; apply H; [left; reflexivity|assumption]|].
    exists (o :: parts). cbn [flat_mapr]. rewrite Eo. cbn [rbind]. rewrite E. split; [reflexivity|]. constructor; assumption.
Qed.
Lemma vis_kind a b : visible a = visible b -> same_kind b a /\ ymd a = ymd b /\ mHours a = mHours b /\ mMinutes a = mMinutes b /\ mSeconds a = mSeconds b.
Proof. intro H. apply visible_split in H. unfold same_kind. tauto. Qed.

Lemma hour_yields l ds : yields byHourExpand (fun d n => at_clock d n (mMinutes d) (mSeconds d)) l ds.
Proof. apply yields_map. intros d v _ _. exact (vis_kind _ _ (setHours_visible d v)). Qed.
Lemma minute_yields l ds : yields byMinuteExpand (fun d n => at_clock d (mHours d) n (mSeconds d)) l ds.
Proof. apply yields_map. intros d v _ _. exact (vis_kind _ _ (setMinutes_visible d v)). Qed.
Lemma second_yields l ds : yields bySecondExpand (fun d n => at_clock d (mHours d) (mMinutes d) n) l ds.
Proof. apply yields_map. intros d v _ _. exact (vis_kind _ _ (setSeconds_visible d v)). Qed.
Lemma month_yields l ds : yields byMonthExpand (fun d n => on_date d (mYear d, n, mDay d)) l ds.
Proof. apply yields_map. intros d v _ _. exact (vis_kind _ _ (setMonth_visible d v)). Qed.
Lemma monthday_yields l ds : Forall (fun d => 1 <= mMonth d <= 12 /\ 1752 < mYear d) ds -> Forall (fun n => n <> 0) l ->
  yields byMonthDayExpand (fun d n e => exists k, is_month_day (mYear d, mMonth d, k) n /\ on_date d (mYear d, mMonth d, k) e) l ds.
Proof.
  intros F R. apply yields_mapr. intros d n Hd Hn. rewrite Forall_forall in F, R. destruct (F d Hd) as [Hm Hy]. pose proof (R n Hn).
  unfold setMonthDay. rewrite daysInMonth_r_ok by exact Hm. rewrite (month_len_greg (mYear d) (mMonth d)) by lia.
  unfold is_month_day, year_of, month_of, day_of. cbn [fst snd].
  destruct (Z.ltb_spec 0 n); [|destruct (Z.ltb_spec n 0); [|lia]]; cbn [rbind negb]; (eexists; split; [reflexivity|]); eexists; (split; [|split; [split; [reflexivity|split; reflexivity]|split; [reflexivity|split; [reflexivity|split; reflexivity]]]]); cbn [mDay changed with_ymd with_posix with_tzoff]; lia.
Qed.

(** BYSETPOS. *)
Lemma setpos_total tzo l ds : (forall d, In d ds -> 1 <= mMonth d <= 12) -> exists full ps,
  Permutation (map visible ds) (map visible full) /\ in_order tzo full /\ picks full l ps /\
  bySetPosLimit tzo l ds = Ok (List.concat ps).
Proof.
  intro H. destruct (sort_ok tzo ds H) as (o & E). destruct (bySetPosLimit tzo l ds) as [out|] eqn:Eb.
  - pose proof (setpos_spec tzo l ds out Eb) as (full & ps & Ef & P & ->). exists full, ps.
    pose proof (sort_sorted tzo _ _ Ef) as S. apply sort_keys in Ef as (_ & _ & _ & _ & Pm). auto.
  - unfold bySetPosLimit in Eb. rewrite E in Eb. discriminate.
Qed.
