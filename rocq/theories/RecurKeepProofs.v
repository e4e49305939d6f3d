(** A property of date-times that the operations of the set generators keep holds for every
    expanded value: used for the coherence of the caches together with the zone. *)
From Coq Require Import Lia ZifyBool ZifyNat Sorting.Permutation.
From Verif Require Import PyBase PyProofs ParserCtx CalModel CalSpec DateTimeModel DateTimeSpec DateTimeSpec2 DateTimeText DateTimeOps
  CalProofs DateTimeProofs DateTimeOpsProofs PeriodModel RecurModel RecurTextProofs2 RecurExpand RecurSetSpec RecurSetProofs RecurSortProofs
  RecurComplexSpec RecurCohProofs RecurMiscProofs.
Ltac Zify.zify_post_hook ::= Z.div_mod_to_equations.

Section Keep.
Variable tzo : tzid -> Z -> Z -> Z -> Z -> Z -> Z -> bool -> bool -> Z.
Variable P : dt -> Prop.
(** The operations that the generators use. *)
Definition used (o : op) : Prop :=
  match o with
  | OSetMonth _ | OSetWeekNo _ | OSetYearDay _ _ | OSetMonthDay _ _ | OSetHours _ | OSetMinutes _ | OSetSeconds _
  | OSetDowYear _ _ | OSetDowMonth _ _ _ | OGetPosix | ORecur _ _ true => True
  | _ => False
  end.
Hypothesis P_op : forall d o d', P d -> used o -> step tzo default_ctx d o = Ok d' -> P d'.
Hypothesis P_week : forall d k, P d -> P (offsetDay d k).
Ltac byop op := match goal with C : P ?d |- _ => eapply (P_op d op); [exact C|exact I|cbn [step]; try reflexivity; try eassumption] end.
Lemma month_keep l ds o : Forall P ds -> byMonthExpand l ds = Ok o -> Forall P o.
Proof. intros F. apply flat_forall with (P := P); [exact F|]. intros x p C H. injection H as <-. apply map_forall. intro n. byop (OSetMonth n). Qed.
Lemma week_keep l ds o : Forall P ds -> byWeekNoExpand l ds = Ok o -> Forall P o.
Proof. intros F. apply flat_forall with (P := P); [exact F|]. intros x p C H. revert H. apply mapr_forall. intros n y E. byop (OSetWeekNo n). Qed.
Lemma yearday_keep l ds o : Forall P ds -> byYearDayExpand l ds = Ok o -> Forall P o.
Proof. intros F. apply flat_forall with (P := P); [exact F|]. intros x p C H. injection H as <-. apply map_forall. intro n. byop (OSetYearDay n true). Qed.
Lemma monthday_keep l ds o : Forall P ds -> byMonthDayExpand l ds = Ok o -> Forall P o.
Proof. intros F. apply flat_forall with (P := P); [exact F|]. intros x p C H. revert H. apply mapr_forall. intros n y E. byop (OSetMonthDay n true). Qed.
Lemma hour_keep l ds o : Forall P ds -> byHourExpand l ds = Ok o -> Forall P o.
Proof. intros F. apply flat_forall with (P := P); [exact F|]. intros x p C H. injection H as <-. apply map_forall. intro n. byop (OSetHours n). Qed.
Lemma minute_keep l ds o : Forall P ds -> byMinuteExpand l ds = Ok o -> Forall P o.
Proof. intros F. apply flat_forall with (P := P); [exact F|]. intros x p C H. injection H as <-. apply map_forall. intro n. byop (OSetMinutes n). Qed.
Lemma second_keep l ds o : Forall P ds -> bySecondExpand l ds = Ok o -> Forall P o.
Proof. intros F. apply flat_forall with (P := P); [exact F|]. intros x p C H. injection H as <-. apply map_forall. intro n. byop (OSetSeconds n). Qed.
Lemma day_year_keep l ds o : Forall P ds -> byDayExpandYearly l ds = Ok o -> Forall P o.
Proof.
  intros F. apply flat_forall with (P := P); [exact F|]. intros x p C. apply flat_forall with (P := fun _ => True); [apply all_true|].
  intros [n d] q _. cbn [fst snd]. destruct (negb (n =? 0)).
  - destruct (setDayOfWeekInYear x n d) as [t|] eqn:E; [|discriminate]. cbn [rbind]. intro H. injection H as <-. constructor; [|constructor].
    byop (OSetDowYear n d).
  - apply flat_forall with (P := fun _ => True); [apply all_true|]. intros i z _.
    destruct (setDayOfWeekInYear x i d) as [t|] eqn:E; [|discriminate]. cbn [rbind]. intro H. injection H as <-.
    destruct (_ =? _); constructor; [|constructor]. byop (OSetDowYear i d).
Qed.
Lemma day_month_keep l ds o : Forall P ds -> byDayExpandMonthly l ds = Ok o -> Forall P o.
Proof.
  intros F. apply flat_forall with (P := P); [exact F|]. intros x p C. apply flat_forall with (P := fun _ => True); [apply all_true|].
  intros [n d] q _. cbn [fst snd]. destruct (negb (n =? 0)).
  - destruct (setDayOfWeekInMonth x n d true) as [t|] eqn:E; [|discriminate]. cbn [rbind]. intro H. injection H as <-. constructor; [|constructor].
    byop (OSetDowMonth n d true).
  - apply flat_forall with (P := fun _ => True); [apply all_true|]. intros i z _.
    destruct (setDayOfWeekInMonth x i d true) as [t|] eqn:E; [|discriminate]. cbn [rbind]. intro H. injection H as <-.
    destruct (_ =? _); constructor; [|constructor]. byop (OSetDowMonth i d true).
Qed.
Lemma day_week_keep k l ds o : Forall P ds -> byDayExpandWeekly k l ds = Ok o -> Forall P o.
Proof.
  intros F. apply flat_forall with (P := P); [exact F|]. intros x p C. apply flat_forall with (P := fun _ => True); [apply all_true|].
  intros [n d] q _. cbn [fst snd]. destruct (n =? 0); [|intro H; injection H as <-; constructor].
  destruct (getDayOfWeek x) as [w|]; [|discriminate]. cbn [rbind]. cbv zeta. intro H.
  match type of H with Ok ?l = _ => assert (Q : q = l) by congruence end. rewrite Q. constructor; [|constructor].
  apply P_week, C.
Qed.

Definition keeps_P {A} (f : list A -> list dt -> res (list dt)) : Prop := forall l ds o, Forall P ds -> f l ds = Ok o -> Forall P o.
Lemma part_keep {A} (l : option (list A)) f ds o : keeps_P f -> Forall P ds -> part l f ds = Ok o -> Forall P o.
Proof. intros K F. unfold part. destruct (has l); [apply K, F|]. intro H. injection H as <-. exact F. Qed.


Ltac parts := repeat match goal with
  | F : Forall P ?ds, H : rbind (part ?l ?f ?ds) _ = Ok _ |- _ =>
    let o := fresh "o" in let E := fresh "E" in destruct (part l f ds) as [o|] eqn:E; [|discriminate]; cbn [rbind] in H;
    apply part_keep in E; [clear F| |exact F]
  | F : Forall P ?ds, H : part ?l ?f ?ds = Ok _ |- _ => apply part_keep in H; [exact H| |exact F]
  end.
Ltac one := first [exact month_keep|exact week_keep|exact yearday_keep|exact monthday_keep|exact hour_keep|exact minute_keep|exact second_keep|
  exact day_year_keep|exact day_month_keep|exact (day_week_keep _)|
  (let l := fresh in let ds := fresh in let o := fresh in let F := fresh in intros l ds o F; apply keepr_forall; exact F)].

Lemma pre_keep r s o : P s -> pre_set r s = Ok o -> Forall P o.
Proof.
  intros C H. assert (F : Forall P [s]) by (constructor; [exact C|constructor]).
  unfold pre_set in H. destruct (rFreq r); unfold pre_yearly, pre_monthly, pre_weekly, pre_fine in H; parts;
    repeat match goal with |- keeps_P (if ?b then _ else _) => destruct b end; one.
Qed.
Lemma sort_keep ds o : Forall P ds -> sort_posix tzo ds = Ok o -> Forall P o.
Proof.
  intros F. unfold sort_posix. destruct (mapr (posix_key tzo) ds) as [ks|] eqn:E; [|discriminate]. cbn [rbind]. intro H. injection H as <-.
  assert (G : Forall (fun k => P (snd k)) ks).
  { revert ks E. induction F as [|d t C F IH]; intros ks E; cbn [mapr] in E; [injection E as <-; constructor|].
    unfold posix_key in E at 1. destruct (getPosixTime tzo d) as [d1 rr] eqn:Q. destruct rr as [p|]; [|discriminate]. cbn [rbind] in E.
    destruct (mapr (posix_key tzo) t) as [ks'|]; [|discriminate]. cbn [rbind] in E. injection E as <-. constructor; [|apply IH; reflexivity].
    cbn [snd]. apply (P_op d OGetPosix); [exact C|exact I|]. cbn [step]. rewrite Q. reflexivity. }
  apply Forall_forall. intros x Hx. apply in_map_iff in Hx as (k & <- & Hk).
  rewrite Forall_forall in G. apply G. eapply Permutation_in; [apply Permutation_sym, isort_perm|exact Hk].
Qed.
Lemma set_keep r s o : P s -> ~ given (rBySetPos r) -> generate_set tzo r s = Ok o -> Forall P o.
Proof.
  intros C G. rewrite plain_set by exact G. destruct (pre_set r s) as [ds|] eqn:E; [|discriminate]. cbn [rbind].
  apply pre_keep in E; [|exact C]. destruct (drop_invalid ds) as [ds'|] eqn:E'; [|discriminate]. cbn [rbind].
  apply sort_keep. unfold drop_invalid in E'. eapply keepr_forall; [exact E|exact E'].
Qed.

Lemma skip_keep n f k d : P d -> forall d', skip_invalid n f k d = Some (Ok d') -> P d'.
Proof.
  revert d. induction n as [|n IH]; intros d H d' E; cbn [skip_invalid] in E;
  (destruct (invalid d) as [b|]; [|discriminate]); (destruct b; [|injection E as <-; exact H]); [discriminate|].
  eapply IH; [|exact E]. byop (ORecur f k true).
Qed.
Lemma simple_keep r range until max n : forall it ctr items, P it -> Forall P items ->
  forall o, simple_loop tzo n r range until max it ctr items = Some o -> Forall P (fst o).
Proof.
  induction n as [|n IH]; intros it ctr items Hi Hs o E; cbn [simple_loop] in E; [discriminate|].
  destruct (isDateAfterPeriod tzo range it) as [b|]; [|injection E as <-; exact Hs].
  destruct b; [injection E as <-; exact Hs|].
  assert (Hs' : Forall P (items ++ [it])) by (apply Forall_app; auto).
  cbv zeta in E. destruct (too_many max (items ++ [it])); [injection E as <-; exact Hs'|].
  destruct (skip_invalid _ _ _ _) as [[d|]|] eqn:S; [|injection E as <-; exact Hs'|discriminate].
  assert (Hd : P d) by (eapply skip_keep; [|exact S]; byop (ORecur (rFreq r) (rInterval r) true)).
  destruct (rUseCount r).
  - destruct (_ <=? _); [injection E as <-; exact Hs'|]. eapply IH; [..|exact E]; auto.
  - destruct until as [u|]; [|eapply IH; [..|exact E]; auto].
    destruct (dt_gt tzo d u) as [b|]; [|injection E as <-; exact Hs'].
    destruct b; [injection E as <-; exact Hs'|]. eapply IH; [..|exact E]; auto.
Qed.
Lemma in_range_keep range recs : forall limited items, Forall P recs -> Forall P items -> Forall P (fst (in_range tzo range recs limited items)).
Proof.
  induction recs as [|d t IH]; intros limited items Hr Hi; cbn [in_range]; [exact Hi|]. inversion Hr; subst.
  destruct (isDateWithinPeriod tzo range d) as [b|]; [|exact Hi]. destruct b; apply IH; auto. apply Forall_app; auto.
Qed.
Lemma interval_keep r d k : P d -> P (interval_start r d k).
Proof.
  intro H. unfold interval_start. induction k as [|k IH]; cbn [Nat.iter nat_rect]; [exact H|].
  match goal with |- P (recur ?x ?f ?n ?a) => eapply (P_op x (ORecur f n a)); [exact IH|exact I|reflexivity] end.
Qed.
Lemma set_loop_keep r start range until max set : forall ctr items, Forall P set -> Forall P items ->
  match set_loop tzo r start range until max set ctr items with inl o => Forall P (fst o) | inr c => Forall P (snd c) end.
Proof.
  induction set as [|it set IH]; intros ctr items Fs Fi; cbn [set_loop]; [exact Fi|]. inversion Fs; subst.
  assert (Fi' : Forall P (items ++ [it])) by (apply Forall_app; auto).
  destruct (dt_lt tzo it start) as [[|]|]; [apply IH; auto| |exact Fi].
  destruct (isDateAfterPeriod tzo range it) as [[|]|]; [exact Fi| |exact Fi].
  destruct (match until with None => _ | Some u => _ end) as [[|]|]; [exact Fi| |exact Fi].
  destruct (if ctr =? 1 then _ else _) as [[|]|]; [apply IH; auto| |exact Fi].
  cbv zeta. destruct (too_many max (items ++ [it])); [exact Fi'|]. destruct (rUseCount r); [|apply IH; auto].
  destruct (rCount r <=? ctr + 1); [exact Fi'|apply IH; auto].
Qed.
Lemma complex_keep r start range until max n : ~ given (rBySetPos r) -> forall it ctr items, P it -> Forall P items ->
  forall o, complex_loop tzo n r start range until max it ctr items = Some o -> Forall P (fst o).
Proof.
  intro G. induction n as [|n IH]; intros it ctr items Hi Hs o E; cbn [complex_loop] in E; [discriminate|].
  destruct (generate_set tzo r it) as [set|] eqn:S; [|injection E as <-; exact Hs].
  pose proof (set_loop_keep r start range until max set ctr items (set_keep _ _ _ Hi G S) Hs) as K.
  destruct (set_loop tzo r start range until max set ctr items) as [o'|[ctr' items']]; [injection E as <-; exact K|]. cbn [snd] in K.
  destruct (isDateAfterPeriod tzo range it) as [[|]|]; [injection E as <-; exact K| |injection E as <-; exact K].
  eapply IH; [|exact K|exact E]. byop (ORecur (rFreq r) (rInterval r) true).
Qed.
Lemma compute_keep fuel r start range off max recs res : (hasBy r = true -> ~ given (rBySetPos r)) -> P start ->
  compute tzo fuel r start range off max = Some (recs, res) -> Forall P recs.
Proof.
  intros G Hs E. unfold compute in E. destruct (hasBy r) eqn:B; cbn [negb] in E.
  - unfold complexExpand in E. destruct (float_until _ _ _ _) as [u|]; [|injection E as <- _; constructor].
    destruct (rUseCount r); [destruct (rCount r <=? 1); [injection E as <- _; constructor|]|]; apply complex_keep in E; auto.
  - unfold simpleExpand in E. destruct (float_until _ _ _ _) as [u|]; [|injection E as <- _; constructor].
    apply simple_keep in E; auto.
Qed.
End Keep.

(** ** The zone and the coherence of the caches *)
Definition zn (d : dt) : bool * tzid := (mTZUTC d, mTZID d).
Lemma zn_norm d : zn (normalise d) = zn d.
Proof. unfold normalise. destruct (if mDateOnly d then _ else _) as [[h mi] s]. destruct (norm_days _ _ _) as [[y m] dd]. reflexivity. Qed.
Lemma zn_yearday d n b : zn (setYearDay d n b) = zn d.
Proof.
  unfold setYearDay. repeat match goal with |- context [if ?b then _ else _] => destruct b end; cbv zeta; rewrite ?zn_norm; reflexivity.
Qed.
Lemma step_zone tzo d o d' : used o -> step tzo default_ctx d o = Ok d' -> zn d' = zn d.
Proof.
  intros U H. destruct o; try destruct U; cbn [step] in H.
  - destruct (getPosixTime tzo d) as [e r] eqn:G. destruct r as [r|]; [|discriminate]. cbn in H. injection H as <-.
    unfold getPosixTime in G. destruct (_ || _); [|injection G as <- _; reflexivity].
    destruct (daysSince1970 d); [|injection G as <- _; reflexivity]. unfold timeZoneSecondsOffset in G.
    destruct (mTZUTC d) eqn:Q; [injection G as <- _; reflexivity|]. destruct (mTZOffset d); injection G as <- _; reflexivity.
  - injection H as <-. unfold setMonth. destruct (negb _); reflexivity.
  - injection H as <-. apply zn_yearday.
  - unfold setMonthDay in H. destruct (if 0 <? n then _ else _) as [dd|]; [|discriminate]. cbn [rbind] in H. injection H as <-.
    destruct (negb ai); rewrite ?zn_norm; reflexivity.
  - unfold setWeekNo in H. destruct (getWeekNo d) as [w|]; [|discriminate]. cbn [rbind] in H. destruct (w =? n); [injection H as <-; reflexivity|].
    destruct (getDayOfWeek (newDate _ _ _ _ _)) as [f|]; [|discriminate]. cbn [rbind] in H.
    destruct (getDayOfWeek d) as [c|]; [|discriminate]. cbn [rbind] in H. cbv zeta in H.
    match type of H with Ok (if ?b then _ else _) = _ => destruct b end; injection H as <-; rewrite zn_yearday; [unfold offsetYear; rewrite zn_norm|]; reflexivity.
  - unfold setDayOfWeekInYear in H. destruct (getDayOfWeek _) as [f|]; [|discriminate]. cbn [rbind] in H. injection H as <-. rewrite zn_norm. reflexivity.
  - unfold setDayOfWeekInMonth in H. destruct (getDayOfWeek _) as [f|]; [|discriminate]. cbn [rbind] in H.
    match type of H with (do dd <- ?e; _) = _ => destruct e as [dd|]; [|discriminate] end. cbn [rbind] in H. injection H as <-.
    destruct (negb ai); rewrite ?zn_norm; reflexivity.
  - injection H as <-. unfold setHours. destruct (negb _); reflexivity.
  - injection H as <-. unfold setMinutes. destruct (negb _); reflexivity.
  - injection H as <-. unfold setSeconds. destruct (negb _); reflexivity.
  - destruct ai; [|destruct U]. injection H as <-. unfold recur. destruct f; cbn [negb]; rewrite ?zn_norm; reflexivity.
Qed.

(** The instances computed for a rule have coherent caches and the zone of the start. *)
Lemma compute_zone tzo fuel r start range off max recs res : (hasBy r = true -> ~ given (rBySetPos r)) ->
  compute tzo fuel r (normalise start) range off max = Some (recs, res) ->
  Forall (fun d => coherent tzo d /\ same_zone start d) recs.
Proof.
  intros G E. apply (compute_keep tzo (fun d => coherent tzo d /\ same_zone start d)) in E; auto.
  - intros d o d' [C Z] U S. split.
    + eapply step_coherent; [exact C| |exact S]. intros ->. destruct U.
    + apply step_zone in S; [|exact U]. unfold zn in S. injection S as S1 S2. unfold same_zone in *. rewrite S1, S2. exact Z.
  - intros d k [C Z]. unfold offsetDay. split; [apply coh_norm|]. pose proof (zn_norm (with_ymd d (mYear d) (mMonth d) (mDay d + k))) as S.
    unfold zn in S. injection S as S1 S2. unfold same_zone in *. rewrite S1, S2. exact Z.
  - split; [apply coh_norm|]. pose proof (zn_norm start) as S. unfold zn in S. injection S as S1 S2. unfold same_zone in *. rewrite S1, S2. auto.
Qed.
