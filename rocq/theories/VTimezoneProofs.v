(** Proofs about the offset lookup of time zone definitions: the binary search and the elements. *)
From Coq Require Import Lia ZifyBool ZifyNat Sorting.Permutation Sorting.Sorted.
From Verif Require Import PyBase PyProofs CalModel CalSpec DateTimeModel DateTimeSpec DateTimeSpec2 DateTimeOps CalProofs DateTimeProofs DateTimeProofs2
  DateTimeProofs3 DateTimeProofs4 DateTimeOpsProofs PeriodModel PeriodSpec PeriodProofs RecurModel RecurTextProofs2 RecurExpand RecurExpandSpec RecurSetSpec RecurSortProofs
  RecurSimpleProofs RecurCacheProofs RecurMiscProofs RecurByPartsSpec RecurByPartsProofs3 RecurKeepProofs RecurSetModel RecurUnionSpec
  RecurAgainProofs RecurUnionProofs VTimezoneModel VTimezoneSpec.
Ltac Zify.zify_post_hook ::= Z.div_mod_to_equations.

(** ** The binary search *)
Section Bisect.
Variable tzo : tzid -> Z -> Z -> Z -> Z -> Z -> Z -> bool -> bool -> Z.
Context {A : Type}.
Variables (key : A -> dt) (a : list A) (x : dt) (f : A -> bool).
Hypothesis cmp : forall r, In r a -> dt_lt tzo x (key r) = Ok (f r).
Hypothesis mono : forall i j r s, (i <= j)%nat -> nth_error a i = Some r -> nth_error a j = Some s -> f r = true -> f s = true.

Lemma bisect_spec n : forall lo hi, (hi - lo < n)%nat -> (lo <= hi <= List.length a)%nat ->
  (forall i r, (i < lo)%nat -> nth_error a i = Some r -> f r = false) ->
  (forall i r, (hi <= i)%nat -> nth_error a i = Some r -> f r = true) ->
  exists k, bisect tzo n key a x lo hi = Ok k /\ (k <= List.length a)%nat /\
  (forall i r, (i < k)%nat -> nth_error a i = Some r -> f r = false) /\
  (forall i r, (k <= i)%nat -> nth_error a i = Some r -> f r = true).
Proof.
  induction n as [|n IH]; intros lo hi L B Lo Hi; [lia|]. cbn [bisect].
  destruct (Nat.ltb_spec lo hi) as [H|H].
  - set (mid := Nat.div (lo + hi) 2). assert (Hm : (lo <= mid < hi)%nat) by (unfold mid; pose proof (Nat.div_mod (lo + hi) 2 ltac:(lia)); pose proof (Nat.mod_upper_bound (lo + hi) 2 ltac:(lia)); lia).
    destruct (nth_error a mid) as [r|] eqn:E; [|apply nth_error_None in E; lia].
    rewrite (cmp r) by (apply (nth_error_In _ _ E)). cbn [rbind]. destruct (f r) eqn:F.
    + apply IH; try lia; auto. intros i s Hi' Es. apply (mono mid i r s); auto; lia.
    + apply IH; try lia; auto. intros i s Hi' Es. destruct (f s) eqn:Fs; [|reflexivity]. rewrite (mono i mid s r) in F; auto; lia.
  - exists lo. assert (lo = hi) by lia. subst hi. split; [reflexivity|]. split; [lia|auto].
Qed.
Lemma bisect_right_spec : exists k, bisect_right tzo key a x = Ok k /\ (k <= List.length a)%nat /\
  (forall i r, (i < k)%nat -> nth_error a i = Some r -> f r = false) /\
  (forall i r, (k <= i)%nat -> nth_error a i = Some r -> f r = true).
Proof.
  unfold bisect_right. apply bisect_spec; try lia. intros i r H E. assert (nth_error a i = None) by (apply nth_error_None; lia). congruence.
Qed.
End Bisect.

Lemma sorted_nth (xs : list Z) : StronglySorted Z.le xs -> forall i j x y, (i <= j)%nat -> nth_error xs i = Some x -> nth_error xs j = Some y -> x <= y.
Proof.
  induction 1 as [|z xs S IH F]; intros i j x y L Ei Ej; [destruct i; discriminate|].
  destruct i as [|i], j as [|j]; try lia; cbn in Ei, Ej.
  - replace y with x by congruence. lia.
  - injection Ei as <-. rewrite Forall_forall in F. apply F. apply (nth_error_In _ _ Ej).
  - eapply IH; [|exact Ei|exact Ej]. lia.
Qed.
Lemma forall2_nth {A B} (R : A -> B -> Prop) l l' : Forall2 R l l' -> forall i r, nth_error l i = Some r -> exists y, nth_error l' i = Some y /\ R r y.
Proof. induction 1 as [|r y l l' H F IH]; intros [|i] s E; try discriminate; cbn in *; [injection E as <-; eauto|apply IH, E]. Qed.

Lemma f2_len {A B} (R : A -> B -> Prop) l l' : Forall2 R l l' -> List.length l = List.length l'.
Proof. induction 1; cbn; congruence. Qed.

(** The index of the first entry after t in a sorted table. *)
Lemma bisect_instants tzo {A} (key : A -> dt) (a : list A) (x : dt) t (xs : list Z) :
  Forall2 (fun r y => dt_lt tzo x (key r) = Ok (t <? y)) a xs -> StronglySorted Z.le xs ->
  exists k, bisect_right tzo key a x = Ok k /\ (k <= List.length a)%nat /\
  Forall (fun y => y <= t) (firstn k xs) /\ Forall (fun y => t < y) (skipn k xs).
Proof.
  intros F S. pose proof (f2_len _ _ _ F) as Le.
  destruct (bisect_right_spec tzo key a x (fun r => match dt_lt tzo x (key r) with Ok b => b | Raise _ => false end)) as (k & E & L & H1 & H2).
  - intros r Hr. apply In_nth_error in Hr as (i & Hi). destruct (forall2_nth _ _ _ F i r Hi) as (y & _ & ->). reflexivity.
  - intros i j r s Lij Er Es. destruct (forall2_nth _ _ _ F i r Er) as (y & Ey & ->). destruct (forall2_nth _ _ _ F j s Es) as (z & Ez & ->).
    pose proof (sorted_nth xs S i j y z Lij Ey Ez). lia.
  - exists k. split; [exact E|]. split; [exact L|].
    assert (N : forall i y, nth_error xs i = Some y -> exists r, nth_error a i = Some r /\ dt_lt tzo x (key r) = Ok (t <? y)).
    { intros i y Ey. destruct (forall2_nth (fun y r => dt_lt tzo x (key r) = Ok (t <? y)) xs a) with (i := i) (r := y) as (r & Er & Ir); eauto.
      clear - F. induction F; constructor; auto. }
    split; apply Forall_forall; intros y Hy; apply In_nth_error in Hy as (i & Hi).
    + assert (Li : (i < k)%nat). { assert (H : nth_error (firstn k xs) i <> None) by congruence. apply nth_error_Some in H. rewrite firstn_length in H. lia. }
      assert (Ey : nth_error xs i = Some y). { rewrite <- (firstn_skipn k xs). rewrite nth_error_app1; [exact Hi|]. apply nth_error_Some. congruence. }
      destruct (N i y Ey) as (r & Er & Ir). specialize (H1 i r Li Er). cbv beta in H1. rewrite Ir in H1. lia.
    + assert (Ey : nth_error xs (k + i) = Some y).
      { rewrite <- (firstn_skipn k xs). rewrite nth_error_app2 by (rewrite firstn_length; lia).
        rewrite firstn_length. replace (k + i - Nat.min k (List.length xs))%nat with i by lia. exact Hi. }
      destruct (N (k + i)%nat y Ey) as (r & Er & Ir). specialize (H2 (k + i)%nat r ltac:(lia) Er). cbv beta in H2. rewrite Ir in H2. lia.
Qed.

(** ** Computations with fuel *)
Definition runs {A} (F : nat -> option A) (x : A) : Prop := (forall n y, F n = Some y -> y = x) /\ exists N, forall n, (N <= n)%nat -> F n = Some x.
Lemma runs_ret {A} (x : A) : runs (fun _ => Some x) x.
Proof. split; [intros n y H; congruence|exists 0%nat; auto]. Qed.
Lemma runs_bind {A B} (F : nat -> option A) (G : A -> nat -> option B) x y : runs F x -> runs (G x) y ->
  runs (fun n => match F n with None => None | Some z => G z n end) y.
Proof.
  intros [D (N & HN)] [D' (M & HM)]. split.
  - intros n z. destruct (F n) as [w|] eqn:E; [|discriminate]. rewrite (D n w E). apply D'.
  - exists (N + M)%nat. intros n L. rewrite HN by lia. apply HM. lia.
Qed.
Lemma runs_more {A} (F : nat -> option A) x N : (forall n m y, (n <= m)%nat -> F n = Some y -> F m = Some y) -> F N = Some x -> runs F x.
Proof.
  intros Mo E. split.
  - intros n y H. pose proof (Mo n (n + N)%nat y ltac:(lia) H). pose proof (Mo N (n + N)%nat x ltac:(lia) E). congruence.
  - exists N. intros n L. eauto.
Qed.

(** ** Dates *)
Lemma offsetYear_year d k : valid_dt d -> valid_dt (offsetYear d k) /\ mYear (offsetYear d k) = mYear d + k /\ same_time (offsetYear d k) d.
Proof.
  intro V. pose proof (valid_month d V) as Hm. unfold offsetYear.
  destruct (normalise_day' d (mYear d + k) (mMonth d) (mDay d) Hm V) as (A & B & C).
  split; [exact A|]. split; [|exact C].
  set (r := normalise (with_ymd d (mYear d + k) (mMonth d) (mDay d))) in *. set (y := mYear d + k) in *.
  apply (same_year_range y _ (mMonth r) (mDay r) (hdn y (mMonth d) (mDay d) - hdn y 1 1)); [apply A| |].
  - apply hb; [apply valid_first; lia|apply A|]. unfold dnd. unfold hdn in *. lia.
  - destruct V as ((_ & Hd) & _).
    pose proof (upto_bounds hist_leap y (mMonth d) Hm) as U. pose proof (upto_dec hist_leap y) as U12.
    unfold hdn, dn. change (upto hist_leap y 1) with 0. split; [lia|].
    assert (month_len hist_leap (mYear d) (mMonth d) <= month_len hist_leap y (mMonth d) + (if mMonth d =? 2 then 1 else 0)) as ML.
    { unfold month_len. destruct (Z.eqb_spec (mMonth d) 2); [destruct (hist_leap (mYear d)), (hist_leap y); lia|lia]. }
    unfold yearlen in *. cbn [ymd] in Hd.
    destruct (Z.eqb_spec (mMonth d) 2) as [E|E]; [|destruct (hist_leap y); lia].
    rewrite E. change (upto hist_leap y 2) with 31.
    rewrite E in Hd. pose proof (month_len_bounds hist_leap (mYear d) 2). destruct (hist_leap y); lia.
Qed.
Definition new_year (y : Z) : dt := newDateTime y 1 1 0 0 0 false TzNone.
Lemma new_year_instant y : instant local_time (new_year y) (civil (new_year y)).
Proof. apply instant_civil. split; [|auto]. split; [apply (valid_first hist_leap y 1); lia|]. split; [unfold valid_time; cbn [new_year newDateTime mHours mMinutes mSeconds]; lia|discriminate]. Qed.
Lemma cache_max_instant d t : instant local_time d t -> mYear (cache_max d) = mYear d + 2 /\ (mMonth (cache_max d), mDay (cache_max d)) = (1, 1) /\
  instant local_time (cache_max d) (civil (new_year (mYear d + 2))).
Proof.
  intro I. pose proof I as J. apply instant_civil in J as (V & D & U & T & _).
  set (e := setHHMMSS d 0 0 0).
  assert (E : ymd e = ymd d /\ (mHours e, mMinutes e, mSeconds e) = (0, 0, 0) /\ mDateOnly e = false /\ mTZUTC e = false /\ mTZID e = TzNone).
  { unfold e, setHHMMSS. destruct (negb (mHours d =? 0) || negb (mMinutes d =? 0) || negb (mSeconds d =? 0)) eqn:Q.
    - cbn. auto.
    - assert (mHours d = 0 /\ mMinutes d = 0 /\ mSeconds d = 0) as (-> & -> & ->) by lia. auto. }
  destruct E as (E1 & E2 & E3 & E4 & E5). injection E2 as Eh Em Es. injection E1 as Ey Emo Ed.
  assert (Ve : valid_dt e).
  { split; [|split].
    - destruct V as (V & _). unfold ymd in *. rewrite Ey, Emo, Ed. exact V.
    - unfold valid_time. rewrite Eh, Em, Es. lia.
    - intros _. unfold secs_of_day. rewrite Eh, Em, Es. reflexivity. }
  destruct (offsetYear_year e 2 Ve) as (Vf & Yf & Sf). unfold same_time in Sf. set (f := offsetYear e 2) in *. injection Sf as Fh Fm Fs FD FU FT.
  assert (C : visible (cache_max d) = visible (new_year (mYear d + 2)) ).
  { unfold cache_max. fold e f. unfold setDay, setMonth, visible, ymd, new_year.
    destruct (Z.eqb_spec (mMonth f) 1) as [M1|M1]; cbn [negb];
    match goal with |- context [mDay ?x =? 1] => destruct (Z.eqb_spec (mDay x) 1) as [D1|D1]; cbn [negb] end;
    cbn [newDateTime changed with_tzoff with_posix with_ymd mYear mMonth mDay mHours mMinutes mSeconds mDateOnly mTZUTC mTZID] in *; congruence. }
  pose proof C as C'. unfold visible, ymd in C'. injection C' as Y1 M1 D1 _ _ _ _ _ _. split; [exact Y1|]. split; [rewrite M1, D1; reflexivity|].
  apply (visible_instant (new_year (mYear d + 2))); [discriminate|symmetry; exact C|apply new_year_instant].
Qed.
Lemma jan1_instant d b : instant local_time d b -> (mMonth d, mDay d) = (1, 1) -> secs_of_day d = 0 -> instant local_time (jan1 d) b.
Proof.
  intros I M S. apply instant_civil in I as (V & D & U & T & ->). injection M as M1 D1.
  replace (civil d) with (civil (jan1 d)); [apply new_year_instant|]. unfold civil, jan1. cbn [newDateTime mYear mMonth mDay]. rewrite M1, D1, S. reflexivity.
Qed.
Lemma year_before d t y : instant local_time d t -> mYear d < y -> t < civil (new_year y).
Proof.
  intros I L. apply instant_civil in I as (V & _ & _ & _ & ->). destruct (Z.lt_ge_cases (civil d) (civil (new_year y))) as [|G]; [assumption|].
  pose proof (scale_year local_time (new_year y) d) as H. cbn [on_scale] in H. specialize (H ltac:(discriminate) (proj1 (new_year_instant y)) V G). cbn in H. lia.
Qed.
Lemma new_year_le y y' : y <= y' -> civil (new_year y) <= civil (new_year y').
Proof.
  intro L. destruct (Z.eq_dec y y') as [->|]; [lia|]. apply Z.lt_le_incl. apply (year_before (new_year y)); [apply new_year_instant|cbn; lia].
Qed.

(** ** The elements *)
Lemma visible_norm d : valid_dt d -> visible d = visible (normalise d).
Proof. intro V. symmetry. apply normalise_valid, V. Qed.
Lemma honest_norm tzo d : honest tzo (normalise d).
Proof.
  unfold normalise. destruct (if mDateOnly d then _ else _) as [[h mi] s]. destruct (norm_days _ _ _) as [[y m] dd]. split; [intros _ o H; discriminate H|intro H; discriminate H].
Qed.
Lemma call_visible tzo off s s' d a w b r : visible s = visible s' ->
  rule_call tzo local_time off s (newPeriodEnd s d) a w b r -> rule_call tzo local_time off s' (newPeriodEnd s' d) a w b r.
Proof. intro V. destruct s, s'. unfold visible, ymd in V. cbn in V. injection V as -> -> -> -> -> -> -> -> ->. intro H. exact H. Qed.
Lemma known_visible tzo off s s' a r c : visible s = visible s' -> known tzo local_time off Z.le s a r c -> known tzo local_time off Z.le s' a r c.
Proof.
  intros V K H. destruct (K H) as (st & e & b & zs & A & B & C & D & F & S & M & Fu). exists st, e, b, zs.
  assert (V' : visible s' = visible s) by congruence.
  split; [exact A|]. split; [exact B|]. split; [exact C|]. split; [exact D|]. split; [|split; [exact S|split]].
  - apply (good_start tzo local_time s); [|exact F]. unfold visible in V. injection V as _ _ _ _ _ _ _ U T. split; assumption.
  - intro x. rewrite M. split; intros [G L]; (split; [|exact L]); eapply gives_visible; try exact G; auto; discriminate.
  - intros Hf x G. apply (Fu Hf). eapply gives_visible; try exact G; auto; discriminate.
Qed.
