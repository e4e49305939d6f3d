(** The expansion of rules without BY parts. *)
From Coq Require Import Lia ZifyBool ZifyNat Sorting.Sorted.
From Verif Require Import PyBase CalSpec CalProofs DateTimeModel DateTimeSpec DateTimeSpec2 DateTimeProofs DateTimeProofs2 DateTimeProofs4.
From Verif Require Import PeriodModel PeriodSpec PeriodProofs RecurModel RecurExpand RecurExpandSpec.
Ltac Zify.zify_post_hook ::= Z.div_mod_to_equations.

(** ** The loop over an abstract sequence of instances *)
Section Run.
Variable tzo : tzid -> Z -> Z -> Z -> Z -> Z -> Z -> bool -> bool -> Z.
Variables (r : rule) (range : period) (until : option dt).
Variables (v : nat -> dt) (M : nat) (after past : nat -> bool).
Hypothesis Hnext : forall k n, (M <= n)%nat ->
  skip_invalid n (rFreq r) (rInterval r) (recur (v k) (rFreq r) (rInterval r) true) = Some (Ok (v (S k))).
Hypothesis Hafter : forall k, isDateAfterPeriod tzo range (v k) = Ok (after k).
Hypothesis Huntil : forall u, until = Some u -> rUseCount r = false -> forall k, dt_gt tzo (v (S k)) u = Ok (past (S k)).

Definition stopl (k : nat) : bool :=
  if rUseCount r then rCount r <=? Z.of_nat k else match until with None => false | Some _ => past k end.
Definition stop (k : nat) : bool := after k || ((0 <? k)%nat && stopl k).
Definition full_at (k : nat) : bool := match k with O => false | _ => stopl k end.
Lemma room_few max items n d : room max (List.length items + S n) ->
  too_many max (items ++ [d]) = false /\ room max (List.length (items ++ [d]) + n).
Proof.
  unfold room, too_many. rewrite app_length; cbn [List.length]. destruct max as [m|]; [|auto]. intros [->|H]; cbn; [auto|].
  split; [|right; lia]. destruct (m =? 0); [reflexivity|]. cbn. lia.
Qed.

Lemma run max : forall n k items ctr fuel,
  (forall j, (j < n)%nat -> stop (k + j) = false) -> stop (k + n) = true -> k = O \/ stopl k = false ->
  (rUseCount r = true -> ctr = Z.of_nat k) -> room max (List.length items + n) -> (M + n + 1 <= fuel)%nat ->
  simple_loop tzo fuel r range until max (v k) ctr items = Some (items ++ map v (seq k n), Ok (full_at (k + n))).
Proof.
  induction n as [|n IH]; intros k items ctr fuel Hbefore Hstop E Hc Hm Hf.
  - destruct fuel as [|fuel]; [lia|]. cbn [simple_loop]. rewrite Hafter. replace (k + 0)%nat with k in * by lia.
    assert (A : after k = true).
    { unfold stop in Hstop. destruct (after k); [reflexivity|]. destruct E as [->|E]; [discriminate|].
      rewrite E in Hstop. rewrite andb_false_r in Hstop. discriminate. }
    rewrite A. cbn [seq map]. rewrite app_nil_r. do 2 f_equal. unfold full_at. destruct k; [reflexivity|]. destruct E as [E|E]; [discriminate|]. congruence.
  - destruct fuel as [|fuel]; [lia|]. cbn [simple_loop]. rewrite Hafter.
    assert (A : after k = false).
    { specialize (Hbefore O ltac:(lia)). replace (k + 0)%nat with k in * by lia. unfold stop in Hbefore. destruct (after k); [discriminate|reflexivity]. }
    rewrite A. destruct (room_few max items n (v k) Hm) as [-> Hm']. rewrite Hnext by lia.
    assert (Next : stopl (S k) = true -> n = O).
    { intro S1. destruct n; [reflexivity|]. specialize (Hbefore 1%nat ltac:(lia)). replace (k + 1)%nat with (S k) in Hbefore by lia.
      unfold stop in Hbefore. rewrite S1 in Hbefore. rewrite orb_comm in Hbefore. discriminate. }
    replace (k + S n)%nat with (S k + n)%nat in * by lia.
    assert (IHk : stopl (S k) = false -> forall ctr', (rUseCount r = true -> ctr' = Z.of_nat (S k)) ->
      simple_loop tzo fuel r range until max (v (S k)) ctr' (items ++ [v k]) =
      Some (items ++ map v (seq k (S n)), Ok (full_at (S k + n)))).
    { intros S1 ctr' Hc'. rewrite (IH (S k)); auto.
      - cbn [seq map]. rewrite <- app_assoc. reflexivity.
      - intros j Hj. replace (S k + j)%nat with (k + S j)%nat by lia. apply Hbefore. lia.
      - lia. }
    assert (Done : stopl (S k) = true -> Some (items ++ [v k], Ok true) = Some (items ++ map v (seq k (S n)), Ok (full_at (S k + n)))).
    { intro S1. rewrite (Next S1). cbn [seq map]. replace (S k + 0)%nat with (S k) by lia. cbn [full_at]. rewrite S1. reflexivity. }
    unfold stopl in IHk, Done. destruct (rUseCount r) eqn:UC.
    + rewrite Hc by reflexivity. replace (Z.of_nat k + 1) with (Z.of_nat (S k)) by lia.
      destruct (rCount r <=? Z.of_nat (S k)); [apply Done; reflexivity|]. apply IHk; auto.
    + destruct until as [u|]; [|apply IHk; auto; discriminate]. rewrite (Huntil u) by reflexivity.
      destruct (past (S k)); [apply Done; reflexivity|]. apply IHk; auto. discriminate.
Qed.

(** Too many instances. *)
Lemma run_max m : forall n k items ctr fuel,
  (forall j, (j < n)%nat -> stop (k + j) = false) -> k = O \/ stopl k = false ->
  (rUseCount r = true -> ctr = Z.of_nat k) -> 1 <= m -> Z.of_nat (List.length items) <= m < Z.of_nat (List.length items + n) ->
  (M + n + 1 <= fuel)%nat ->
  exists part, simple_loop tzo fuel r range until (Some m) (v k) ctr items = Some (part, Raise TooManyInstancesError).
Proof.
  induction n as [|n IH]; intros k items ctr fuel Hbefore E Hc Hm1 Hm Hf; [lia|].
  destruct fuel as [|fuel]; [lia|]. cbn [simple_loop]. rewrite Hafter.
  assert (A : after k = false).
  { specialize (Hbefore O ltac:(lia)). replace (k + 0)%nat with k in * by lia. unfold stop in Hbefore. destruct (after k); [discriminate|reflexivity]. }
  rewrite A. destruct (too_many (Some m) (items ++ [v k])) eqn:T; [eauto|]. rewrite Hnext by lia.
  unfold too_many in T. rewrite app_length in T; cbn [List.length] in T.
  assert (n <> O) by (destruct (m =? 0) eqn:?; cbn in T; lia).
  assert (S1 : stopl (S k) = false).
  { specialize (Hbefore 1%nat ltac:(lia)). replace (k + 1)%nat with (S k) in Hbefore by lia.
    unfold stop in Hbefore. destruct (stopl (S k)); [|reflexivity]. rewrite orb_comm in Hbefore. discriminate. }
  assert (IHk : forall ctr', (rUseCount r = true -> ctr' = Z.of_nat (S k)) ->
    exists part, simple_loop tzo fuel r range until (Some m) (v (S k)) ctr' (items ++ [v k]) = Some (part, Raise TooManyInstancesError)).
  { intros ctr' Hc'. apply IH; auto.
    - intros j Hj. replace (S k + j)%nat with (k + S j)%nat by lia. apply Hbefore. lia.
    - rewrite app_length; cbn [List.length]. destruct (m =? 0) eqn:?; cbn in T; lia.
    - lia. }
  unfold stopl in S1. destruct (rUseCount r) eqn:UC.
  - rewrite Hc by reflexivity. replace (Z.of_nat k + 1) with (Z.of_nat (S k)) by lia. rewrite S1. apply IHk. auto.
  - destruct until as [u|]; [|apply IHk; discriminate]. rewrite (Huntil u) by reflexivity. rewrite S1. apply IHk. discriminate.
Qed.

Lemma least (P : nat -> bool) K : P K = true -> exists N, (N <= K)%nat /\ P N = true /\ forall j, (j < N)%nat -> P j = false.
Proof.
  induction K as [K IH] using lt_wf_ind. intro HK.
  destruct (forallb (fun j => negb (P j)) (seq 0 K)) eqn:E.
  - exists K. split; [lia|]. split; [exact HK|]. intros j Hj. rewrite forallb_forall in E. specialize (E j).
    assert (In j (seq 0 K)) by (apply in_seq; lia). specialize (E H). destruct (P j); [discriminate|reflexivity].
  - assert (X : existsb P (seq 0 K) = true).
    { clear - E. induction (seq 0 K) as [|j l IHl]; [discriminate|]. cbn in *. destruct (P j); [reflexivity|]. cbn in *. auto. }
    apply existsb_exists in X as (j & Hj & Pj). apply in_seq in Hj. destruct (IH j ltac:(lia) Pj) as (N & A & B & C).
    exists N. split; [lia|auto].
Qed.

(** All together. *)
Lemma run_all K : after K = true -> exists N,
  (N <= K)%nat /\ stop N = true /\ (forall j, (j < N)%nat -> stop j = false) /\
  (forall fuel max, (M + N + 1 <= fuel)%nat -> room max N ->
     simple_loop tzo fuel r range until max (v 0%nat) 0 [] = Some (map v (seq 0 N), Ok (full_at N))) /\
  (forall fuel m, (M + N + 1 <= fuel)%nat -> 1 <= m < Z.of_nat N ->
     exists part, simple_loop tzo fuel r range until (Some m) (v 0%nat) 0 [] = Some (part, Raise TooManyInstancesError)).
Proof.
  intro HK. destruct (least stop K) as (N & A & B & C); [unfold stop; rewrite HK; reflexivity|].
  exists N. repeat split; auto.
  - intros fuel max Hf Hr. rewrite (run max N O []); auto.
  - intros fuel m Hf Hm. apply (run_max m N O []); auto; cbn; lia.
Qed.
End Run.

(** ** Instants *)
Definition no_tz : tzid -> Z -> Z -> Z -> Z -> Z -> Z -> bool -> bool -> Z := fun _ _ _ _ _ _ _ _ _ => 0.
Definition civil (d : dt) : Z := 86400 * (hdn (mYear d) (mMonth d) (mDay d) - hdn 1970 1 1) + secs_of_day d.
Lemma instant_civil u t d x : instant (InZone u t) d x <->
  valid_dt d /\ mDateOnly d = false /\ mTZUTC d = u /\ mTZID d = t /\ x = civil d.
Proof.
  unfold instant, civil. split.
  - intros (V & A & B & C & k & K & ->). repeat split; auto; try apply V. rewrite (db_hdn no_tz d k V K). lia.
  - intros (V & A & B & C & ->). split; [exact V|]. repeat split; auto. eexists. split; [apply hdn_db; exact V|reflexivity].
Qed.
Lemma instant_days d x : instant Dates d x <-> valid_dt d /\ mDateOnly d = true /\ x = hdn (mYear d) (mMonth d) (mDay d) - hdn 1970 1 1.
Proof.
  unfold instant. split.
  - intros (V & A & K). repeat split; auto; try apply V. rewrite (db_hdn no_tz d x V K). lia.
  - intros (V & A & ->). split; [exact V|]. split; [exact A|]. apply hdn_db; exact V.
Qed.
Lemma norm_instant d u t : 1 <= mMonth d <= 12 -> mDateOnly d = false -> mTZUTC d = u -> mTZID d = t ->
  instant (InZone u t) (normalise d) (civil d).
Proof.
  intros Hm D U T. destruct (normalise_inmonth d Hm) as (V & H & S & DO & UU & TT & _ & _).
  apply instant_civil. rewrite DO, UU, TT. repeat split; auto; try apply V. unfold civil. rewrite H, S, D.
  lia.
Qed.
Lemma norm_days_instant d : 1 <= mMonth d <= 12 -> mDateOnly d = true ->
  instant Dates (normalise d) (hdn (mYear d) (mMonth d) (mDay d) - hdn 1970 1 1 + secs_of_day d / 86400).
Proof.
  intros Hm D. destruct (normalise_inmonth d Hm) as (V & H & S & DO & UU & TT & _ & _).
  apply instant_days. rewrite DO. repeat split; auto; try apply V. rewrite H. lia.
Qed.
Lemma date_secs d : valid_dt d -> mDateOnly d = true -> secs_of_day d = 0.
Proof. intros (_ & _ & H). exact H. Qed.

Lemma recur_instant sc d x f i s : sc <> Offsets -> instant sc d x -> step_units sc f = Some s ->
  instant sc (recur d f i true) (x + i * s).
Proof.
  intros NO I S. destruct sc as [u t| |]; [| |congruence].
  - apply instant_civil in I as (V & D & U & T & ->). pose proof (valid_month d V) as Hm.
    destruct f; try discriminate; injection S as <-; cbn [recur];
    match goal with |- instant _ (normalise ?e) _ => replace (civil d + i * _) with (civil e); [apply norm_instant; auto|] end;
    unfold civil, secs_of_day, with_hms, with_ymd; cbn [mYear mMonth mDay mHours mMinutes mSeconds]; rewrite ?hdn_day; lia.
  - apply instant_days in I as (V & D & ->). pose proof (valid_month d V) as Hm. pose proof (date_secs d V D) as S0.
    destruct f; try discriminate; injection S as <-; cbn [recur];
    match goal with |- instant _ (normalise ?e) _ =>
      pose proof (norm_days_instant e Hm D) as N; unfold secs_of_day, with_hms, with_ymd in N, S0; cbn [mYear mMonth mDay mHours mMinutes mSeconds] in N;
      rewrite S0 in N; rewrite hdn_day in N end;
    match type of N with instant _ _ ?y => match goal with |- instant _ _ ?z => replace z with y by lia end end; exact N.
Qed.
Lemma instant_valid sc d x : instant sc d x -> valid_dt d.
Proof. intros [V _]. exact V. Qed.
Lemma valid_not_invalid d : valid_dt d -> invalid d = Ok false.
Proof.
  intro V. unfold invalid. rewrite daysInMonth_r_ok by (apply valid_month; exact V). destruct V as ((Hm & Hd) & _).
  destruct (Z.leb_spec (mDay d) 0); [lia|]. cbn [rbind]. f_equal. lia.
Qed.
Lemma skip_valid n f i d : valid_dt d -> skip_invalid n f i d = Some (Ok d).
Proof. intro V. destruct n; cbn; rewrite (valid_not_invalid d V); reflexivity. Qed.

(** UNTIL. *)
Lemma gt_of_ops tzo a b x : all_ops tzo a b x -> dt_gt tzo a b = Ok (x <? 0).
Proof. intros H. apply H. Qed.
Lemma until_zone zone sc start off r lim a : sc <> Offsets -> instant sc start a -> tz_true zone = false -> until_at sc start off r lim ->
  exists fu, float_until zone r start off = Ok fu /\
  (forall u, fu = Some u -> exists c, lim = Some c /\ forall tzo d x, instant sc d x -> dt_gt tzo d u = Ok (c <? x)) /\
  (fu = None -> lim = None).
Proof.
  intros NO I TZ U. unfold until_at, float_until in *. destruct (rUseUntil r).
  2: { exists None. repeat split; auto. discriminate. }
  destruct U as (u & c & -> & U). eexists; split; [reflexivity|]. split; [|discriminate]. intros u' E; injection E as <-.
  destruct sc as [z t| |]; [| |contradiction].
  - apply instant_civil in I as (V & D & Uz & T & _). destruct (floating start) eqn:F.
    + destruct U as ((z' & t' & Iu) & ->). exists (c + off). split; [reflexivity|]. intros tzo d x Id.
      apply instant_civil in Iu as (Vu & Du & _ & _ & ->). apply instant_civil in Id as (Vd & Dd & Ud & Td & ->).
      assert (Iu : instant (InZone false zone) (offsetSeconds (setTimezoneID u zone) off) (civil u + off)).
      { unfold offsetSeconds. replace (civil u + off) with (civil (with_hms (setTimezoneID u zone) (mHours (setTimezoneID u zone)) (mMinutes (setTimezoneID u zone)) (mSeconds (setTimezoneID u zone) + off))).
        - apply norm_instant; auto; try reflexivity. apply (valid_month u Vu).
        - unfold civil, secs_of_day; cbn. lia. }
      apply instant_civil in Iu as (Vf & Df & Uf & Tf & Cf).
      assert (FC : field_comparable d (offsetSeconds (setTimezoneID u zone) off)).
      { right; right. unfold floating. rewrite Uf, Tf, TZ. reflexivity. }
      pose proof (cmp_times tzo d _ _ Vd Vf Dd Df FC (db_diff no_tz _ _ _ _ Vd Vf (hdn_db d Vd) (hdn_db _ Vf))) as O.
      rewrite (gt_of_ops _ _ _ _ O). unfold civil in *. f_equal. lia.
    + destruct U as (Iu & ->). exists c. split; [reflexivity|]. intros tzo d x Id.
      pose proof (instant_ops tzo _ _ _ _ _ Id Iu) as O. rewrite (gt_of_ops _ _ _ _ O). f_equal. lia.
  - apply instant_days in I as (V & D & _). destruct U as (Iu & ->). destruct (floating start) eqn:F.
    + eexists. split; [reflexivity|]. intros tzo d x Id. apply instant_days in Iu as (Vu & Du & ->).
      assert (Iu : instant Dates (offsetSeconds (setTimezoneID u zone) off) (hdn (mYear u) (mMonth u) (mDay u) - hdn 1970 1 1 + off / 86400)).
      { unfold offsetSeconds. pose proof (norm_days_instant (with_hms (setTimezoneID u zone) (mHours (setTimezoneID u zone)) (mMinutes (setTimezoneID u zone)) (mSeconds (setTimezoneID u zone) + off)) (valid_month u Vu) Du) as N.
        cbn [with_hms setTimezoneID changed with_tzoff with_posix with_tz mYear mMonth mDay] in N.
        pose proof (date_secs u Vu Du) as S0. unfold secs_of_day in *.
        cbn [with_hms setTimezoneID changed with_tzoff with_posix with_tz mYear mMonth mDay mHours mMinutes mSeconds] in *.
        replace ((mHours u * 60 + mMinutes u) * 60 + (mSeconds u + off)) with off in N by lia. exact N. }
      pose proof (instant_ops tzo _ _ _ _ _ Id Iu) as O. rewrite (gt_of_ops _ _ _ _ O). f_equal. lia.
    + eexists. split; [reflexivity|]. intros tzo d x Id.
      pose proof (instant_ops tzo _ _ _ _ _ Id Iu) as O. rewrite (gt_of_ops _ _ _ _ O). f_equal. lia.
Qed.
Lemma after_spec tzo sc range e b d x : snd (getEnd range) = Ok e -> instant sc e b -> instant sc d x ->
  isDateAfterPeriod tzo range d = Ok (b <=? x).
Proof.
  intros E Ie Id. unfold isDateAfterPeriod. rewrite E. cbn [rbind]. destruct (instant_ops tzo _ _ _ _ _ Id Ie) as (_ & _ & _ & H & _).
  rewrite H. f_equal. lia.
Qed.

(** What simpleExpand does when the instances of the rule are those with P. *)
Definition computes tzo sc r start range off b (P : Z -> Prop) : Prop :=
  exists recs full N,
    enumerates sc recs (fun x => P x /\ x < b) /\
    (full = true -> forall x, P x -> x < b) /\ (full = false -> exists x, P x /\ b <= x) /\
    (forall fuel max, (N <= fuel)%nat -> room max (List.length recs) ->
       simpleExpand tzo fuel r start range off max = Some (recs, Ok full)) /\
    (forall fuel m, (N <= fuel)%nat -> 1 <= m < Z.of_nat (List.length recs) ->
       exists part, simpleExpand tzo fuel r start range off (Some m) = Some (part, Raise TooManyInstancesError)).

(** ** Arithmetic progressions *)
Lemma progression tzo sc r start range e off a b s lim :
  sc <> Offsets -> 1 <= rInterval r -> step_units sc (rFreq r) = Some s -> instant sc start a ->
  snd (getEnd range) = Ok e -> instant sc e b -> until_at sc start off r lim ->
  computes tzo sc r start range off b (occurs r lim a (rInterval r * s)).
Proof.
  intros NO Hi S I E Ie U.
  set (v := fun k : nat => Nat.iter k (fun d => recur d (rFreq r) (rInterval r) true) start).
  set (st := rInterval r * s).
  assert (Hs : 0 < st).
  { unfold st. assert (0 < s) by (destruct sc, (rFreq r); cbn in S; try discriminate; injection S as <-; lia). lia. }
  assert (Iv : forall k, instant sc (v k) (a + Z.of_nat k * st)).
  { induction k as [|k IH]; [change (instant sc start (a + 0 * st)); replace (a + 0 * st) with a by lia; exact I|].
    replace (a + Z.of_nat (Datatypes.S k) * st) with (a + Z.of_nat k * st + rInterval r * s) by (unfold st; lia).
    apply recur_instant; auto. }
  destruct (until_zone (TzInt 0) sc start off r lim a NO I eq_refl U) as (fu & Ef & HfS & HfN).
  set (past := fun k : nat => match lim with Some c => c <? a + Z.of_nat k * st | None => false end).
  set (after := fun k : nat => b <=? a + Z.of_nat k * st).
  destruct (run_all tzo r range fu v 0 after past) with (K := Z.to_nat (b - a)) as (N & _ & StopN & Before & Run & RunM).
  - intros k n _. change (recur (v k) (rFreq r) (rInterval r) true) with (v (Datatypes.S k)). apply skip_valid. eapply instant_valid. apply Iv.
  - intro k. eapply after_spec; eauto.
  - intros u -> _ k. destruct (HfS u eq_refl) as (c & -> & H). rewrite (H tzo _ _ (Iv (Datatypes.S k))). reflexivity.
  - unfold after. nia.
  - exists (map v (seq 0 N)), (full_at r fu past N), (N + 1)%nat.
    assert (SL : forall k, stopl r fu past k = if rUseCount r then rCount r <=? Z.of_nat k else match lim with Some c => c <? a + Z.of_nat k * st | None => false end).
    { intro k. unfold stopl, past. destruct (rUseCount r); [reflexivity|]. destruct fu as [u|]; [reflexivity|].
      rewrite (HfN eq_refl). reflexivity. }
    split; [|split; [|split; [|split]]].
    + exists (map (fun k => a + Z.of_nat k * st) (seq 0 N)). split; [|split].
      * clear - Iv. induction (seq 0 N); cbn; constructor; auto.
      * clear - Hs. generalize 0%nat. induction N as [|N IH]; intro k; cbn; constructor; auto.
        apply Forall_forall. intros x Hx. apply in_map_iff in Hx as (j & <- & Hj). apply in_seq in Hj. nia.
      * intro x. rewrite in_map_iff. unfold occurs. fold st. split.
        -- intros (k & <- & Hk). apply in_seq in Hk. specialize (Before k ltac:(lia)). unfold stop, after in Before.
           split; [|lia]. exists (Z.of_nat k). split; [lia|]. split; [reflexivity|]. destruct k as [|k]; [left; reflexivity|right].
           cbn [Nat.ltb Nat.leb andb] in Before. rewrite SL in Before. clear - Before.
           split; intros H; rewrite H in Before; [lia|]. intros c ->. lia.
        -- intros ((k & Hk & -> & HL) & Hb). exists (Z.to_nat k). split; [lia|]. apply in_seq.
           destruct (Nat.lt_ge_cases (Z.to_nat k) N) as [L|G]; [lia|exfalso].
           unfold stop, after in StopN. assert (AN : (b <=? a + Z.of_nat N * st) = false) by nia. rewrite AN in StopN. cbn [orb] in StopN.
           destruct N as [|N]; [discriminate|]. cbn [Nat.ltb Nat.leb andb] in StopN. rewrite SL in StopN.
           destruct HL as [->|[H1 H2]]; [lia|]. destruct (rUseCount r); [specialize (H1 eq_refl); lia|].
           destruct lim as [c|]; [|discriminate]. specialize (H2 eq_refl c eq_refl). nia.
    + unfold occurs. fold st. intros F x (k & Hk & -> & HL). destruct N as [|N]; [discriminate|]. cbn [full_at] in F. rewrite SL in F.
        assert (Bl : forall j, (j < Datatypes.S N)%nat -> a + Z.of_nat j * st < b).
        { intros j Hj. specialize (Before j Hj). unfold stop, after in Before. lia. }
        destruct (Z.lt_ge_cases k (Z.of_nat (Datatypes.S N))) as [L|G].
        -- specialize (Bl (Z.to_nat k) ltac:(lia)). replace (Z.of_nat (Z.to_nat k)) with k in Bl by lia. exact Bl.
        -- exfalso. destruct HL as [->|[H1 H2]]; [lia|]. destruct (rUseCount r); [specialize (H1 eq_refl); lia|].
           destruct lim as [c|]; [|discriminate]. specialize (H2 eq_refl c eq_refl). nia.
    + intro F. unfold occurs; fold st.
        assert (AN : after N = true).
        { unfold stop in StopN. destruct (after N); [reflexivity|]. destruct N as [|N]; [discriminate|]. cbn [full_at] in F. rewrite F in StopN. discriminate. }
        unfold after in AN. exists (a + Z.of_nat N * st). split; [|lia].
        exists (Z.of_nat N). split; [lia|]. split; [reflexivity|]. destruct N as [|N]; [left; reflexivity|right].
        cbn [full_at] in F. rewrite SL in F. clear - F. split; intro H; rewrite H in F; [lia|]. intros c ->. lia.
    + intros fuel max Hf Hr. rewrite map_length, seq_length in Hr. unfold simpleExpand. rewrite Ef. apply Run; [lia|exact Hr].
    + intros fuel m Hf Hr. rewrite map_length, seq_length in Hr. unfold simpleExpand. rewrite Ef. apply RunM; [lia|exact Hr].
Qed.

(** ** Months and years *)
(** The number of months in 400 years. *)
Definition cyc : nat := Z.to_nat 4800.
Lemma cyc_eq : Z.of_nat cyc = 4800. Proof. reflexivity. Qed.
Opaque cyc.

Lemma Some_eq {A} (x y : A) : Some x = Some y -> x = y. Proof. congruence. Qed.
Definition on_scale (sc : scale) (d : dt) : Z :=
  match sc with InZone _ _ => civil d | _ => hdn (mYear d) (mMonth d) (mDay d) - hdn 1970 1 1 end.
Definition scaled (sc : scale) (d : dt) : Prop :=
  match sc with
  | InZone u t => mDateOnly d = false /\ mTZUTC d = u /\ mTZID d = t
  | Dates => mDateOnly d = true
  | Offsets => False
  end.
Lemma instant_iff sc d x : sc <> Offsets -> instant sc d x <-> valid_dt d /\ scaled sc d /\ x = on_scale sc d.
Proof.
  intro NO. destruct sc as [u t| |]; [| |congruence]; [rewrite instant_civil|rewrite instant_days]; cbn; tauto.
Qed.
Lemma months_scaled sc d m d' : months_later d m d' -> scaled sc d -> scaled sc d'.
Proof. intros (_ & _ & _ & D & U & T & _) S. destruct sc; cbn in *; [|congruence|exact S]. rewrite D, U, T. exact S. Qed.
Lemma months_lt sc d m m' e e' : sc <> Offsets -> months_later d m e -> months_later d m' e' -> valid_dt e -> valid_dt e' -> m < m' ->
  on_scale sc e < on_scale sc e'.
Proof.
  intros NO (A1 & A2 & A3 & _ & _ & _ & A4 & A5 & A6) (B1 & B2 & B3 & _ & _ & _ & B4 & B5 & B6) V V' L.
  assert (H : hdn (mYear e) (mMonth e) (mDay e) < hdn (mYear e') (mMonth e') (mDay e')).
  { apply dn_lt; [exact Lh_step|apply V|apply V'|]. lia. }
  destruct sc; cbn [on_scale]; [|lia|congruence]. unfold civil, secs_of_day. rewrite A1, A2, A3, B1, B2, B3. lia.
Qed.
Lemma months_refl d : 1 <= mMonth d <= 12 -> months_later d 0 d.
Proof. intro H. unfold months_later. repeat split; try reflexivity; lia. Qed.
Lemma recur_months r p d m e : step_months r = Some p -> months_later d m e ->
  months_later d (m + p) (recur e (rFreq r) (rInterval r) true).
Proof.
  unfold step_months. intros S (A1 & A2 & A3 & A4 & A5 & A6 & A7 & A8 & A9).
  destruct (rFreq r); try discriminate; apply Some_eq in S; subst p; cbn [recur negb]; unfold months_later, changed, with_tzoff, with_posix, with_ymd;
    cbn [mYear mMonth mDay mHours mMinutes mSeconds mDateOnly mTZUTC mTZID mTZOffset mPosixTimeCached mPosixTime];
    repeat split; auto; lia.
Qed.

Lemma month_has_valid d m e : valid_dt d -> months_later d m e -> valid_dt e <-> month_has (month_no d + m) (mDay d) = true.
Proof.
  intros V (A1 & A2 & A3 & A4 & A5 & A6 & A7 & A8 & A9). unfold month_has, month_no.
  replace ((12 * mYear d + mMonth d - 1 + m) / 12) with (mYear e) by lia.
  replace ((12 * mYear d + mMonth d - 1 + m) mod 12 + 1) with (mMonth e) by lia.
  destruct V as ((V1 & V2) & V3 & V4). unfold valid_dt, ymd, valid_date. rewrite A1, A2, A3, A4, A7. split.
  - intros ((_ & H) & _). lia.
  - intro H. split; [lia|]. split; [exact V3|]. unfold secs_of_day in *. rewrite A1, A2, A3. exact V4.
Qed.
Lemma invalid_months d m e : valid_dt d -> months_later d m e -> invalid e = Ok (negb (month_has (month_no d + m) (mDay d))).
Proof.
  intros V (A1 & A2 & A3 & A4 & A5 & A6 & A7 & A8 & A9). unfold invalid. rewrite daysInMonth_r_ok by exact A8.
  destruct V as ((V1 & V2) & V3 & V4). unfold month_has, month_no. rewrite A7.
  replace ((12 * mYear d + mMonth d - 1 + m) / 12) with (mYear e) by lia.
  replace ((12 * mYear d + mMonth d - 1 + m) mod 12 + 1) with (mMonth e) by lia.
  destruct (Z.leb_spec (mDay d) 0); [lia|]. cbn [rbind]. f_equal. lia.
Qed.
Lemma month_has_period n k d : 0 <= k -> d <= month_len greg_leap (n / 12) (n mod 12 + 1) -> month_has (n + 4800 * k) d = true.
Proof.
  intros Hk H. unfold month_has. replace ((n + 4800 * k) / 12) with (n / 12 + 400 * k) by lia. replace ((n + 4800 * k) mod 12) with (n mod 12) by lia.
  apply Z.leb_le. unfold month_len in *. destruct (n mod 12 + 1 =? 2); [|exact H].
  assert (L : greg_leap (n / 12) = true -> hist_leap (n / 12 + 400 * k) = true).
  { unfold hist_leap, greg_leap. generalize (n / 12); intro y. intro G. repeat match goal with H : context [if ?c then _ else _] |- _ => destruct c eqn:? end;
      repeat match goal with |- context [if ?c then _ else _] => destruct c eqn:? end; try discriminate; lia. }
  destruct (greg_leap (n / 12)); [rewrite L by reflexivity; exact H|]. destruct (hist_leap (n / 12 + 400 * k)); lia.
Qed.

(** The existing candidates, in order. *)
Section Next.
Variable ok : nat -> bool.
Fixpoint nxt (n j : nat) : nat := if ok j then j else match n with O => j | S n => nxt n (S j) end.
Lemma nxt_spec : forall n j j', (j <= j' <= j + n)%nat -> ok j' = true ->
  ok (nxt n j) = true /\ (j <= nxt n j)%nat /\ (forall i, (j <= i < nxt n j)%nat -> ok i = false).
Proof.
  induction n as [|n IH]; intros j j' Hj E; cbn [nxt].
  - replace j' with j in E by lia. rewrite E. repeat split; auto; lia.
  - destruct (ok j) eqn:Ej; [repeat split; auto; lia|].
    destruct (IH (S j) j') as (A & B & C); auto. { assert (j' <> j) by congruence. lia. }
    repeat split; auto; [lia|]. intros i Hi. destruct (Nat.eq_dec i j) as [->|]; [exact Ej|]. apply C. lia.
Qed.
Variable B : nat.
Hypothesis H0 : ok O = true.
Hypothesis Hex : forall j, exists j', (j <= j' <= j + B)%nat /\ ok j' = true.
Fixpoint idx (k : nat) : nat := match k with O => O | S k => nxt B (S (idx k)) end.
Lemma idx_ok k : ok (idx k) = true.
Proof. destruct k; [exact H0|]. cbn. destruct (Hex (S (idx k))) as (j' & Hj & E). eapply nxt_spec; eauto. Qed.
Lemma idx_step k : (idx k < idx (S k))%nat /\ forall i, (idx k < i < idx (S k))%nat -> ok i = false.
Proof.
  cbn [idx]. destruct (Hex (S (idx k))) as (j' & Hj & E). destruct (nxt_spec B (S (idx k)) j' Hj E) as (_ & L & F).
  split; [lia|]. intros i Hi. apply F. lia.
Qed.
Lemma idx_mono k l : (k < l)%nat -> (idx k < idx l)%nat.
Proof. induction 1 as [|l Hl IH]; [apply idx_step|]. pose proof (idx_step l). lia. Qed.
Lemma idx_ge k : (k <= idx k)%nat.
Proof. induction k as [|k IH]; [lia|]. pose proof (idx_step k). lia. Qed.
Lemma idx_surj j : ok j = true -> exists k, idx k = j.
Proof.
  intro E. assert (X : forall n, (j < idx n)%nat -> exists k, idx k = j).
  { induction n as [|n IH]; [cbn; lia|]. intro L. destruct (Nat.lt_total j (idx n)) as [C|[C|C]]; [auto|eauto|].
    destruct (idx_step n) as [_ F]. rewrite F in E by lia. discriminate. }
  apply (X (S j)). pose proof (idx_ge (S j)). lia.
Qed.
Lemma filter_none l : (forall i, In i l -> ok i = false) -> filter ok l = [].
Proof. induction l as [|i l IH]; intro H; [reflexivity|]. cbn. rewrite (H i) by (left; reflexivity). apply IH. intros; apply H; right; auto. Qed.
Lemma idx_count k : List.length (filter ok (seq 0 (idx k))) = k.
Proof.
  induction k as [|k IH]; [reflexivity|]. destruct (idx_step k) as [L F].
  assert (Sq : seq 0 (idx (S k)) = seq 0 (idx k) ++ idx k :: seq (S (idx k)) (idx (S k) - S (idx k))).
  { replace (idx (S k)) with (idx k + S (idx (S k) - S (idx k)))%nat at 1 by lia. rewrite seq_app. reflexivity. }
  rewrite Sq, filter_app, app_length, IH. cbn [filter]. rewrite idx_ok. cbn [List.length].
  rewrite filter_none; [cbn; lia|]. intros i Hi. apply in_seq in Hi. apply F. lia.
Qed.
End Next.

Section Months.
Variables (r : rule) (p : Z) (start : dt).
Hypothesis Hp : step_months r = Some p.
Hypothesis Hi : 1 <= rInterval r.
Hypothesis V : valid_dt start.
Hypothesis G : valid_date greg_leap (ymd start).
Definition cand (j : nat) : dt := Nat.iter j (fun d => recur d (rFreq r) (rInterval r) true) start.
Definition okm (j : nat) : bool := month_has (month_no start + Z.of_nat j * p) (mDay start).
Lemma p_pos : 0 < p.
Proof. unfold step_months in Hp. destruct (rFreq r); try discriminate; apply Some_eq in Hp; lia. Qed.
Lemma cand_months j : months_later start (Z.of_nat j * p) (cand j).
Proof.
  induction j as [|j IH].
  - change (months_later start (0 * p) start). replace (0 * p) with 0 by lia. apply months_refl. apply valid_month. exact V.
  - replace (Z.of_nat (S j) * p) with (Z.of_nat j * p + p) by lia. apply (recur_months r p); auto.
Qed.
Lemma okm_valid j : valid_dt (cand j) <-> okm j = true.
Proof. apply month_has_valid; [exact V|]. apply cand_months. Qed.
Lemma okm_0 : okm 0 = true.
Proof. apply okm_valid. exact V. Qed.
Lemma okm_ex j : exists j', (j <= j' <= j + cyc)%nat /\ okm j' = true.
Proof.
  pose proof p_pos. pose proof cyc_eq as Cy. exists (Z.to_nat (4800 * (Z.of_nat j / 4800 + 1))). split.
  - lia.
  - unfold okm. replace (Z.of_nat (Z.to_nat (4800 * (Z.of_nat j / 4800 + 1))) * p) with (4800 * ((Z.of_nat j / 4800 + 1) * p)) by lia.
    apply month_has_period; [nia|]. destruct G as (_ & Gd). pose proof (valid_month start V). unfold month_no.
    replace ((12 * mYear start + mMonth start - 1) / 12) with (mYear start) by lia.
    replace ((12 * mYear start + mMonth start - 1) mod 12 + 1) with (mMonth start) by lia. lia.
Qed.
Lemma skip_nxt : forall n j m, okm (nxt okm n j) = true -> (n <= m)%nat ->
  skip_invalid m (rFreq r) (rInterval r) (cand j) = Some (Ok (cand (nxt okm n j))).
Proof.
  assert (Inv : forall j, invalid (cand j) = Ok (negb (okm j))) by (intro j; apply invalid_months; [exact V|apply cand_months]).
  induction n as [|n IH]; intros j m E Hm.
  - cbn in *. destruct (okm j) eqn:Ej; [|congruence]. destruct m; cbn; rewrite Inv, Ej; reflexivity.
  - destruct m as [|m]; [lia|]. cbn [nxt] in *. cbn [skip_invalid]. rewrite Inv. destruct (okm j) eqn:Ej; cbn [negb]; [reflexivity|].
    apply (IH (S j)); [exact E|lia].
Qed.
End Months.

Lemma progression_months tzo sc r start range e off a b p lim :
  sc <> Offsets -> 1 <= rInterval r -> step_months r = Some p -> instant sc start a -> valid_date greg_leap (ymd start) ->
  snd (getEnd range) = Ok e -> instant sc e b -> until_at sc start off r lim ->
  computes tzo sc r start range off b (occurs_months sc r lim start p).
Proof.
  intros NO Hi S I G E Ie U. pose proof (instant_valid _ _ _ I) as V.
  set (ok := okm p start). set (c := cand r start). set (ix := idx ok cyc). set (v := fun k => c (ix k)).
  assert (H0 : ok O = true) by (apply (okm_0 r); auto).
  assert (Hex : forall j, exists j', (j <= j' <= j + cyc)%nat /\ ok j' = true) by (apply (okm_ex r p start); auto).
  assert (Cm : forall j, months_later start (Z.of_nat j * p) (c j)) by (intro j; apply (cand_months r p start); auto).
  assert (Cv : forall j, valid_dt (c j) <-> ok j = true) by (intro j; apply (okm_valid r p start); auto).
  assert (P : 0 < p) by (eapply p_pos; eauto).
  assert (Ss : scaled sc start) by (apply instant_iff in I; tauto).
  set (x := fun k => on_scale sc (v k)).
  assert (Vv : forall k, valid_dt (v k)) by (intro k; apply Cv; apply idx_ok; auto).
  assert (Iv : forall k, instant sc (v k) (x k)).
  { intro k. apply instant_iff; [exact NO|]. split; [apply Vv|]. split; [|reflexivity]. eapply months_scaled; [apply Cm|exact Ss]. }
  assert (Xm : forall k l, (k < l)%nat -> x k < x l).
  { intros k l L. unfold x, v. eapply months_lt; eauto; try apply Cm; try apply Vv.
    pose proof (idx_mono ok cyc Hex k l L). fold ix in H. nia. }
  assert (Xg : forall k, a + Z.of_nat k <= x k).
  { induction k as [|k IH].
    - unfold x, v. change (ix 0%nat) with 0%nat. change (c 0%nat) with start. apply instant_iff in I as (_ & _ & ->); [lia|auto].
    - specialize (Xm k (Datatypes.S k) ltac:(lia)). lia. }
  destruct (until_zone (TzInt 0) sc start off r lim a NO I eq_refl U) as (fu & Ef & HfS & HfN).
  set (past := fun k : nat => match lim with Some c => c <? x k | None => false end).
  set (after := fun k : nat => b <=? x k).
  destruct (run_all tzo r range fu v cyc after past) with (K := Z.to_nat (b - a)) as (N & _ & StopN & Before & Run & RunM).
  - intros k n Hn. change (recur (v k) (rFreq r) (rInterval r) true) with (c (Datatypes.S (ix k))).
    unfold v, ix. cbn [idx]. apply (skip_nxt r p start); auto. apply (idx_ok ok cyc H0 Hex (Datatypes.S k)).
  - intro k. eapply after_spec; eauto.
  - intros u -> _ k. destruct (HfS u eq_refl) as (cc & -> & H). rewrite (H tzo _ _ (Iv (Datatypes.S k))). reflexivity.
  - unfold after. pose proof (Xg (Z.to_nat (b - a))). lia.
  - exists (map v (seq 0 N)), (full_at r fu past N), (cyc + N + 1)%nat.
    assert (SL : forall k, stopl r fu past k = if rUseCount r then rCount r <=? Z.of_nat k else match lim with Some c => c <? x k | None => false end).
    { intro k. unfold stopl, past. destruct (rUseCount r); [reflexivity|]. destruct fu as [u|]; [reflexivity|].
      rewrite (HfN eq_refl). reflexivity. }
    assert (KB : forall k, kept_before start p (ix k) = k) by (intro k; apply (idx_count ok cyc H0 Hex)).
    assert (Occ : forall y, occurs_months sc r lim start p y <-> exists k, y = x k /\
       (k = O \/ ((rUseCount r = true -> Z.of_nat k < rCount r) /\ (rUseCount r = false -> forall c, lim = Some c -> x k <= c)))).
    { intro y. unfold occurs_months. split.
      - intros (j & d & Hl & Id & HL). assert (Ok' : ok j = true).
        { apply (month_has_valid start _ d V Hl). eapply instant_valid; eauto. }
        destruct (idx_surj ok cyc Hex j Ok') as (k & <-). fold ix in Hl, HL. exists k.
        assert (y = x k).
        { apply instant_iff in Id as (Vd & _ & ->); [|exact NO]. clear - Hl Cm. specialize (Cm (ix k)). unfold x, v.
          destruct Hl as (A1 & A2 & A3 & _ & _ & _ & A4 & A5 & A6), Cm as (B1 & B2 & B3 & _ & _ & _ & B4 & B5 & B6).
          unfold on_scale, civil, secs_of_day. rewrite A1, A2, A3, A4, B1, B2, B3, B4.
          replace (mYear d) with (mYear (c (ix k))) by lia. replace (mMonth d) with (mMonth (c (ix k))) by lia. reflexivity. }
        subst y. split; [reflexivity|]. rewrite KB in HL. destruct HL as [Z0|HL]; [left|right; exact HL].
        destruct k as [|k]; [reflexivity|]. pose proof (idx_mono ok cyc Hex 0 (Datatypes.S k) ltac:(lia)). fold ix in H. lia.
      - intros (k & -> & HL). exists (ix k), (v k). rewrite KB. repeat split; auto; try apply Cm; try apply Iv.
        destruct HL as [->|HL]; [left; reflexivity|right; exact HL]. }
    split; [|split; [|split; [|split]]].
    + exists (map x (seq 0 N)). split; [|split].
      * clear - Iv. induction (seq 0 N); cbn; constructor; auto.
      * clear - Xm. generalize 0%nat. induction N as [|N IH]; intro k; cbn; constructor; auto.
        apply Forall_forall. intros y Hy. apply in_map_iff in Hy as (j & <- & Hj). apply in_seq in Hj. apply Xm. lia.
      * intro y. rewrite in_map_iff, Occ. split.
        -- intros (k & <- & Hk). apply in_seq in Hk. specialize (Before k ltac:(lia)). unfold stop, after in Before.
           split; [|lia]. exists k. split; [reflexivity|]. destruct k as [|k]; [left; reflexivity|right].
           cbn [Nat.ltb Nat.leb andb] in Before. rewrite SL in Before. clear - Before.
           split; intros H; rewrite H in Before; [lia|]. intros cc ->. lia.
        -- intros ((k & -> & HL) & Hb). exists k. split; [reflexivity|]. apply in_seq.
           destruct (Nat.lt_ge_cases k N) as [L|Ge]; [lia|exfalso].
           assert (XN : x N <= x k) by (destruct (Nat.eq_dec N k) as [->|]; [lia|]; specialize (Xm N k ltac:(lia)); lia).
           unfold stop, after in StopN. assert (AN : (b <=? x N) = false) by lia. rewrite AN in StopN. cbn [orb] in StopN.
           destruct N as [|N]; [discriminate|]. cbn [Nat.ltb Nat.leb andb] in StopN. rewrite SL in StopN.
           destruct HL as [->|[H1 H2]]; [lia|]. destruct (rUseCount r); [specialize (H1 eq_refl); lia|].
           destruct lim as [cc|]; [|discriminate]. specialize (H2 eq_refl cc eq_refl). lia.
    + intros F y Oy. apply Occ in Oy as (k & -> & HL). destruct N as [|N]; [discriminate|]. cbn [full_at] in F. rewrite SL in F.
        destruct (Nat.lt_ge_cases k (Datatypes.S N)) as [L|Ge].
        -- specialize (Before k L). unfold stop, after in Before. lia.
        -- exfalso. assert (XN : x (Datatypes.S N) <= x k) by (destruct (Nat.eq_dec (Datatypes.S N) k) as [->|]; [lia|]; specialize (Xm (Datatypes.S N) k ltac:(lia)); lia).
           destruct HL as [->|[H1 H2]]; [lia|]. destruct (rUseCount r); [specialize (H1 eq_refl); lia|].
           destruct lim as [cc|]; [|discriminate]. specialize (H2 eq_refl cc eq_refl). lia.
    + intro F.
        assert (AN : after N = true).
        { unfold stop in StopN. destruct (after N); [reflexivity|]. destruct N as [|N]; [discriminate|]. cbn [full_at] in F. rewrite F in StopN. discriminate. }
        unfold after in AN. exists (x N). split; [|lia]. apply Occ.
        exists N. split; [reflexivity|]. destruct N as [|N]; [left; reflexivity|right].
        cbn [full_at] in F. rewrite SL in F. clear - F. split; intro H; rewrite H in F; [lia|]. intros cc ->. lia.
    + intros fuel max Hf Hr. rewrite map_length, seq_length in Hr. unfold simpleExpand. rewrite Ef. apply Run; [lia|exact Hr].
    + intros fuel m Hf Hr. rewrite map_length, seq_length in Hr. unfold simpleExpand. rewrite Ef. apply RunM; [lia|exact Hr].
Qed.

(** Both kinds. *)
Lemma simple_spec tzo sc r start range e off a b lim :
  sc <> Offsets -> advances sc r start -> instant sc start a ->
  snd (getEnd range) = Ok e -> instant sc e b -> until_at sc start off r lim ->
  computes tzo sc r start range off b (instances sc r lim start).
Proof.
  intros NO (Hi & Ad) I E Ie U. unfold instances. destruct (step_months r) as [p|] eqn:Sm.
  - eapply progression_months; eauto.
  - destruct (step_units sc (rFreq r)) as [s|] eqn:Su; [|congruence].
    destruct (progression tzo sc r start range e off a b s lim NO Hi Su I E Ie U) as (recs & full & N & En & F1 & F2 & R1 & R2).
    exists recs, full, N. split; [|split; [|split; [|split; assumption]]].
    + destruct En as (xs & A & B & C). exists xs. split; [exact A|]. split; [exact B|]. intro x. rewrite C. split.
      * intros (O & L). split; [|exact L]. exists a, s. auto.
      * intros ((a' & s' & Ia & Es & O) & L). split; [|exact L]. injection Es as <-.
        apply instant_iff in I as (_ & _ & ->); [|exact NO]. apply instant_iff in Ia as (_ & _ & ->); [|exact NO]. exact O.
    + intros H x (a' & s' & Ia & Es & O). apply F1; [exact H|]. injection Es as <-.
      apply instant_iff in I as (_ & _ & ->); [|exact NO]. apply instant_iff in Ia as (_ & _ & ->); [|exact NO]. exact O.
    + intros H. destruct (F2 H) as (x & O & L). exists x. split; [|exact L]. exists a, s. auto.
Qed.
