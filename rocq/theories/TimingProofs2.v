(** Proofs about the expansion of a calendar. *)
From Coq Require Import Lia ZifyBool ZifyNat Sorting.Permutation Sorting.Sorted.
From Verif Require Import PyBase PyProofs CalModel CalSpec DateTimeModel DateTimeSpec DateTimeSpec2 DateTimeOps CalProofs DateTimeProofs
  DateTimeProofs4 DateTimeOpsProofs DurationModel DurationProofs PeriodModel PeriodSpec PeriodProofs RecurModel RecurExpand RecurExpandSpec RecurSortProofs
  RecurSetModel RecurUnionSpec RecurUnionProofs TimingModel TimingSpec TimingProofs CalendarSpec.
From Verif Require PropertyProofs3.
Ltac Zify.zify_post_hook ::= Z.div_mod_to_equations.

Section WithTz.
Variable tzo : tzid -> Z -> Z -> Z -> Z -> Z -> Z -> bool -> bool -> Z.

(** ** One component that does not recur *)
Lemma single_within sc order fuel t range a e w b : isRecurring t = false -> instant sc (tStart t) a -> instant sc (tEnd t) e -> instant sc (pStart range) w ->
  (exists d, snd (getEnd range) = Ok d /\ instant sc d b) -> withinPeriod tzo order fuel t range = Some (t, Ok ((w <? e) && (a <? b))).
Proof.
  intros R Ia Ie Iw (d & Ed & Id). destruct (instant_ops tzo sc _ _ _ _ Ie Iw) as (_ & L & _). destruct (instant_ops tzo sc _ _ _ _ Ia Id) as (_ & _ & _ & G & _).
  assert (W : (do a <- dt_le tzo (tEnd t) (pStart range); if a then Ok false else do e <- snd (getEnd range); do b <- dt_ge tzo (tStart t) e; Ok (negb b)) = Ok ((w <? e) && (a <? b))).
  { rewrite L. cbn [rbind]. destruct (Z.leb_spec 0 (w - e)); [f_equal; lia|]. rewrite Ed. cbn [rbind]. rewrite G. cbn [rbind]. f_equal. lia. }
  unfold withinPeriod. unfold isRecurring in R. destruct (tSet t); [rewrite R|]; rewrite W; reflexivity.
Qed.
Lemma single_expand sc order fuel i t p range a e w b : isRecurring t = false -> (tHasRid t = true -> tRid t <> None) ->
  instant sc (tStart t) a -> instant sc (tEnd t) e -> instant sc (pStart range) w -> (exists d, snd (getEnd range) = Ok d /\ instant sc d b) ->
  expandPeriod tzo order fuel i t p range = Some (t, (if (w <? e) && (a <? b) then [mkExpanded i (tStart t) (tEnd t) (tHasRid t)] else [], Ok tt)).
Proof.
  intros R Hr Ia Ie Iw Id. unfold expandPeriod. rewrite R. cbn [andb]. rewrite (single_within sc order fuel t range a e w b R Ia Ie Iw Id).
  assert (E : expand_owner tzo i t (if tHasRid t then tRid t else None) = Ok (mkExpanded i (tStart t) (tEnd t) (tHasRid t))).
  { unfold expand_owner. destruct (tHasRid t) eqn:H; [|reflexivity]. destruct (tRid t) as [d|]; [|destruct (Hr eq_refl eq_refl)].
    cbn [negb]. rewrite eq_refl'. reflexivity. }
  rewrite E. destruct (tSet t); destruct ((w <? e) && (a <? b)); reflexivity.
Qed.

Lemma gives_ok order range overrides i t P : permutes order -> event_gives tzo order range overrides i t P ->
  exists N, forall fuel, (N <= fuel)%nat -> exists t' xs, expandPeriod tzo order fuel i t (InCalendar overrides) range = Some (t', (xs, Ok tt)) /\
    P xs /\ same_event t t' /\ Forall (fun x => (xOwner x = i /\ 1 <= mMonth (xStart x) <= 12) /\ 1 <= mMonth (xEnd x) <= 12) xs.
Proof.
  intros Ord G. destruct G as [sc s a w b n Es Hs Hr R C Ov He|sc a e w b R Hr Ia Ie Iw Id].
  - destruct (recurring tzo sc i t s range a w b order overrides n Ord Es Hs Hr R C Ov He) as (N & HN). exists N. intros fuel Hf.
    destruct (HN fuel Hf) as (t' & xs & E & Q & F & S & _). exists t', xs. split; [exact E|]. split; [split; assumption|]. split; [exact S|].
    destruct Q as (ys & F2 & _). clear - F F2. revert ys F2. induction F as [|x xs (O & _ & H) F IH]; intros ys F2; [constructor|].
    inversion F2 as [|? y ? ys' I F3]; subst. constructor; [|apply (IH ys' F3)]. split; [split; [reflexivity|apply valid_month, I]|].
    apply valid_month. apply (H y I).
  - exists O. intros fuel _. exists t. eexists. split; [apply (single_expand sc order fuel i t _ range a e w b); assumption|].
    split; [reflexivity|]. split; [unfold same_event; repeat split; destruct (tSet t); auto; repeat split|].
    destruct ((w <? e) && (a <? b)); constructor; [|constructor]. cbn. repeat split; apply valid_month; first [apply Ia | apply Ie].
Qed.

(** ** The sort *)
Definition never_less {A} (cmp : A -> A -> res Z) (l : list A) : Prop := forall x y, In x l -> In y l -> exists z, cmp x y = Ok z /\ 0 <= z.
Lemma sort_none {A} (cmp : A -> A -> res Z) l : forall before, never_less cmp (before ++ l) -> sort_cmp cmp before l = Ok (rev before ++ l).
Proof.
  induction l as [|x l IH]; intros before H; cbn [sort_cmp]; [rewrite app_nil_r; reflexivity|].
  assert (M : move_left cmp x before = Ok (x :: before)).
  { destruct before as [|y r]; [reflexivity|]. cbn [move_left]. destruct (H x y) as (z & -> & P); [apply in_or_app; right; left; reflexivity|left; reflexivity|].
    cbn [rbind]. destruct (Z.ltb_spec z 0); [lia|reflexivity]. }
  rewrite M. cbn [rbind]. rewrite IH; [cbn [rev]; rewrite <- app_assoc; reflexivity|].
  intros u v Hu Hv. apply H; cbn in *; rewrite in_app_iff in *; cbn; tauto.
Qed.
Definition month_ok (d : dt) : Prop := 1 <= mMonth d <= 12.
Lemma ops_ok d e : month_ok d -> month_ok e ->
  (exists b, dt_lt tzo d e = Ok b) /\ (exists b, dt_gt tzo d e = Ok b) /\ (exists b, dt_eq tzo d e = Ok b).
Proof.
  intros A B. destruct (cmp_antisym tzo d e A B) as (c & C & _). unfold dt_lt, dt_gt, dt_eq. rewrite C. cbn. split; [|split]; eexists; reflexivity.
Qed.
Lemma cmps_ok tim l : Forall (fun x => month_ok (xStart x) /\ month_ok (xEnd x) /\ month_ok (tStamp (tim (xOwner x)))) l ->
  forall allday : bool, never_less (if allday then cmp_allday tzo tim else cmp_start tzo) l.
Proof.
  rewrite Forall_forall. intros F allday x y Hx Hy. destruct (F x Hx) as (A & B & C), (F y Hy) as (A' & B' & C').
  destruct (ops_ok _ _ A A') as ((s1 & S1) & _ & (s2 & S2)). destruct (ops_ok _ _ B B') as (_ & (e1 & E1) & (e2 & E2)).
  destruct (ops_ok _ _ C C') as ((p1 & P1) & _). destruct allday.
  - unfold cmp_allday. rewrite S1, S2, E1, E2, P1. cbn [rbind].
    destruct (mDateOnly (xStart x)), (mDateOnly (xStart y)); cbn [andb]; destruct s1, s2, e1, e2, p1; cbn; (eexists; split; [reflexivity|lia]).
  - unfold cmp_start. rewrite S1, S2. cbn [rbind].
    destruct (mDateOnly (xStart x)), (mDateOnly (xStart y)); cbn [andb negb orb]; destruct s1, s2; cbn; (eexists; split; [reflexivity|lia]).
Qed.

(** ** All components *)
Definition like (t t' : timing) : Prop := tRid t' = tRid t /\ tFuture t' = tFuture t /\ tPrior t' = tPrior t.
Lemma like_overrides (f g : nat -> timing) l : (forall j, like (f j) (g j)) ->
  (forall sc x, replaced sc (map (fun j => (j, g j)) l) x <-> replaced sc (map (fun j => (j, f j)) l) x) /\
  (forall sc z, overrides_ok tzo sc z (map (fun j => (j, f j)) l) -> overrides_ok tzo sc z (map (fun j => (j, g j)) l)).
Proof.
  intro L. split.
  - intros sc x. unfold replaced. split; intros (o & d & I & E & X); apply in_map_iff in I as (j & <- & I); cbn [snd] in E.
    + exists (j, f j), d. split; [apply in_map_iff; eauto|]. cbn [snd]. destruct (L j) as (R & _). rewrite <- R. auto.
    + exists (j, g j), d. split; [apply in_map_iff; eauto|]. cbn [snd]. destruct (L j) as (R & _). rewrite R. auto.
  - intros sc z (F & A & B). split; [|split].
    + rewrite Forall_map in *. eapply Forall_impl; [|exact F]. cbn [snd]. intros j (d & E & D). exists d. destruct (L j) as (R & _). rewrite R. auto.
    + replace (List.length (filter (fun o => tPrior (snd o)) (map (fun j => (j, g j)) l))) with (List.length (filter (fun o => tPrior (snd o)) (map (fun j => (j, f j)) l))); [exact A|].
      clear F A B. induction l as [|j l IH]; [reflexivity|]. cbn [map filter snd]. destruct (L j) as (_ & _ & R). rewrite R. destruct (tPrior (f j)); cbn [List.length]; congruence.
    + replace (List.length (filter (fun o => tFuture (snd o)) (map (fun j => (j, g j)) l))) with (List.length (filter (fun o => tFuture (snd o)) (map (fun j => (j, f j)) l))); [exact B|].
      clear F A B. induction l as [|j l IH]; [reflexivity|]. cbn [map filter snd]. destruct (L j) as (_ & R & _). rewrite R. destruct (tFuture (f j)); cbn [List.length]; congruence.
Qed.
Lemma gives_like (f g : nat -> timing) l order range i t P : (forall j, like (f j) (g j)) ->
  event_gives tzo order range (map (fun j => (j, f j)) l) i t P -> exists Q, event_gives tzo order range (map (fun j => (j, g j)) l) i t Q /\ forall xs, Q xs -> P xs.
Proof.
  intros L G. destruct (like_overrides f g l L) as [O K]. destruct G as [sc s a w b n Es Hs Hr R C Ov He|sc a e w b R Hr Ia Ie Iw Id].
  - eexists. split; [eapply gives_instances with (n := n); eauto|]. cbv beta. intros xs [(ys & F & N & M) A]. split; [|exact A]. exists ys. split; [exact F|].
    split; [exact N|]. intro x. rewrite M, O. reflexivity.
  - eexists. split; [eapply gives_itself; eauto|]. auto.
Qed.

Lemma each_ok order range c linked : permutes order -> forall l tim, NoDup l -> (forall i, In i l -> linked i = true /\ is_recur (cKind (heap c i)) = true) ->
  forall P : nat -> list expanded -> Prop, (forall i, In i l -> exists Q, event_gives tzo order range (overrides_of c tim i) i (tim i) Q /\ forall xs, Q xs -> P i xs) ->
  exists N, forall fuel, (N <= fuel)%nat -> exists tim' lists, expand_each tzo order fuel linked range c tim l = Some (tim', (List.concat lists, Ok tt)) /\
    Forall2 P l lists /\ (forall j, ~ In j l -> tim' j = tim j) /\ (forall j, same_event (tim j) (tim' j) /\ tStamp (tim' j) = tStamp (tim j)) /\
    Forall (fun x => (In (xOwner x) l /\ month_ok (xStart x)) /\ month_ok (xEnd x)) (List.concat lists).
Proof.
  intro Ord. assert (Refl : forall t, same_event t t) by (intro t; unfold same_event; repeat split; destruct (tSet t); auto; repeat split).
  induction l as [|i l IH]; intros tim Nd Lk P G.
  - exists O. intros fuel _. exists tim, []. split; [reflexivity|]. split; [constructor|]. split; [auto|]. split; [auto|constructor].
  - inversion Nd as [|? ? Ni Nd']; subst. destruct (G i (or_introl eq_refl)) as (Qi & Gi & QPi).
    destruct (gives_ok order range _ i (tim i) Qi Ord Gi) as (N1 & H1).
    (* the timing afterwards does not depend on the fuel *)
    destruct (H1 N1 (le_n _)) as (t1 & xs1 & E1 & P1 & S1 & M1).
    assert (D : forall fuel, (N1 <= fuel)%nat -> exists t2 xs2, expandPeriod tzo order fuel i (tim i) (InCalendar (overrides_of c tim i)) range = Some (t2, (xs2, Ok tt)) /\ t2 = t1 /\ xs2 = xs1).
    { intros fuel Hf. destruct (H1 fuel Hf) as (t2 & xs2 & E2 & _). exists t2, xs2. split; [exact E2|].
      cut (expandPeriod tzo order fuel i (tim i) (InCalendar (overrides_of c tim i)) range = Some (t1, (xs1, Ok tt))); [intro E; rewrite E in E2; injection E2; auto|].
      clear - E1 Hf. revert E1. unfold expandPeriod, withinPeriod. destruct (tSet (tim i)) as [s|]; [|auto].
      destruct (isRecurring (tim i) && negb (tHasRid (tim i))).
      - destruct (rset_expand tzo order N1 s (tStart (tim i)) range 0 None) as [z|] eqn:E; [|discriminate]. rewrite (rset_more tzo order N1 fuel _ _ _ _ _ _ Hf E). auto.
      - destruct (hasRecurrence s); [|auto].
        destruct (rset_expand tzo order N1 s (tStart (tim i)) range 0 None) as [z|] eqn:E; [|discriminate]. rewrite (rset_more tzo order N1 fuel _ _ _ _ _ _ Hf E). auto. }
    set (tim1 := fun j => if Nat.eqb j i then t1 else tim j).
    assert (St : tStamp t1 = tStamp (tim i)).
    { clear - E1. revert E1. unfold expandPeriod, withinPeriod. destruct (tSet (tim i)) as [s|].
      - destruct (isRecurring (tim i) && negb (tHasRid (tim i))).
        + destruct (rset_expand tzo order N1 s (tStart (tim i)) range 0 None) as [[z [z1 [z2|]]]|]; [| |discriminate]; intro E; injection E as <- _; reflexivity.
        + destruct (hasRecurrence s).
          * destruct (rset_expand tzo order N1 s (tStart (tim i)) range 0 None) as [[z [z1 z2]]|]; [|discriminate]. intro E; injection E as <- _; reflexivity.
          * intro E; injection E as <- _; reflexivity.
      - intro E; injection E as <- _; reflexivity. }
    assert (L1 : forall j, same_event (tim j) (tim1 j) /\ tStamp (tim1 j) = tStamp (tim j)).
    { intro j. unfold tim1. destruct (Nat.eqb_spec j i) as [->|]; auto. }
    assert (L2 : forall j, like (tim j) (tim1 j)). { intro j. destruct (L1 j) as [(_ & _ & _ & _ & _ & _ & A & B & C & _) _]. split; [|split]; assumption. }
    destruct (IH tim1 Nd' (fun j H => Lk j (or_intror H)) P) as (N2 & H2).
    { intros j Hj. assert (Ne : j <> i) by congruence. destruct (G j (or_intror Hj)) as (Qj & Gj & QPj).
      destruct (gives_like tim tim1 _ order range j (tim j) Qj L2 Gj) as (Q & GQ & QP).
      replace (tim1 j) with (tim j) by (unfold tim1; destruct (Nat.eqb_spec j i); congruence). exists Q. split; [exact GQ|auto]. }
    exists (Nat.max N1 N2). intros fuel Hf. destruct (D fuel ltac:(lia)) as (t2 & xs2 & E & -> & ->). destruct (H2 fuel ltac:(lia)) as (tim' & lists & E' & F2 & K & L' & M').
    exists tim', (xs1 :: lists). split; [|split; [|split; [|split]]].
    + cbn [expand_each]. rewrite (proj1 (Lk i (or_introl eq_refl))), (proj2 (Lk i (or_introl eq_refl))), E. cbn [negb]. fold tim1. rewrite E'. reflexivity.
    + constructor; [apply QPi, P1|exact F2].
    + intros j Hj. rewrite K by (intro; apply Hj; right; assumption). unfold tim1. destruct (Nat.eqb_spec j i) as [->|]; [destruct Hj; left; reflexivity|reflexivity].
    + intro j. destruct (L1 j) as [A1 A2], (L' j) as [B1 B2]. split; [|congruence]. clear - A1 B1. unfold same_event in *.
      destruct (tSet (tim j)), (tSet (tim1 j)), (tSet (tim' j)); try tauto; intuition congruence.
    + cbn [List.concat]. apply Forall_app. split.
      * eapply Forall_impl; [|exact M1]. cbv beta. intros x ((O & A) & B). split; [split; [left; congruence|exact A]|exact B].
      * eapply Forall_impl; [|exact M']. cbv beta. intros x ((O & A) & B). split; [split; [right; exact O|exact A]|exact B].
Qed.

Lemma calendar_ok order range c linked tim allday (P : nat -> list expanded -> Prop) : permutes order -> CalendarSpec.coherent c -> NoDup (held c) ->
  (forall i, In i (held c) -> cKind (heap c i) = VEVENT -> linked i = true /\ 1 <= mMonth (tStamp (tim i)) <= 12 /\ event_gives tzo order range (overriding c tim i) i (tim i) (P i)) ->
  (forall i, In i (held c) -> upper_type (heap c i) = lit "VEVENT" -> cKind (heap c i) = VEVENT) ->
  exists N, forall fuel, (N <= fuel)%nat -> exists tim' lists,
    getVEvents tzo order fuel linked range allday c tim = Some (tim', Ok (List.concat lists)) /\
    Forall2 P (filter (fun i => match cKind (heap c i) with VEVENT => true | _ => false end) (held c)) lists /\
    forall j, same_event (tim j) (tim' j).
Proof.
  intros Ord [_ Co] Nd H U.
  set (l := filter (fun i => match cKind (heap c i) with VEVENT => true | _ => false end) (held c)).
  assert (El : getComponents (Some (lit "VEVENT")) c = l).
  { unfold getComponents, l. change (match lit "VEVENT" with [] => held c | _ :: _ => filter (fun i => beq (upper_type (heap c i)) (upper (lit "VEVENT"))) (held c) end = _) || idtac.
    apply filter_ext_in. intros i Hi. change (upper (lit "VEVENT")) with (lit "VEVENT"). destruct (beq (upper_type (heap c i)) (lit "VEVENT")) eqn:B.
    - apply beq_eq in B. rewrite (U i Hi B). reflexivity.
    - destruct (cKind (heap c i)) eqn:K; try reflexivity. unfold upper_type in B. rewrite K in B. vm_compute in B. discriminate. }
  assert (In_l : forall i, In i l -> In i (held c) /\ cKind (heap c i) = VEVENT).
  { intros i Hi. unfold l in Hi. apply filter_In in Hi as [A B]. split; [exact A|]. destruct (cKind (heap c i)); congruence. }
  destruct (each_ok order range c linked Ord l tim (NoDup_filter _ Nd) (fun i Hi => conj (proj1 (H i (proj1 (In_l i Hi)) (proj2 (In_l i Hi)))) (f_equal is_recur (proj2 (In_l i Hi)))) P) as (N & HN).
  { intros i Hi. destruct (In_l i Hi) as [A B]. destruct (H i A B) as (_ & _ & G). exists (P i). split; [|auto].
    unfold overrides_of. rewrite Co. exact G. }
  exists N. intros fuel Hf. destruct (HN fuel Hf) as (tim' & lists & E & F2 & _ & L & M). exists tim', lists. split; [|split; [exact F2|intro j; apply L]].
  unfold getVEvents. rewrite El, E. f_equal. f_equal.
  change (List.concat lists) with (rev [] ++ List.concat lists). apply sort_none. cbn [app]. apply cmps_ok.
  eapply Forall_impl; [|exact M]. cbv beta. intros x ((O & A) & B). split; [exact A|]. split; [exact B|].
  destruct (L (xOwner x)) as [_ S]. unfold month_ok. rewrite S. destruct (In_l _ O) as [A' B']. apply (H _ A' B').
Qed.

(** ** How long an instance lasts *)
Lemma sub_visible_l a a' b : DateTimeProofs.coherent tzo a -> DateTimeProofs.coherent tzo a' -> visible a = visible a' -> subDateTime tzo a b = subDateTime tzo a' b.
Proof.
  intros C C' V. pose proof V as V'. unfold visible in V'. injection V' as _ _ _ _ _ _ _ U T.
  assert (F : floating a = floating a') by (unfold floating; rewrite U, T; reflexivity).
  unfold subDateTime. rewrite F, U, T. unfold posix_diff.
  destruct (floating a' || floating b); [destruct (floating a' && floating b); [|destruct (floating a')]|].
  - rewrite (posix_visible tzo (setTimezoneUTC a true) (setTimezoneUTC a' true)); auto using coh_utc, visible_utc.
  - rewrite (posix_visible tzo (setTimezoneUTC (setTimezoneID a (mTZID b)) (mTZUTC b)) (setTimezoneUTC (setTimezoneID a' (mTZID b)) (mTZUTC b))); auto using coh_utc, visible_utc, coh_id, visible_id.
  - rewrite (posix_visible tzo a a'); auto.
  - rewrite (posix_visible tzo a a'); auto.
Qed.
Lemma instant_clock sc d x : sc <> Offsets -> instant sc d x -> exists z, clock_reads d z /\ z = match sc with Dates => 86400 * x | _ => x end.
Proof.
  intros NO [V H]. destruct sc; [| |congruence].
  - destruct H as (_ & _ & _ & k & K & ->). eexists. split; [exists k; split; [exact K|reflexivity]|]. unfold secs_of_day. lia.
  - destruct H as (D & K). eexists. split; [exists x; split; [exact K|reflexivity]|]. destruct V as (_ & _ & Z). pose proof (Z D) as Z'. unfold secs_of_day in Z'. lia.
Qed.
Lemma visible_rebuilt d : visible (rebuilt d) = visible d.
Proof. reflexivity. Qed.

Lemma length_ok sc s e a y : steady sc s e -> instant sc s a -> instant sc e y -> honest tzo s -> honest tzo e ->
  1901 <= mYear s <= 2100 -> 1901 <= mYear e <= 2100 -> exists n, subDateTime tzo e s = Ok n /\ forall p, later sc p n = p + (y - a).
Proof.
  intros St Is Ie Hs He Ys Ye. assert (NO : sc <> Offsets) by (destruct sc; cbn in St; congruence || tauto).
  destruct (instant_clock sc s a NO Is) as (x1 & R1 & X1). destruct (instant_clock sc e y NO Ie) as (x2 & R2 & X2).
  rewrite (sub_visible_l e (rebuilt e)), (sub_visible tzo _ s (rebuilt s)); try apply coh_rebuilt; try (apply honest_coherent; assumption); try reflexivity.
  rewrite (difference tzo (rebuilt e) (rebuilt s) x2 x1); try assumption; try reflexivity; try apply Is; try apply Ie.
  eexists. split; [reflexivity|]. intro p.
  assert (Z : zone_offset tzo (zone_for (rebuilt e) (rebuilt s)) (rebuilt e) = zone_offset tzo (zone_for (rebuilt s) (rebuilt e)) (rebuilt s)).
  { unfold zone_for. change (floating (rebuilt e)) with (floating e). change (floating (rebuilt s)) with (floating s).
    change (mTZUTC (rebuilt e)) with (mTZUTC e). change (mTZUTC (rebuilt s)) with (mTZUTC s). change (mTZID (rebuilt e)) with (mTZID e). change (mTZID (rebuilt s)) with (mTZID s).
    destruct sc as [u t| |]; cbn in St; [|destruct St as [-> ->]; reflexivity|destruct St].
    destruct Is as [_ (_ & Us & Ts & _)], Ie as [_ (_ & Ue & Te & _)]. unfold floating. rewrite Us, Ue, Ts, Te.
    destruct u; [reflexivity|]. destruct St as [S|[S|[n S]]]; [discriminate| |]; [rewrite S; reflexivity|rewrite S]. destruct (tz_true (TzInt n)); reflexivity. }
  rewrite Z. destruct sc; cbn [later]; [lia| |congruence]. subst. rewrite Z.sub_sub_distr. 
  replace (86400 * y - zone_offset tzo (zone_for (rebuilt s) (rebuilt e)) (rebuilt s) - 86400 * a + zone_offset tzo (zone_for (rebuilt s) (rebuilt e)) (rebuilt s)) with ((y - a) * 86400) by lia.
  rewrite Z.div_mul by lia. reflexivity.
Qed.

(** ** The recurrence id of the index is the one of the timing *)
Lemma rid_agrees k s s' ps t t' : recur_finalise s ps = Ok s' -> timing_finalise k ps t = Ok t' -> sRid s = tRid t -> sRid s' = tRid t'.
Proof.
  unfold recur_finalise, timing_finalise. destruct (countProperty (lit "RECURRENCE-ID") ps =? 0)%nat; cbn [negb].
  - intros E. apply PropertyProofs3.Ok_inj in E. subst s'. cbn [rbind sRid]. destruct (match k with VTODO => _ | _ => _ end) as [[he en] du]. intros E. apply PropertyProofs3.Ok_inj in E. subst t'. auto.
  - destruct (loadDateTime (lit "RECURRENCE-ID") ps) as [d|]; [|discriminate]. destruct (check_param _ _); [|discriminate]. cbn [rbind].
    intros E. apply PropertyProofs3.Ok_inj in E. subst s'. cbn [sRid]. destruct (load_range ps) as [fp|]; [|discriminate]. cbn [rbind].
    destruct (match k with VTODO => _ | _ => _ end) as [[he en] du]. intros E. apply PropertyProofs3.Ok_inj in E. subst t'. auto.
Qed.
End WithTz.
