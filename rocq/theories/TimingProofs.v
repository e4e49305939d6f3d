(** Proofs about the expansion of components. *)
From Coq Require Import Lia ZifyBool ZifyNat Sorting.Permutation Sorting.Sorted.
From Verif Require Import PyBase PyProofs CalModel CalSpec DateTimeModel DateTimeSpec DateTimeSpec2 DateTimeOps CalProofs DateTimeProofs
  DateTimeOpsProofs DurationModel DurationProofs PeriodModel PeriodSpec PeriodProofs RecurModel RecurTextProofs2 RecurExpand RecurExpandSpec RecurSetSpec RecurSortProofs
  RecurSimpleProofs RecurCacheProofs RecurMiscProofs RecurByPartsSpec RecurByPartsProofs3 RecurKeepProofs RecurSetModel RecurUnionSpec RecurAgainProofs
  RecurUnionProofs TimingModel TimingSpec.
Ltac Zify.zify_post_hook ::= Z.div_mod_to_equations.

Ltac chg := first [left; reflexivity | right; first [eexists; reflexivity | apply normalise_changed]].

Section WithTz.
Variable tzo : tzid -> Z -> Z -> Z -> Z -> Z -> Z -> bool -> bool -> Z.

Lemma posix_visible d e : coherent tzo d -> coherent tzo e -> visible d = visible e -> snd (getPosixTime tzo d) = snd (getPosixTime tzo e).
Proof. intros C C' V. rewrite !getPosixTime_fresh by assumption. apply visible_fresh, V. Qed.
Lemma coh_utc d u : coherent tzo d -> coherent tzo (setTimezoneUTC d u).
Proof. intro C. apply (coh_same_or_changed tzo d); [exact C|]. unfold setTimezoneUTC. destruct (negb _); chg. Qed.
Lemma coh_id d t : coherent tzo d -> coherent tzo (setTimezoneID d t).
Proof. intro C. apply (coh_same_or_changed tzo d); [exact C|]. unfold setTimezoneID. chg. Qed.
Lemma visible_utc d e u : visible d = visible e -> visible (setTimezoneUTC d u) = visible (setTimezoneUTC e u).
Proof.
  unfold visible, ymd. intro E. injection E as E1 E2 E3 E4 E5 E6 E7 E8 E9. unfold setTimezoneUTC. rewrite E8.
  destruct (negb _); cbn; congruence.
Qed.
Lemma visible_id d e t : visible d = visible e -> visible (setTimezoneID d t) = visible (setTimezoneID e t).
Proof.
  unfold visible, ymd. intro E. injection E as E1 E2 E3 E4 E5 E6 E7 E8 E9. unfold setTimezoneID. cbn. congruence.
Qed.
Lemma sub_visible a b b' : coherent tzo b -> coherent tzo b' -> visible b = visible b' -> subDateTime tzo a b = subDateTime tzo a b'.
Proof.
  intros C C' V. pose proof V as V'. unfold visible in V'. injection V' as _ _ _ _ _ _ _ U T.
  assert (F : floating b = floating b') by (unfold floating; rewrite U, T; reflexivity).
  unfold subDateTime. rewrite F, U, T. unfold posix_diff.
  assert (P : forall x y, coherent tzo x -> coherent tzo y -> visible x = visible y -> snd (getPosixTime tzo x) = snd (getPosixTime tzo y)) by exact posix_visible.
  destruct (floating a || floating b'); [destruct (floating a && floating b'); [|destruct (floating a)]|].
  - rewrite (P (setTimezoneUTC b true) (setTimezoneUTC b' true)); auto using coh_utc, visible_utc.
  - rewrite (P b b'); auto.
  - rewrite (P (setTimezoneUTC (setTimezoneID b (mTZID a)) (mTZUTC a)) (setTimezoneUTC (setTimezoneID b' (mTZID a)) (mTZUTC a))); auto using coh_utc, visible_utc, coh_id, visible_id.
  - rewrite (P b b'); auto.
Qed.

Section OneScale.
Variables (sc : scale) (start : dt).
Hypothesis NO : sc <> Offsets.
Variable order : list dt -> list dt.
Hypothesis Ord : permutes order.
Notation good := (RecurAgainProofs.good tzo sc start).
Notation uniq := (RecurUnionProofs.uniq tzo sc start).
Notation cover := (RecurUnionProofs.cover tzo sc start).

Lemma diff_cover v1 v2 Q1 Q2 : uniq v1 Q1 -> cover v2 Q2 -> exists l, set_difference tzo order v1 v2 = Ok l /\ uniq l (fun x => Q1 x /\ ~ Q2 x).
Proof.
  intros U1 U2. pose proof U1 as (xs & F & N & M). pose proof U2 as (ys & F' & M').
  assert (T : v1 = [] \/ v2 = [] -> uniq v1 (fun x => Q1 x /\ ~ Q2 x)).
  { intro D. exists xs. split; [exact F|]. split; [exact N|]. intro x. rewrite M. split; [|tauto]. intro H. split; [exact H|].
    destruct D as [-> | ->]; [inversion F; subst; apply M in H; destruct H|]. inversion F'; subst. rewrite <- M'. auto. }
  destruct v1 as [|d1 v1]; [exists []; cbn; auto|]. destruct v2 as [|d2 v2]; [exists (d1 :: v1); cbn; auto|].
  unfold set_difference.
  destruct (set_keys_spec tzo sc start NO _ _ F) as (s1 & zs & -> & K1 & Nz & Mz).
  destruct (set_keys_spec tzo sc start NO _ _ F') as (s2 & zs' & -> & K2 & Nz' & Mz').
  cbn [rbind]. assert (U : uniq (order (map snd s1)) Q1).
  { apply (uniq_perm tzo sc start (map snd s1)); [apply Ord|]. exists zs. split; [apply kgood_good, K1|]. split; [exact Nz|]. intro x. rewrite Mz. apply M. }
  destruct U as (xs1 & F1 & N1 & M1). destruct (keys_good tzo sc start NO _ _ F1) as (k1 & -> & Kk1). cbn [rbind].
  destruct (without_spec tzo sc start NO s2 zs' k1 xs1 K2 Kk1) as (l & -> & Fl). cbn [rbind]. eexists. split; [reflexivity|].
  apply (uniq_perm tzo sc start l); [apply Ord|]. eexists. split; [exact Fl|]. split; [apply NoDup_filter, N1|].
  intro x. rewrite filter_In, M1, negb_true_iff, <- not_true_iff_false, existsb_in, Mz', M'. reflexivity.
Qed.

Lemma instant_fun d x y : instant sc d x -> instant sc d y -> x = y.
Proof.
  intros I J. destruct (instant_ops tzo sc d d x y I J) as (_ & _ & _ & _ & E & _). destruct (instant_ops tzo sc d d x x I I) as (_ & _ & _ & _ & E' & _).
  rewrite E in E'. injection E' as E'. lia.
Qed.
Definition on_scale (d : dt) : Prop := exists x, instant sc d x.
Lemma insert_dt_ok x l : on_scale x -> Forall on_scale l -> exists l', insert_dt tzo x l = Ok l' /\ Permutation (x :: l) l'.
Proof.
  intros [a Ia]. induction 1 as [|y l [b Ib] F IH]; cbn [insert_dt]; [eexists; split; [reflexivity|apply Permutation_refl]|].
  destruct (instant_ops tzo sc y x b a Ib Ia) as (L & _). 
  destruct (dt_lt tzo y x) as [b0|] eqn:E; [|congruence]. cbn [rbind]. destruct b0.
  - destruct IH as (l' & -> & P). cbn [rbind]. eexists. split; [reflexivity|]. rewrite perm_swap. constructor. exact P.
  - eexists. split; [reflexivity|apply Permutation_refl].
Qed.
Lemma sort_dt_ok l : Forall on_scale l -> exists l', sort_dt tzo l = Ok l' /\ Permutation l l'.
Proof.
  induction 1 as [|x l I F IH]; cbn [sort_dt]; [eexists; split; [reflexivity|apply Permutation_refl]|].
  destruct IH as (l' & -> & P). cbn [rbind]. destruct (insert_dt_ok x l' I) as (l2 & E & P2).
  - rewrite Forall_forall in *. intros y H. apply F. eapply Permutation_in; [symmetry; exact P|exact H].
  - exists l2. split; [exact E|]. rewrite <- P2. constructor. exact P.
Qed.
Lemma cover_perm l l' Q : Permutation l l' -> cover l Q -> cover l' Q.
Proof.
  intros P (xs & F & M). destruct (Permutation_Forall2 P F) as (ys & Py & Fy). exists ys. split; [exact Fy|].
  intro x. rewrite <- M. split; apply Permutation_in; [apply Permutation_sym|]; exact Py.
Qed.

Lemma append_all (f : dt -> res expanded) g l : (forall d, In d l -> f d = Ok (g d)) -> append_each f l = (map g l, Ok tt).
Proof.
  induction l as [|d l IH]; intro H; cbn [append_each map]; [reflexivity|]. rewrite (H d (or_introl eq_refl)), IH; [reflexivity|].
  intros e I. apply H. right. exact I.
Qed.

Definition ids (l : list (nat * timing)) : list dt := flat_map (fun o => match tRid (snd o) with Some d => [d] | None => [] end) l.
Lemma ids_cover l : Forall (fun o => exists d, tRid (snd o) = Some d /\ date_ok tzo sc start d) l ->
  cover (ids l) (replaced sc l) /\ Forall on_scale (ids l) /\ (ids l = [] -> l = []).
Proof.
  induction 1 as [|o l (d & E & D) F (C & S & N)]; cbn [ids flat_map].
  - split; [|split; [constructor|reflexivity]]. exists []. split; [constructor|]. intro x. split; [intros []|]. intros (o & d & [] & _).
  - rewrite E. cbn [app]. fold (ids l). destruct (date_good tzo sc start d D) as (x & G). split; [|split].
    + destruct C as (xs & Fx & M). exists (x :: xs). split; [constructor; assumption|]. intro y. cbn [In]. rewrite M. split.
      * intros [<-|(o' & d' & I & H)]; [exists o, d; split; [left; reflexivity|]; split; [exact E|apply G]|exists o', d'; split; [right; exact I|exact H]].
      * intros (o' & d' & [<-|I] & Er & H); [left|right; exists o', d'; auto]. rewrite E in Er. injection Er as <-.
        exact (instant_fun d x y (proj1 G) H).
    + constructor; [exists x; apply G|exact S].
    + discriminate.
Qed.

(** ** One component *)
Lemma add_later d x n : instant sc d x -> instant sc (addSeconds d n) (later sc x n).
Proof.
  intro I. destruct sc as [u t| |] eqn:S; [|cbn [later]|congruence].
  - apply (add_instant tzo); [exact I|discriminate|discriminate].
  - destruct I as [V [D Hk]]. destruct (addSeconds_dateonly d n V D) as (V' & D' & B). split; [exact V'|]. split; [exact D'|].
    apply (db_hdn tzo) in Hk; [|exact V]. apply (days_between_dn hist_leap Lh Lh_step) in B; [|apply V|apply V'].
    replace (x + n / 86400) with (hdn (mYear (addSeconds d n)) (mMonth (addSeconds d n)) (mDay (addSeconds d n)) - hdn 1970 1 1); [apply hdn_db, V'|].
    unfold dnd, ymd in *. unfold hdn in *. lia.
Qed.

(** The instance that starts at d. *)
Definition instance_at (i : nat) (t : timing) (n : Z) (d : dt) : expanded :=
  mkExpanded i d (if tHasEnd t then addSeconds d n else d) true.
Lemma owner_instance i t n d : tHasRid t = false -> (tHasEnd t = true -> subDateTime tzo (tEnd t) (tStart t) = Ok n) ->
  expand_owner tzo i t (Some d) = Ok (instance_at i t n d).
Proof.
  intros H E. unfold expand_owner, instance_at. rewrite H. cbn [negb]. destruct (tHasEnd t); [|reflexivity].
  unfold shift. rewrite (E eq_refl). cbn [rbind]. rewrite total_setDuration. reflexivity.
Qed.
Lemma from_last_short l : (List.length l <= 1)%nat -> from_last l = [] /\ sort_by_dtstart l = Ok l.
Proof. destruct l as [|o [|o' l]]; cbn; auto; lia. Qed.

Lemma items_spec i t n overrides items Q : tHasRid t = false -> (tHasEnd t = true -> subDateTime tzo (tEnd t) (tStart t) = Ok n) ->
  overrides_ok tzo sc start overrides -> uniq items Q ->
  exists l, expand_items tzo order i t overrides items = (map (instance_at i t n) l, Ok tt) /\ uniq l (fun x => Q x /\ ~ replaced sc overrides x).
Proof.
  intros Hr He (F & P1 & P2) U. destruct (ids_cover overrides F) as (C & S & N). unfold expand_items. fold (ids overrides).
  destruct (sort_dt_ok (ids overrides) S) as (l & -> & P). destruct l as [|d l].
  - apply Permutation_sym, Permutation_nil in P. rewrite (N P). exists items. rewrite (append_all _ (instance_at i t n)); [|intros; apply owner_instance; assumption].
    split; [reflexivity|]. destruct U as (xs & Fx & Nd & M). exists xs. split; [exact Fx|]. split; [exact Nd|]. intro x. rewrite M.
    split; [|tauto]. intro H. split; [exact H|]. intros (o & d & [] & _).
  - destruct (diff_cover items (d :: l) _ _ U (cover_perm _ _ _ P C)) as (l' & -> & U'). exists l'. split; [|exact U'].
    destruct (from_last_short _ P1) as [L1 S1]. destruct (from_last_short _ P2) as [L2 S2]. rewrite S1, S2.
    assert (E : forall d, In d l' -> expand_item tzo i t (filter (fun o => tPrior (snd o)) overrides) (filter (fun o => tFuture (snd o)) overrides) d = Ok (instance_at i t n d)).
    { intros d' _. unfold expand_item. rewrite L1, L2. cbn [find_prior find_future rbind]. apply owner_instance; assumption. }
    rewrite (append_all _ (instance_at i t n) l' E). rewrite (append_all _ (instance_at i t n) l'); [|intros; apply owner_instance; assumption].
    destruct (filter (fun o => tPrior (snd o)) overrides ++ filter (fun o => tFuture (snd o)) overrides); reflexivity.
Qed.
End OneScale.

Lemma start_norm d : valid_dt d -> visible (normalise d) = visible d.
Proof. exact (normalise_valid d). Qed.

Lemma recurring sc i t s range a w b order overrides n : permutes order ->
  tSet t = Some s -> hasRecurrence s = true -> tHasRid t = false ->
  set_reachable tzo order sc 0 (tStart t) s -> set_call tzo sc 0 s (tStart t) range a w b ->
  overrides_ok tzo sc (tStart t) overrides -> (tHasEnd t = true -> subDateTime tzo (tEnd t) (tStart t) = Ok n) ->
  exists N, forall fuel, (N <= fuel)%nat -> exists t' xs,
    expandPeriod tzo order fuel i t (InCalendar overrides) range = Some (t', (xs, Ok tt)) /\
    holds_exactly sc (map xStart xs) (fun x => included sc 0 (tStart t) a w b s x /\ ~ excluded sc 0 (tStart t) a w b s x /\ ~ replaced sc overrides x) /\
    Forall (fun x => xOwner x = i /\ xRecurring x = true /\
      forall p, instant sc (xStart x) p -> instant sc (xEnd x) (if tHasEnd t then later sc p n else p)) xs /\
    same_event t t' /\ exists s', tSet t' = Some s' /\ set_reachable tzo order sc 0 (tStart t') s'.
Proof.
  intros Ord Es Hs Hr R C Ov He. pose proof C as (NO & Ia & Ho & _).
  destruct (set_again tzo sc 0 s (tStart t) range a w b order Ord (reachable_known tzo _ _ _ _ _ Ord R) C) as (N & HN).
  exists N. intros fuel Hf. destruct (HN fuel Hf) as (s' & items & limited & E & U & _ & _ & _ & SP).
  assert (V : valid_dt (tStart t)) by apply Ia.
  set (t' := after_expand s s' t).
  assert (Vi : visible (tStart t') = visible (tStart t)) by (unfold t'; cbn [after_expand tStart]; destruct (sRrules s); [reflexivity|apply start_norm, V]).
  assert (Co : coherent tzo (tStart t')).
  { unfold t'; cbn [after_expand tStart]; destruct (sRrules s); [apply honest_coherent, Ho|apply coh_norm]. }
  assert (He' : tHasEnd t' = true -> subDateTime tzo (tEnd t') (tStart t') = Ok n).
  { intro H. rewrite (sub_visible _ (tStart t') (tStart t)); [apply He, H|exact Co|apply honest_coherent, Ho|exact Vi]. }
  destruct (items_spec sc (tStart t) NO order Ord i t' n overrides items _ Hr He' Ov U) as (l & El & Ul).
  exists t', (map (instance_at i t' n) l). split; [|split; [|split; [|split]]].
  - unfold expandPeriod, isRecurring. rewrite Es, Hs, Hr. cbn [negb andb]. rewrite E. fold t'. rewrite El. reflexivity.
  - destruct Ul as (xs & F & Nd & M). exists xs. rewrite map_map. cbn [instance_at xStart]. rewrite map_id. split; [|split; [exact Nd|]].
    + clear - F. induction F as [|d x l xs G F IH]; constructor; [apply G|exact IH].
    + intro x. rewrite M. tauto.
  - apply Forall_forall. intros x H. apply in_map_iff in H as (d & <- & _). split; [reflexivity|]. split; [reflexivity|].
    intros p Ip. cbn [instance_at xEnd xStart] in *. change (tHasEnd t') with (tHasEnd t). destruct (tHasEnd t); [|exact Ip]. apply add_later; assumption.
  - unfold same_event. rewrite Es. unfold t' at 1 3 4 5 6 7 8 9. cbn [after_expand tHasStart tHasEnd tEnd tDuration tHasRid tRid tFuture tPrior tSet].
    destruct SP as (S1 & S2 & S3 & S4 & S5 & S6). repeat split; congruence.
  - exists s'. split; [reflexivity|].
    assert (RR : set_reachable tzo order sc 0 (tStart t) s') by (eapply set_expanded; [exact R|split; reflexivity|exact C|exact E]).
    clear - RR Vi. revert Vi. generalize (tStart t'). intros z Vi. unfold visible in Vi. injection Vi as _ _ _ _ _ _ _ U T.
    assert (Z : same_zone (tStart t) z) by (split; congruence). clear U T. revert z Z. 
    remember (tStart t) as z0 eqn:Ez. clear Ez. remember 0 as off eqn:Eo. clear Eo.
    induction RR; intros z1 Z.
    + apply set_new. assumption.
    + eapply set_expanded; [apply IHRR, Z| |eassumption|eassumption]. destruct Z, H. split; congruence.
    + eapply set_edited; [apply IHRR, Z|assumption].
    + eapply set_changed. eassumption.
Qed.
End WithTz.
