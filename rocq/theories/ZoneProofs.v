(** Proofs about the expansion of tz zones. *)
From Coq Require Import Lia ZifyBool ZifyNat Sorting.Permutation Sorting.Sorted.
From Verif Require Import PyBase PyProofs CalModel CalSpec DateTimeModel DateTimeSpec DateTimeSpec2 CalProofs DateTimeProofs DateTimeProofs2
  DateTimeProofs3 DateTimeProofs4 PeriodSpec PeriodProofs RecurModel RecurTextProofs2 RecurSimpleProofs RecurByPartsProofs3
  ZonalModel ZonalProofs ZonalProofs4 ZoneSpec.
Ltac Zify.zify_post_hook ::= Z.div_mod_to_equations.

(** ** Times *)
Lemma offset_instant d x n : instant local_time d x -> instant local_time (offsetSeconds d n) (x + n).
Proof.
  intro I. apply instant_civil in I as (V & D & U & T & ->). unfold offsetSeconds.
  replace (civil d + n) with (civil (with_hms d (mHours d) (mMinutes d) (mSeconds d + n))).
  - apply norm_instant; auto. apply V.
  - unfold civil, secs_of_day. cbn. lia.
Qed.
Lemma utc_instant z c x off std : instant local_time (zDt z) x -> suffix (zMode z) c -> instant local_time (getUTC z off std) (meant c x off std).
Proof.
  intros I S. unfold getUTC, mode_is. destruct c; cbn [suffix meant] in *.
  - destruct S as [-> | [-> | ->]]; cbn; apply offset_instant; exact I.
  - rewrite S. cbn. apply offset_instant. exact I.
  - rewrite S. cbn. exact I.
Qed.
Lemma reads_instant d dd h mi s x : valid_dt d -> ymd d = dd -> (mHours d, mMinutes d, mSeconds d) = (h, mi, s) ->
  mDateOnly d = false -> mTZUTC d = false -> mTZID d = TzNone -> reads dd h mi s x -> instant local_time d x.
Proof.
  intros V Y T D U Z (k & K & ->). injection T as Th Tm Ts. split; [exact V|]. split; [exact D|]. split; [exact U|]. split; [exact Z|].
  exists k. rewrite Y. split; [exact K|]. unfold secs_of_day. rewrite Th, Tm, Ts. lia.
Qed.
Lemma instant_eq d x y : instant local_time d x -> instant local_time d y -> x = y.
Proof. intros I J. apply instant_civil in I as (_ & _ & _ & _ & ->). apply instant_civil in J as (_ & _ & _ & _ & ->). reflexivity. Qed.

(** The day that is selected is only one. *)
Lemma selects_fun y m o a b : 1752 < y -> 1 <= m <= 12 -> on_ok y m o -> (forall w n, o <> AtMost w n) -> selects y m o a -> selects y m o b -> a = b.
Proof.
  intros Hy Hm Ho Nm Sa Sb. destruct o as [w|w n|w n|n]; cbn [selects on_ok] in *.
  - pose proof (valid_last greg_leap y m Hm) as Vb. apply nth_back_gdn in Sa as (Va & _ & Ga & Wa), Sb as (Vb' & _ & Gb & Wb); auto.
    apply (dn_inj greg_leap Lg Lg_step); auto. change (gdn a = gdn b). lia.
  - assert (Vn : valid_date greg_leap (y, m, n)) by (unfold valid_date; lia).
    apply nth_from_gdn in Sa as (Va & _ & Ga & Wa), Sb as (Vb' & _ & Gb & Wb); auto.
    apply (dn_inj greg_leap Lg Lg_step); auto. change (gdn a = gdn b). lia.
  - exfalso. eapply Nm. reflexivity.
  - congruence.
Qed.

(** ** Rules *)
Definition switched (x : zdt * Z * zrule) (std : Z) (sw : switch) : Prop :=
  let '(d, o, r) := x in
  instant local_time (zDt d) (swAt sw) /\ suffix (zMode d) (swClock sw) /\ o = std + swSave sw /\ r = swRule sw.
Lemma year_switch r y sw : switches_in r y sw -> exists d, datetimeForYear r y = Ok d /\ instant local_time (zDt d) (swAt sw) /\ suffix (zMode d) (swClock sw).
Proof.
  intros (_ & Y & (m & o & h & mi & s & dd & Hm & Em & To & Ho & Nm & Ta & Hh & Hmi & Se & Rd & Su) & _).
  destruct (rule_day r y m o h mi s Y Hm Em To Ho Nm Ta Hh Hmi) as (z & E & V & Sz & Tz & D & U & T & M).
  exists z. split; [exact E|]. split; [|rewrite M; exact Su].
  apply (reads_instant (zDt z) dd h mi 0); auto. apply (selects_fun y m o); auto. lia.
Qed.
Lemma sorted_years a b c d : StronglySorted Z.lt c -> StronglySorted Z.lt d -> (forall y, In y c <-> In y d) -> a = b :> Z -> c = d.
Proof.
  intros Sc Sd E _. revert d Sd E. induction Sc as [|x c Sc IH Fc]; intros d Sd E.
  - destruct d as [|y d]; [reflexivity|]. exfalso. apply (proj2 (E y)). left; reflexivity.
  - inversion Sd as [|y d' Sd' Fd]; subst; [exfalso; apply (proj1 (E x)); left; reflexivity|].
    rewrite Forall_forall in Fc, Fd.
    assert (x = y).
    { destruct (proj1 (E x) (or_introl eq_refl)) as [H|H]; [auto|]. destruct (proj2 (E y) (or_introl eq_refl)) as [K|K]; [auto|].
      specialize (Fc _ K). specialize (Fd _ H). lia. }
    subst y. f_equal. apply IH; [exact Sd'|]. intro z. split; intro H.
    + destruct (proj1 (E z) (or_intror H)) as [<-|K]; [specialize (Fc _ H); lia|exact K].
    + destruct (proj2 (E z) (or_intror H)) as [<-|K]; [specialize (Fd _ H); lia|exact K].
Qed.
Lemma years_in a b y : In y (years a b) <-> a <= y <= b.
Proof.
  unfold years. rewrite in_map_iff. split.
  - intros (i & <- & H). apply in_seq in H. lia.
  - intros H. exists (Z.to_nat (y - a)). split; [lia|]. apply in_seq. lia.
Qed.
Lemma years_sorted a b : StronglySorted Z.lt (years a b).
Proof.
  unfold years. generalize (Z.to_nat (b - a + 1)) as n. intro n. generalize 0%nat as k. induction n as [|n IH]; intro k; cbn [seq map]; constructor; [apply IH|].
  apply Forall_forall. intros x H. apply in_map_iff in H as (i & <- & H). apply in_seq in H. lia.
Qed.
Lemma save_of r sg h l : offset_text sg h l (rlSave r) -> (List.length l <= 1)%nat -> ~ (sg = Minus /\ h = 0 /\ nth 0 l 0 <> 0) ->
  getOffset r = Ok (signed sg (seconds_of h l)).
Proof. intros T L N. apply (rule_offset_exact r sg h l T L). exact N. Qed.
Lemma not_word q b w c t : 0 <= b -> w = c :: t -> is_digit c = false -> beq (fmt0 q b) w = false.
Proof.
  intros Hb -> Hc. destruct (fmt0_head q b Hb) as (d & r & -> & Hd & _). destruct (beq (d :: r) (c :: t)) eqn:E; [|reflexivity]. apply beq_eq in E. injection E as -> _. congruence.
Qed.
Section WithTz.
Variable tzo : tzid -> Z -> Z -> Z -> Z -> Z -> Z -> bool -> bool -> Z.
Lemma rule_expand_spec z std r maxYear ys k : getUTCOffset z = Ok std -> rule_years r maxYear ys -> Forall2 (switches_in r) ys k ->
  exists l, rule_expand z maxYear r = Ok l /\ Forall2 (fun x sw => switched x std sw) l k.
Proof.
  intros Eo (a & b & p & Ha & Ef & To & Sy & Iy & Sv) F. unfold rule_expand, startYear. rewrite Ef, pyint_fmt0 by exact Ha. cbn [rbind].
  destruct (maxYear <=? a) eqn:Em.
  { destruct ys as [|y ys]; [|exfalso; destruct (proj1 (Iy y) (or_introl eq_refl)); lia]. inversion F; subst. exists []. split; [reflexivity|constructor]. }
  assert (Ee : endYear r = Ok b).
  { unfold endYear, startYear. destruct To as [[-> ->]|[[-> ->]|[Hb [q ->]]]]; [cbn; rewrite Ef; apply pyint_fmt0; exact Ha|reflexivity|].
    rewrite (not_word q b (lit "only") "o" (lit "nly")) by auto. rewrite (not_word q b (lit "max") "m" (lit "ax")) by auto. apply pyint_fmt0; exact Hb. }
  unfold fullExpand, startYear. rewrite Ef, pyint_fmt0 by exact Ha. rewrite Ee.
  assert (Ey : years a (if maxYear <? b then maxYear - 1 else b) = ys).
  { apply (sorted_years 0 0); [apply years_sorted|exact Sy| |reflexivity]. intro y. rewrite years_in, Iy. destruct (maxYear <? b) eqn:X; lia. }
  rewrite Ey. destruct (Sv ltac:(lia)) as (sg & h & l & T & L & N).
  assert (G : forall acc, exists ds, ((fix go (l : list Z) (acc : list zdt) : option (list zdt) * res unit :=
           match l with
           | [] => (Some acc, Ok tt)
           | y :: l => match datetimeForYear r y with Ok d => go l (acc ++ [d]) | Raise x => (Some acc, Raise x) end
           end) ys acc) = (Some (acc ++ ds), Ok tt) /\ Forall2 (fun d sw => switches_in r 0 sw \/ (instant local_time (zDt d) (swAt sw) /\ suffix (zMode d) (swClock sw))) ds k /\
             Forall2 (fun d sw => instant local_time (zDt d) (swAt sw) /\ suffix (zMode d) (swClock sw) /\ swSave sw = signed sg (seconds_of h l) /\ swRule sw = r) ds k).
  { clear Ey Iy Sy. induction F as [|y sw ys k H F IH]; intro acc.
    - exists []. rewrite app_nil_r. repeat split; constructor.
    - destruct (year_switch r y sw H) as (d & E & I & Su). rewrite E. destruct (IH (acc ++ [d])) as (ds & Eg & F1 & F2).
      exists (d :: ds). rewrite Eg, <- app_assoc. split; [reflexivity|]. split; constructor; auto.
      destruct H as (R & _ & _ & sg' & h' & l' & T' & L' & N' & S'). split; [exact I|]. split; [exact Su|]. split; [|exact R].
      pose proof (save_of r sg h l T L N). pose proof (save_of r sg' h' l' T' L' N'). congruence. }
  destruct (G []) as (ds & Eg & _ & F2). rewrite Eg. cbn [app]. rewrite Eo. cbn [rbind]. rewrite (save_of r sg h l T L N). cbn [rbind].
  eexists. split; [reflexivity|]. clear - F2. induction F2 as [|d sw ds k (I & S & E & R) F IH]; cbn [map]; constructor; auto.
  unfold switched. rewrite E. auto.
Qed.
Lemma ruleset_expand_spec z std maxYear set ll : getUTCOffset z = Ok std ->
  Forall2 (fun r k => exists ys, rule_years r maxYear ys /\ Forall2 (switches_in r) ys k) set ll ->
  exists l, ruleset_expand z maxYear set = Ok l /\ Forall2 (fun x sw => switched x std sw) l (List.concat ll).
Proof.
  intros Eo F. induction F as [|r k set ll (ys & Y & Fk) F (l & E & Fl)]; cbn [ruleset_expand List.concat].
  - exists []. split; [reflexivity|constructor].
  - destruct (rule_expand_spec z std r maxYear ys k Eo Y Fk) as (l1 & E1 & F1). rewrite E1. cbn [rbind]. rewrite E. cbn [rbind].
    eexists. split; [reflexivity|]. apply Forall2_app; assumption.
Qed.

(** ** Sorting *)
Section Sorting.
Context {A B : Type}.
Variable at_ : A -> dt.
Variable key : B -> Z.
Variable R : A -> B -> Prop.
Hypothesis HR : forall a b, R a b -> instant local_time (at_ a) (key b).
Lemma earlier_key a b x y : R a x -> R b y -> earlier tzo (at_ a) (at_ b) = (key x <? key y).
Proof.
  intros Ra Rb. pose proof (instant_ops tzo local_time _ _ _ _ (HR _ _ Ra) (HR _ _ Rb)) as (L & _). unfold earlier, dt_lt in *.
  destruct (compareDateTime tzo (at_ a) (at_ b)) as [c|e]; cbn [rbind] in L; [|discriminate L]. injection L as L. rewrite L. lia.
Qed.
Lemma insert_f2 a x l ys : R a x -> Forall2 R l ys ->
  Forall2 R (insert (fun p q => earlier tzo (at_ p) (at_ q)) a l) (insert (fun p q => key p <? key q) x ys).
Proof.
  intros Ra F. induction F as [|b y l ys Rb F IH]; cbn [insert]; [repeat constructor; assumption|].
  rewrite (earlier_key b a y x Rb Ra). destruct (key y <? key x); repeat (constructor; auto).
Qed.
Lemma isort_keys l ys : Forall2 R l ys -> Forall2 R (sort_at tzo at_ l) (isort (fun p q => key p <? key q) ys).
Proof. unfold sort_at. intro F. induction F; cbn [isort]; [constructor|]. apply insert_f2; assumption. Qed.
Lemma insert_weak x l : StronglySorted (fun p q => key p <= key q) l -> StronglySorted (fun p q => key p <= key q) (insert (fun p q => key p <? key q) x l).
Proof.
  intro S. induction S as [|y l S IH F]; cbn [insert]; [repeat constructor|]. destruct (key y <? key x) eqn:E.
  - constructor; [exact IH|]. apply Forall_forall. intros z Hz. apply (Permutation_in _ (Permutation_sym (RecurTextProofs2.insert_perm _ _ _ _))) in Hz.
    destruct Hz as [<-|Hz]; [lia|]. rewrite Forall_forall in F. apply F. exact Hz.
  - constructor; [constructor; assumption|]. constructor; [lia|]. eapply Forall_impl; [|exact F]. cbv beta. intros; lia.
Qed.
Lemma isort_weak l : StronglySorted (fun p q => key p <= key q) (isort (fun p q => key p <? key q) l).
Proof. induction l; cbn [isort]; [constructor|apply insert_weak; assumption]. Qed.
Lemma sorted_same zs ws : StronglySorted (fun p q => key p < key q) zs -> StronglySorted (fun p q => key p <= key q) ws -> Permutation zs ws -> zs = ws.
Proof.
  intro S. revert ws. induction S as [|z zs S IH F]; intros ws W P; [apply Permutation_nil in P; auto|].
  destruct W as [|w ws W Fw]; [apply Permutation_sym, Permutation_nil in P; discriminate P|].
  assert (z = w) as <-.
  { destruct (Permutation_in z P (or_introl eq_refl)) as [E|Hz]; [auto|].
    destruct (Permutation_in w (Permutation_sym P) (or_introl eq_refl)) as [E|Hw]; [auto|].
    rewrite Forall_forall in F, Fw. specialize (F _ Hw). specialize (Fw _ Hz). cbv beta in *. lia. }
  f_equal. apply IH; [exact W|]. apply Permutation_cons_inv in P. exact P.
Qed.
Lemma sort_at_spec l ys zs : Forall2 R l ys -> Permutation zs ys -> StronglySorted (fun p q => key p < key q) zs -> Forall2 R (sort_at tzo at_ l) zs.
Proof.
  intros F P S. pose proof (isort_keys l ys F) as G. rewrite <- (sorted_same zs _ S (isort_weak ys)) in G; [exact G|].
  rewrite P. apply RecurTextProofs2.isort_perm.
Qed.
End Sorting.

(** ** The transitions of a zone line *)
Definition tshows (t : trans) (s : step) : Prop :=
  instant local_time (trUTC t) (stAt s) /\ trTo t = stTo s /\ trZone t = stLine s /\ match stRule s with Some r => trRule t = Some r | None => True end.
Section Line.
Variables (z : zonerule) (ln : zline) (s e : Z) (sdt : dt) (fin : zdt).
Notation std := (lnStd ln).
Hypothesis Estd : getUTCOffset z = Ok std.
Hypothesis Is : instant local_time sdt s.
Hypothesis Ifin : instant local_time (zDt fin) (lnUntil ln).
Hypothesis Sfin : suffix (zMode fin) (lnClock ln).
Hypothesis Lse : s < e.
Definition clear (j : jump) : Prop := jAt j < e <-> jAt j < meant (lnClock ln) (lnUntil ln) (jFrom j) std.
Definition as_step (j : jump) : step := mkStep (jAt j) (jTo j) z (Some (jRule j)).
Definition inside (js : list jump) : list step := map as_step (filter (fun j => (s <? jAt j) && (jAt j <? e)) js).

Lemma cmp_s d x : instant local_time d x -> dt_ge tzo d sdt = Ok (s <=? x) /\ dt_ne tzo d sdt = Ok (negb (s =? x)).
Proof.
  intro I. pose proof (instant_ops tzo local_time _ _ _ _ I Is) as (_ & _ & _ & G & _ & N). rewrite G, N. split; f_equal; lia.
Qed.
Lemma cmp_e d x off : instant local_time d x -> dt_ge tzo d (getUTC fin off std) = Ok (meant (lnClock ln) (lnUntil ln) off std <=? x).
Proof.
  intro I. pose proof (instant_ops tzo local_time _ _ _ _ I (utc_instant fin _ _ off std Ifin Sfin)) as (_ & _ & _ & G & _). rewrite G. f_equal. lia.
Qed.
Notation loop := (zonerule_loop tzo z sdt fin).
Lemma after_late off js t : Forall (fun j => t < jAt j) js -> after_jumps off js t = off.
Proof. intros F. destruct F as [|j js H F]; [reflexivity|]. cbn [after_jumps]. replace (jAt j <=? t) with false by lia. reflexivity. Qed.
Lemma inside_late js : Forall (fun j => e <= jAt j) js -> inside js = [].
Proof.
  unfold inside. intro F. induction F as [|j js H F IH]; [reflexivity|]. cbn [filter]. replace (jAt j <? e) with false by lia. rewrite andb_false_r. exact IH.
Qed.
Lemma loop_started l sws : Forall2 (fun x sw => switched x std sw) l sws -> forall off r acc,
  let js := chain std off sws in
  StronglySorted (fun a b => jAt a < jAt b) js -> Forall (fun j => s < jAt j) js -> Forall clear js ->
  exists ts, loop l true true off std r acc = Ok (acc ++ ts, true, after_jumps off js (e - 1), std) /\ Forall2 tshows ts (inside js).
Proof.
  intro F. induction F as [|[[d o] r0] sw l sws (Id & Sd & -> & ->) F IH]; intros off r acc js S A C.
  - exists []. cbn [zonerule_loop]. rewrite app_nil_r. split; [reflexivity|constructor].
  - subst js. cbn [chain] in *. inversion S as [|? ? S' Fs]; subst. inversion A as [|? ? A1 A']; subst. inversion C as [|? ? C1 C']; subst. unfold clear in C1. cbn [jAt jFrom] in *.
    set (u := meant (swClock sw) (swAt sw) off std) in *. pose proof (utc_instant d _ _ off std Id Sd) as Iu. fold u in Iu.
    cbn [zonerule_loop]. destruct (cmp_s _ _ Iu) as [-> ->]. cbn [rbind]. replace (s <=? u) with true by lia. cbn [negb andb rbind].
    rewrite (cmp_e _ _ off Iu). cbn [rbind]. destruct (meant (lnClock ln) (lnUntil ln) off std <=? u) eqn:Pa.
    + exists []. rewrite app_nil_r. assert (e <= u) by lia.
      rewrite after_late by (constructor; [cbn [jAt]; fold u; lia|eapply Forall_impl; [|exact Fs]; cbn [jAt]; intros; lia]).
      rewrite inside_late by (constructor; [cbn [jAt]; fold u; lia|eapply Forall_impl; [|exact Fs]; cbn [jAt]; intros; lia]).
      split; [reflexivity|constructor].
    + rewrite Estd. cbn [rbind]. destruct (IH (std + swSave sw) (Some (swRule sw)) (acc ++ [mkTrans (getUTC d off std) (std + swSave sw) z (Some (swRule sw))]) S' A' C') as (ts & E & Ft).
      rewrite E. eexists. rewrite <- app_assoc. cbn [app after_jumps jAt jTo]. fold u. replace (u <=? e - 1) with true by lia. split; [reflexivity|].
      unfold inside in *. cbn [filter jAt]. fold u. replace ((s <? u) && (u <? e)) with true by lia. cbn [map]. constructor; [|exact Ft].
      unfold tshows, as_step. cbn. auto.
Qed.
Lemma loop_start x l off r acc sw : switched x std sw -> s < meant (swClock sw) (swAt sw) off std ->
  loop (x :: l) true false off std r acc = loop (x :: l) true true off std r (acc ++ [mkTrans sdt off z r]).
Proof.
  destruct x as [[d o] r0]. intros (Id & Sd & -> & ->) H. pose proof (utc_instant d _ _ off std Id Sd) as Iu.
  cbn [zonerule_loop]. destruct (cmp_s _ _ Iu) as [-> ->]. cbn [rbind]. destruct (s <=? _) eqn:G; [|lia]. destruct (s =? _) eqn:N; [lia|]. reflexivity.
Qed.
Lemma loop_first x l po ps sw : switched x std sw -> s < meant (swClock sw) (swAt sw) po ps -> s < meant (swClock sw) (swAt sw) std std ->
  loop (x :: l) false false po ps None [] = loop (x :: l) true true std std None [mkTrans sdt std z None].
Proof.
  destruct x as [[d o] r0]. intros (Id & Sd & -> & ->) H K. pose proof (utc_instant d _ _ po ps Id Sd) as Iu. pose proof (utc_instant d _ _ std std Id Sd) as Iv.
  cbn [zonerule_loop]. destruct (cmp_s _ _ Iu) as [-> ->], (cmp_s _ _ Iv) as [-> ->]. cbn [rbind]. destruct (s <=? meant _ _ po ps) eqn:G; [|lia]. destruct (s =? meant _ _ po ps) eqn:N; [lia|].
  destruct (s <=? meant _ _ std std) eqn:G2; [|lia]. cbn [negb andb]. rewrite Estd. reflexivity.
Qed.
Lemma loop_same x l : loop (x :: l) false false std std None [] = loop (x :: l) true false std std None [].
Proof.
  destruct x as [[d o] r0]. cbn [zonerule_loop]. destruct (dt_ge tzo (getUTC d std std) sdt) as [b|]; [|reflexivity]. cbn [rbind]. destruct b; [|reflexivity].
  destruct (dt_ne tzo (getUTC d std std) sdt) as [b|]; [|reflexivity]. cbn [rbind negb andb]. destruct b; [|reflexivity]. rewrite Estd. reflexivity.
Qed.
Definition finish (x : list trans * bool * Z * Z) : list trans * Z * Z :=
  let '(acc, found_start, lo, ls) := x in (if found_start then acc else acc ++ [mkTrans sdt lo z None], lo, ls).
Lemma loop_before l sws : Forall2 (fun x sw => switched x std sw) l sws -> forall off r acc,
  let js := chain std off sws in
  StronglySorted (fun a b => jAt a < jAt b) js -> Forall clear js ->
  exists x ts, loop l true false off std r acc = Ok x /\ finish x = (acc ++ ts, after_jumps off js (e - 1), std) /\
    Forall2 tshows ts (mkStep s (after_jumps off js s) z None :: inside js).
Proof.
  intro F. induction F as [|[[d o] r0] sw l sws Hx F IH]; intros off r acc js S C.
  - do 2 eexists. split; [reflexivity|]. split; [reflexivity|]. constructor; [|constructor]. unfold tshows. cbn. auto.
  - subst js. cbn [chain] in *. inversion S as [|? ? S' Fs]; subst. inversion C as [|? ? C1 C']; subst. unfold clear in C1. cbn [jAt jFrom] in *.
    destruct Hx as (Id & Sd & -> & ->). pose proof (utc_instant d _ _ off std Id Sd) as Iu.
    set (u := meant (swClock sw) (swAt sw) off std) in *.
    destruct (Z_lt_le_dec s u) as [Lt|Le].
    + assert (Hx : switched (d, std + swSave sw, swRule sw) std sw) by (split; [exact Id|]; split; [exact Sd|]; split; reflexivity).
      rewrite (loop_start (d, std + swSave sw, swRule sw) l off r acc sw Hx Lt).
      destruct (loop_started ((d, std + swSave sw, swRule sw) :: l) (sw :: sws)) with (off := off) (r := r) (acc := acc ++ [mkTrans sdt off z r]) as (ts & E & Ft).
      * constructor; [exact Hx|exact F].
      * cbn [chain]. fold u. constructor; assumption.
      * cbn [chain]. fold u. constructor; [exact Lt|]. eapply Forall_impl; [|exact Fs]. cbn [jAt]. intros; lia.
      * cbn [chain]. constructor; assumption.
      * rewrite E. do 2 eexists. split; [reflexivity|]. cbn [finish chain]. rewrite <- app_assoc. split; [reflexivity|].
        cbn [app chain]. constructor; [|exact Ft]. unfold tshows. cbn [trUTC trTo trZone trRule stAt stTo stLine stRule].
        rewrite after_late; [auto|]. constructor; [exact Lt|]. eapply Forall_impl; [|exact Fs]. cbn [jAt]. intros; lia.
    + cbn [zonerule_loop]. destruct (cmp_s _ _ Iu) as [-> ->]. cbn [rbind]. destruct (s <=? u) eqn:G.
      * assert (u = s) by lia. destruct (s =? u) eqn:N; [|lia]. cbn [negb andb rbind]. rewrite (cmp_e _ _ off Iu). cbn [rbind].
        destruct (meant (lnClock ln) (lnUntil ln) off std <=? u) eqn:Pa; [lia|]. rewrite Estd. cbn [rbind].
        destruct (loop_started l sws F (std + swSave sw) (Some (swRule sw)) (acc ++ [mkTrans (getUTC d off std) (std + swSave sw) z (Some (swRule sw))])) as (ts & E & Ft); auto.
        { eapply Forall_impl; [|exact Fs]. cbn [jAt]. intros; lia. }
        rewrite E. do 2 eexists. split; [reflexivity|]. cbn [finish]. rewrite <- app_assoc. cbn [after_jumps jAt jTo]. replace (u <=? e - 1) with true by lia.
        split; [reflexivity|]. cbn [app]. replace (u <=? s) with true by lia. constructor.
        -- unfold tshows. cbn [trUTC trTo trZone trRule stAt stTo stLine stRule]. rewrite after_late; [|eapply Forall_impl; [|exact Fs]; cbn [jAt]; intros; lia].
           replace s with u by lia. auto.
        -- unfold inside in *. cbn [filter jAt]. replace (s <? u) with false by lia. exact Ft.
      * rewrite Estd. cbn [rbind]. destruct (IH (std + swSave sw) (Some (swRule sw)) acc S' C') as (x & ts & E & Fi & Ft). rewrite E. exists x, ts. split; [reflexivity|].
        cbn [after_jumps jAt jTo]. replace (u <=? e - 1) with true by lia. replace (u <=? s) with true by lia. split; [exact Fi|].
        unfold inside in *. cbn [filter jAt]. replace (s <? u) with false by lia. exact Ft.
Qed.
End Line.
End WithTz.
