(** The expansion theorem for rules with BY parts. *)
From Coq Require Import Lia ZifyBool ZifyNat Sorting.Sorted.
From Verif Require Import PyBase PyProofs CalModel CalSpec CalProofs DateTimeModel DateTimeSpec DateTimeSpec2 DateTimeProofs DateTimeProofs2 DateTimeProofs4 DateTimeOpsProofs.
From Verif Require Import PeriodModel PeriodSpec PeriodProofs RecurModel RecurSpec RecurExpand RecurExpandSpec RecurSimpleProofs
  RecurCacheProofs RecurComplexSpec RecurMiscProofs RecurSetSpec RecurSetProofs RecurSortProofs RecurSetProofs2 RecurSetProofs3
  RecurByPartsSpec RecurLoopProofs RecurByPartsProofs RecurCohProofs RecurByPartsProofs2.
Ltac Zify.zify_post_hook ::= Z.div_mod_to_equations.

Lemma year_mono d e : valid_dt d -> valid_dt e -> hdn (mYear d) (mMonth d) (mDay d) <= hdn (mYear e) (mMonth e) (mDay e) -> mYear d <= mYear e.
Proof.
  intros (Vd & _) (Ve & _) H. destruct (Z.le_gt_cases (mYear d) (mYear e)) as [|G]; [assumption|exfalso].
  pose proof (dn_lt_year hist_leap Lh Lh_step (mYear e) (mMonth e) (mDay e) (mYear d) (mMonth d) (mDay d) Ve Vd ltac:(lia)) as Q.
  fold (hdn (mYear e) (mMonth e) (mDay e)) (hdn (mYear d) (mMonth d) (mDay d)) in Q. lia.
Qed.
Lemma scale_year sc d e : sc <> Offsets -> valid_dt d -> valid_dt e -> on_scale sc d <= on_scale sc e -> mYear d <= mYear e.
Proof.
  intros NO Vd Ve H. apply year_mono; auto. pose proof (valid_secs d Vd). pose proof (valid_secs e Ve).
  destruct sc; cbn [on_scale] in H; [unfold civil in H; lia|lia|congruence].
Qed.
(** The first instant of a day. *)
Definition day_at (sc : scale) (y m d : Z) : Z :=
  match sc with InZone _ _ => 86400 * (hdn y m d - hdn 1970 1 1) | _ => hdn y m d - hdn 1970 1 1 end.
Lemma before_day sc d y m : sc <> Offsets -> valid_dt d -> 1 <= m <= 12 -> (mYear d < y \/ mYear d = y /\ mMonth d < m) -> on_scale sc d < day_at sc y m 1.
Proof.
  intros NO V Hm L. pose proof (valid_secs d V). destruct V as (V & _).
  pose proof (dn_lt hist_leap Lh Lh_step _ _ _ y m 1 V (valid_first hist_leap y m Hm) ltac:(lia)) as H1.
  fold (hdn (mYear d) (mMonth d) (mDay d)) (hdn y m 1) in H1. destruct sc; cbn [on_scale day_at]; unfold civil; [lia|lia|congruence].
Qed.
Lemma from_day sc d y m : sc <> Offsets -> valid_dt d -> 1 <= m <= 12 -> (y < mYear d \/ y = mYear d /\ m <= mMonth d) -> day_at sc y m 1 <= on_scale sc d.
Proof.
  intros NO V Hm L. pose proof (valid_secs d V). destruct V as (V & _).
  assert (H1 : hdn y m 1 <= hdn (mYear d) (mMonth d) (mDay d)).
  { destruct (Z.eq_dec (mDay d) 1) as [E|E]; [destruct (Z.eq_dec y (mYear d)); [destruct (Z.eq_dec m (mMonth d))|]|];
      [subst; rewrite E; lia| | |];
      pose proof (dn_lt hist_leap Lh Lh_step y m 1 _ _ _ (valid_first hist_leap y m Hm) V) as Q;
      fold (hdn (mYear d) (mMonth d) (mDay d)) (hdn y m 1) in Q; destruct V as [_ V]; cbn in V; specialize (Q ltac:(lia)); lia. }
  destruct sc; cbn [on_scale day_at]; unfold civil; [lia|lia|congruence].
Qed.
Lemma day_mono sc y m y' m' : 1 <= m <= 12 -> 1 <= m' <= 12 -> (y < y' \/ y = y' /\ m <= m') -> day_at sc y m 1 <= day_at sc y' m' 1.
Proof.
  intros Hm Hm' L. assert (H1 : hdn y m 1 <= hdn y' m' 1).
  { destruct (Z.eq_dec y y'); [destruct (Z.eq_dec m m'); [subst; lia|]|];
      pose proof (dn_lt hist_leap Lh Lh_step y m 1 y' m' 1 (valid_first hist_leap y m Hm) (valid_first hist_leap y' m' Hm') ltac:(lia)) as Q;
      fold (hdn y m 1) (hdn y' m' 1) in Q; lia. }
  destruct sc; cbn [day_at]; lia.
Qed.

(** Comparison of a date whose day may be missing from its month. *)
Lemma after_months tzo sc range e d : snd (getEnd range) = Ok e -> scaled sc e -> scaled sc d ->
  exists c, isDateAfterPeriod tzo range d = Ok c /\
    (c = true -> mYear e < mYear d \/ mYear e = mYear d /\ mMonth e <= mMonth d) /\ (mYear e < mYear d -> c = true).
Proof.
  intros E Se Sd. unfold isDateAfterPeriod. rewrite E. cbn [rbind]. unfold dt_ge.
  assert (C : compareDateTime tzo d e = Ok (cmp_date d e) \/ compareDateTime tzo d e = Ok (cmp_fields d e)).
  { unfold compareDateTime. destruct sc as [u t| |]; cbn in Se, Sd; [|left; rewrite Se, orb_true_r; reflexivity|tauto].
    destruct Se as (A & B & C), Sd as (A' & B' & C'). rewrite A, A', B, B', C, C'. cbn [orb]. rewrite tz_same_refl. auto. }
  assert (Q : forall c, c = cmp_date d e \/ c = cmp_fields d e ->
    (0 <= c -> mYear e < mYear d \/ mYear e = mYear d /\ mMonth e <= mMonth d) /\ (mYear e < mYear d -> 0 <= c)).
  { intros c. unfold cmp_fields, cmp_date, pycmp.
    destruct (mYear d <? mYear e) eqn:?; [|destruct (mYear d =? mYear e) eqn:?; [destruct (mMonth d <? mMonth e) eqn:?|]];
      cbn; intros [->| ->]; cbn; lia. }
  destruct C as [-> | ->]; cbn [rbind]; eexists; split; try reflexivity.
  - destruct (Q _ (or_introl eq_refl)). split; intros; [apply H; lia|]. specialize (H0 H1). lia.
  - destruct (Q _ (or_intror eq_refl)). split; intros; [apply H; lia|]. specialize (H0 H1). lia.
Qed.

Section Main.
Variable tzo : tzid -> Z -> Z -> Z -> Z -> Z -> Z -> bool -> bool -> Z.
Variables (sc : scale) (off : Z) (r : rule) (start : dt) (range : period) (lim : option Z) (a w b : Z) (R : Z -> Z -> Prop).
Hypothesis R_lt : forall x y, x < y -> R x y.
Hypothesis R_le : forall x y, R x y -> x <= y.
Hypothesis call : by_call sc off r start range lim a w b.
Hypothesis sorted_sets : forall s o, set_start s -> scaled sc s -> (step_months r = None -> valid_dt s) -> 1902 <= mYear s <= 2099 ->
  coherent tzo s -> generate_set tzo r s = Ok o -> in_order tzo o -> describes o (selects r s) -> StronglySorted R (map (on_scale sc) o).

Lemma computes_by : exists N, forall fuel, (N <= fuel)%nat -> exists recs full zs,
  compute tzo fuel r (normalise start) range off None = Some (recs, Ok full) /\
  Forall2 (instant sc) recs zs /\ StronglySorted R zs /\
  (forall x, In x zs <-> by_instances sc r lim start a x /\ x < b) /\
  (full = true -> forall x, by_instances sc r lim start a x -> x < b).
Proof.
  destruct call as (NO & HB & HOk & Ia & Y0 & (e & Ee & Ie & kz & s & Hk & Is & Ys) & Iw & Un).
  assert (Hint : 1 <= rInterval r) by apply HOk.
  set (v := fun k : nat => interval_start r (normalise start) k).
  pose proof Ie as Ie'. apply instant_iff in Ie' as (Ve & Se & Eb); [|exact NO].
  pose proof Ia as Ia'. apply instant_iff in Ia' as (Vst & Sst & Ea); [|exact NO].
  set (K := Z.to_nat kz).
  assert (J : exists (B : nat -> Z),
    (forall k, set_start (v k) /\ scaled sc (v k) /\ (step_months r = None -> valid_dt (v k)) /\ 1902 <= mYear (v k)) /\
    (forall k, (k <= K)%nat -> mYear (v k) <= 2099) /\
    (forall k d, selects r (v k) d -> instant sc d (on_scale sc d) -> B k <= on_scale sc d < B (S k)) /\
    (forall k, B k <= B (S k)) /\
    (forall k, (k <= K)%nat -> exists c, isDateAfterPeriod tzo range (v k) = Ok c /\ (c = true -> b <= B (S k))) /\
    isDateAfterPeriod tzo range (v K) = Ok true).
  { destruct (units_or_months sc r start a NO HOk Ia) as [(u & U & SM)|(p & SM)].
    - assert (Iv : forall k, instant sc (v k) (a + Z.of_nat k * (rInterval r * u))) by (intro k; apply (v_units no_tz); assumption).
      assert (Hu : 0 < u) by (destruct sc, (rFreq r); cbn in U; try discriminate U; apply Some_eq in U; subst u; lia).
      set (st := rInterval r * u) in *. assert (Hst : u <= st) by (unfold st; nia).
      assert (Gv : forall k, valid_dt (v k) /\ scaled sc (v k) /\ on_scale sc (v k) = a + Z.of_nat k * st).
      { intro k. specialize (Iv k). apply instant_iff in Iv as (A & B & C); auto. }
      assert (Yv : forall k, 1902 <= mYear (v k)).
      { intro k. destruct (Gv k) as (A & _ & C). pose proof (scale_year sc start (v k) NO Vst A ltac:(nia)). lia. }
      unfold interval_at in Is. rewrite SM in Is. destruct Is as (u' & U' & Is). rewrite U in U'. apply Some_eq in U'. subst u'. fold st in Is.
      apply instant_iff in Is as (Vs & Ss & Es); [|exact NO].
      assert (EK : on_scale sc (v K) = on_scale sc s) by (destruct (Gv K) as (_ & _ & ->); unfold K; rewrite Z2Nat.id by exact Hk; exact Es).
      exists (fun k => u * ((a + shift sc r) / u + Z.of_nat k * rInterval r) - shift sc r).
      assert (Bk : forall k, u * ((a + shift sc r) / u + Z.of_nat k * rInterval r) = u * ((on_scale sc (v k) + shift sc r) / u)).
      { intro k. destruct (Gv k) as (_ & _ & ->). f_equal. unfold st.
        replace (a + Z.of_nat k * (rInterval r * u) + shift sc r) with (a + shift sc r + Z.of_nat k * rInterval r * u) by lia.
        rewrite Z.div_add by lia. reflexivity. }
      split; [|split; [|split; [|split; [|split]]]].
      + intro k. destruct (Gv k) as (A & B & C). split; [split; [apply valid_month, A|apply A]|]. split; [exact B|]. split; [auto|apply Yv].
      + intros k Hk'. destruct (Gv k) as (A & _ & C).
        pose proof (scale_year sc (v k) s NO A Vs) as H. rewrite <- EK in H. destruct (Gv K) as (_ & _ & ->) in H. rewrite C in H.
        specialize (H ltac:(nia)). lia.
      + intros k d Sel Id. destruct (Gv k) as (A & B & C).
        pose proof (same_bucket sc r (v k) d u HOk U A B (Yv k) Sel) as Bu. rewrite Nat2Z.inj_succ.
        replace (u * ((a + shift sc r) / u + Z.succ (Z.of_nat k) * rInterval r)) with (u * ((a + shift sc r) / u + Z.of_nat k * rInterval r) + st) by (unfold st; lia).
        rewrite Bk, <- Bu. set (z := on_scale sc d) in *. pose proof (Z.mul_div_le (z + shift sc r) u Hu).
        pose proof (Z.mul_succ_div_gt (z + shift sc r) u Hu). lia.
      + intro k. nia.
      + intros k Hk'. eexists. split; [apply (after_spec tzo sc range e b (v k) _ Ee Ie (Iv k))|]. intro L.
        rewrite Nat2Z.inj_succ. replace (u * ((a + shift sc r) / u + Z.succ (Z.of_nat k) * rInterval r)) with (u * ((a + shift sc r) / u + Z.of_nat k * rInterval r) + st) by (unfold st; lia).
        rewrite Bk. destruct (Gv k) as (_ & _ & C). rewrite C. set (z := a + Z.of_nat k * st) in *.
        pose proof (Z.mul_succ_div_gt (z + shift sc r) u Hu). lia.
      + rewrite (after_spec tzo sc range e b (v K) _ Ee Ie (Iv K)). destruct (Gv K) as (AK & _ & CK). rewrite <- CK, EK. f_equal.
        destruct (Z.leb_spec b (on_scale sc s)) as [|G]; [reflexivity|exfalso].
        pose proof (scale_year sc s e NO Vs Ve ltac:(lia)). lia.
    - assert (Mv : forall k, months_later start (Z.of_nat k * p) (v k)) by (intro k; apply (v_months no_tz sc r start a); assumption).
      assert (Hp : 1 <= p) by (unfold step_months in SM; destruct (rFreq r); try discriminate SM; apply Some_eq in SM; lia).
      assert (Sv : forall k, scaled sc (v k)) by (intro k; apply (months_scaled sc start _ _ (Mv k)); exact Sst).
      assert (Nv : forall k, 1 <= mMonth (v k) <= 12 /\ 12 * mYear (v k) + mMonth (v k) = 12 * mYear start + mMonth start + Z.of_nat k * p).
      { intro k. destruct (Mv k) as (_ & _ & _ & _ & _ & _ & _ & A & B). auto. }
      pose proof (valid_month start Vst) as Ms.
      unfold interval_at in Is. rewrite SM in Is. destruct Is as (_ & _ & _ & _ & _ & _ & _ & A8 & A9).
      assert (EK : mYear (v K) = mYear s).
      { destruct (Nv K) as [A B]. assert (Z.of_nat K = kz) by (unfold K; lia). rewrite H in B. lia. }
      assert (Mon : forall j k, (j <= k)%nat -> 12 * mYear (v j) + mMonth (v j) <= 12 * mYear (v k) + mMonth (v k)).
      { intros j k L. destruct (Nv j) as [_ ->], (Nv k) as [_ ->]. nia. }
      assert (Nxt : forall k, (rFreq r = MONTHLY /\ 12 * mYear (v k) + mMonth (v k) < 12 * mYear (v (S k)) + mMonth (v (S k))) \/
                              (rFreq r = YEARLY /\ mYear (v k) < mYear (v (S k)))).
      { intro k. destruct (Nv k) as [A1 B1], (Nv (S k)) as [A2 B2]. unfold step_months in SM. destruct (rFreq r); try discriminate SM; apply Some_eq in SM; [left|right]; split; auto; nia. }
      set (m := fun k => match rFreq r with YEARLY => 1 | _ => mMonth (v k) end).
      assert (Mm : forall k, 1 <= m k <= 12) by (intro k; unfold m; destruct (rFreq r); try lia; apply Nv).
      assert (Aft : forall k d, valid_dt d -> (mYear d < mYear (v k) \/ mYear d = mYear (v k) /\ mMonth d <= mMonth (v k)) ->
        on_scale sc d < day_at sc (mYear (v (S k))) (m (S k)) 1).
      { intros k d Vd L. apply before_day; auto. destruct (Nv k) as [A1 _], (Nv (S k)) as [A2 _].
        unfold m. destruct (Nxt k) as [(F & H)|(F & H)]; rewrite F; lia. }
      assert (Sel : forall k d, selects r (v k) d -> (rFreq r = MONTHLY /\ mYear d = mYear (v k) /\ mMonth d = mMonth (v k)) \/ (rFreq r = YEARLY /\ mYear d = mYear (v k))).
      { intros k d (_ & _ & H). unfold step_months in SM. destruct (rFreq r); try discriminate SM; [left|right]; (split; [reflexivity|]).
        - destruct H as (_ & _ & A & B & _). auto.
        - apply year_days_year in H as [_ H]. exact H. }
      exists (fun k => day_at sc (mYear (v k)) (m k) 1). split; [|split; [|split; [|split; [|split]]]].
      + intro k. destruct (Mv k) as (M1 & M2 & M3 & M4 & _). destruct (Nv k) as [A B]. split; [|split; [apply Sv|split; [rewrite SM; discriminate|nia]]].
        split; [exact A|]. unfold secs_of_day. rewrite M1, M2, M3, M4. split; [apply Vst|]. intro D. apply Vst, D.
      + intros k L. specialize (Mon k K L). destruct (Nv k) as [A _], (Nv K) as [A' _]. lia.
      + intros k d Hs Id. assert (Vd : valid_dt d) by apply Id. split.
        * apply from_day; auto. unfold m. destruct (Sel k d Hs) as [(-> & H)|(-> & H)]; [lia|]. pose proof (valid_month d Vd). lia.
        * destruct (Sel k d Hs) as [(F & H)|(F & H)]; [apply Aft; auto; lia|].
          apply before_day; auto. destruct (Nxt k) as [(F' & _)|(_ & H')]; [congruence|]. left. lia.
      + intro k. apply day_mono; auto. unfold m. destruct (Nv k), (Nv (S k)). destruct (Nxt k) as [(-> & H')|(-> & H')]; lia.
      + intros k L. destruct (after_months tzo sc range e (v k) Ee Se (Sv k)) as (c & Ec & Hc & _). exists c. split; [exact Ec|]. intro Q.
        rewrite Eb. apply Z.lt_le_incl, Aft; auto.
      + destruct (after_months tzo sc range e (v K) Ee Se (Sv K)) as (c & Ec & _ & Hc). rewrite Ec, Hc by (rewrite EK; lia). reflexivity. }
  destruct J as (B & Gv & Yv & Ins & Gr & Af & AfK).
  destruct (core tzo sc r off start e range lim a b R R_lt R_le NO HB (proj1 (proj2 HOk)) Ia Ee Ie Un B K) as (N & HN).
  - intros k Hk'. destruct (Gv k) as (SS & Sv & Vv & Y1). specialize (Yv k Hk').
    destruct (set_selects tzo sc r (v k) HOk SS Vv ltac:(lia)) as (o & Eo & IO & D). exists o. split; [exact Eo|]. split; [exact D|].
    apply (sorted_sets (v k)); auto; try lia; apply v_coh.
  - intros k d Hk' Hs. destruct (Gv k) as (SS & Sv & Vv & Y1). destruct (selects_valid sc r (v k) d HOk SS Sv Vv Y1 Hs) as (A1 & A2 & _).
    apply instant_iff; auto.
  - exact Ins.
  - exact Gr.
  - exact Af.
  - exact AfK.
  - exists N. intros fuel Hf. destruct (HN fuel Hf) as (recs & full & zs & E & F & S & M & L).
    exists recs, full, zs. split; [exact E|]. split; [exact F|]. split; [exact S|].
    assert (Al : forall x, (exists k d, selects r (interval_start r (normalise start) k) d /\ instant sc d x) <->
      (exists k s e, 0 <= k /\ interval_at sc r start a k s /\ selects r s e /\ instant sc e x)) by (intro x; apply (all_intervals no_tz); assumption).
    split.
    + intro x. rewrite M. unfold by_instances. rewrite Al. reflexivity.
    + intros Lf x (A1 & A2 & A3). apply L; auto. apply Al, A3.
Qed.
End Main.

(** The instances below the bound of the cache, cut down to the window. *)
Lemma in_range_by tzo sc range e w b b' recs xs R (P : Z -> Prop) full :
  snd (getEnd range) = Ok e -> instant sc (pStart range) w -> instant sc e b ->
  Forall2 (instant sc) recs xs -> StronglySorted R xs -> (forall x, In x xs <-> P x /\ x < b') ->
  (full = true -> forall x, P x -> x < b') -> full = true \/ b <= b' ->
  exists sel limited ys, in_range tzo range recs (negb full) [] = (sel, Ok limited) /\
  Forall2 (instant sc) sel ys /\ StronglySorted R ys /\ (forall x, In x ys <-> P x /\ w <= x < b) /\
  (limited = false -> forall x, P x -> w <= x < b).
Proof.
  intros E Iw Ib F S M Full Ok'.
  destruct (in_range_spec tzo sc range e w b E Iw Ib recs xs F (negb full) []) as (sel & -> & G). cbn [app].
  eexists; eexists; exists (filter (fun x => (w <=? x) && (x <? b)) xs); split; [reflexivity|]. split; [exact G|].
  split; [apply sorted_keep, S|]. split.
  - intro x. rewrite filter_In, M. split.
    + intros ((H & _) & L). split; [exact H|]. lia.
    + intros (H & L). split; [|lia]. split; [exact H|]. destruct Ok' as [Ok'|Ok']; [|lia]. apply Full; auto.
  - intros L x Px. apply orb_false_iff in L as [Lf L]. apply negb_false_iff in Lf.
    destruct ((w <=? x) && (x <? b)) eqn:Wx; [lia|]. exfalso. enough (X : existsb (fun x => negb ((w <=? x) && (x <? b))) xs = true) by congruence.
    apply existsb_exists. exists x. split; [apply M; auto|]. rewrite Wx. reflexivity.
Qed.
Lemma fresh_by tzo sc off r start range (P : Z -> Prop) w b R :
  (exists e, snd (getEnd range) = Ok e /\ instant sc e b) -> instant sc (pStart range) w ->
  (exists N, forall fuel, (N <= fuel)%nat -> exists recs full zs,
  compute tzo fuel r (normalise start) range off None = Some (recs, Ok full) /\
  Forall2 (instant sc) recs zs /\ StronglySorted R zs /\
  (forall x, In x zs <-> P x /\ x < b) /\ (full = true -> forall x, P x -> x < b)) ->
  exists N, forall fuel, (N <= fuel)%nat -> exists c items limited zs,
  expand tzo fuel r cache_init start range off None = Some (c, (items, Ok limited)) /\
  Forall2 (instant sc) items zs /\ StronglySorted R zs /\ (forall x, In x zs <-> P x /\ w <= x < b) /\
  (limited = false -> forall x, P x -> w <= x < b).
Proof.
  intros (e & E & Ie) Iw (N & H). exists N. intros fuel Hf. destruct (H fuel Hf) as (recs & full & zs & Ec & F & S & M & Full).
  rewrite expand_new, Ec, E. destruct (in_range_by tzo sc range e w b b recs zs R P full E Iw Ie F S M Full ltac:(lia)) as (sel & limited & ys & -> & H1 & H2 & H3 & H4).
  eexists; exists sel, limited, ys. auto.
Qed.
Lemma call_end sc off r start range lim a w b : by_call sc off r start range lim a w b ->
  (exists e, snd (getEnd range) = Ok e /\ instant sc e b) /\ instant sc (pStart range) w.
Proof. intros (_ & _ & _ & _ & _ & (e & E & Ie & _) & Iw & _). split; [exists e; auto|exact Iw]. Qed.

Lemma computes_le tzo sc off r start range lim a w b : by_call sc off r start range lim a w b -> clock_ordered tzo sc ->
  exists N, forall fuel, (N <= fuel)%nat -> exists recs full zs,
  compute tzo fuel r (normalise start) range off None = Some (recs, Ok full) /\
  Forall2 (instant sc) recs zs /\ StronglySorted Z.le zs /\
  (forall x, In x zs <-> by_instances sc r lim start a x /\ x < b) /\
  (full = true -> forall x, by_instances sc r lim start a x -> x < b).
Proof.
  intros C CO. apply (computes_by tzo sc off r start range lim a w b Z.le ltac:(lia) ltac:(lia) C).
  intros s o SS Sc V Y Ch E IO D. destruct C as (NO & _ & HOk & _). apply (set_sorted tzo sc r s o); assumption.
Qed.
Lemma by_parts_le tzo sc off r start range lim a w b : by_call sc off r start range lim a w b -> clock_ordered tzo sc ->
  exists N, forall fuel, (N <= fuel)%nat -> exists c items limited,
  expand tzo fuel r cache_init start range off None = Some (c, (items, Ok limited)) /\
  lists_in_order sc items (fun x => by_instances sc r lim start a x /\ w <= x < b) /\
  (limited = false -> forall x, by_instances sc r lim start a x -> w <= x < b).
Proof.
  intros C CO. destruct (call_end _ _ _ _ _ _ _ _ _ C) as [Ee Iw].
  destruct (fresh_by tzo sc off r start range _ w b Z.le Ee Iw (computes_le tzo sc off r start range lim a w b C CO)) as (N & H).
  exists N. intros fuel Hf. destruct (H fuel Hf) as (c & items & limited & zs & E & F & S & M & L). exists c, items, limited.
  split; [exact E|]. split; [|exact L]. exists zs. auto.
Qed.
Lemma by_parts_lt tzo sc off r start range lim a w b : by_call sc off r start range lim a w b -> only_limits r ->
  exists N, forall fuel, (N <= fuel)%nat -> exists c items limited,
  expand tzo fuel r cache_init start range off None = Some (c, (items, Ok limited)) /\
  enumerates sc items (fun x => by_instances sc r lim start a x /\ w <= x < b) /\
  (limited = false -> forall x, by_instances sc r lim start a x -> w <= x < b).
Proof.
  intros C CO. destruct (call_end _ _ _ _ _ _ _ _ _ C) as [Ee Iw].
  destruct (fresh_by tzo sc off r start range (by_instances sc r lim start a) w b Z.lt Ee Iw) as (N & H).
  - apply (computes_by tzo sc off r start range lim a w b Z.lt ltac:(lia) ltac:(lia) C).
    intros s o SS Sc V Y Ch E IO D. apply small_sorted. rewrite map_length. apply (limits_small tzo r s); [exact CO|apply C|exact E].
  - exists N. intros fuel Hf. destruct (H fuel Hf) as (c & items & limited & zs & E & F & S & M & L). exists c, items, limited.
    split; [exact E|]. split; [|exact L]. exists zs. auto.
Qed.

(** ** Zones whose clock is ordered *)
Lemma ok_eq {A} (x y : A) : Ok x = Ok y -> x = y. Proof. congruence. Qed.
Lemma posix_rebuilt tzo d p : valid_dt d -> 1901 <= mYear d <= 2100 -> snd (getPosixTime tzo (rebuilt d)) = Ok p ->
  p = 86400 * (hdn (mYear d) (mMonth d) (mDay d) - hdn 1970 1 1) + secs_of_day d - tz_lookup tzo d false.
Proof.
  intros V Y P. pose proof (valid_month d V).
  rewrite getPosixTime_fresh, fresh_posix_ok in P by auto using coh_rebuilt.
  change (tz_lookup tzo (rebuilt d) false) with (tz_lookup tzo d false) in P. change (secs_of_day (rebuilt d)) with (secs_of_day d) in P.
  cbn [rebuilt mYear mMonth mDay] in P. apply ok_eq in P. rewrite code_days_ok in P by lia. lia.
Qed.
Lemma fixed_ordered tzo u t : u = true \/ (exists n, t = TzInt n) -> clock_ordered tzo (InZone u t).
Proof.
  intros Z d e x y p q Id Ie _ Yd Ye P Q L.
  apply instant_civil in Id as (Vd & _ & Ud & Td & ->). apply instant_civil in Ie as (Ve & _ & Ue & Te & ->).
  apply posix_rebuilt in P, Q; auto. assert (tz_lookup tzo d false = tz_lookup tzo e false).
  { unfold tz_lookup. rewrite Ud, Ue, Td, Te. destruct Z as [->|(n & ->)]; [|destruct u]; reflexivity. }
  unfold civil in L. lia.
Qed.
Lemma dates_ordered tzo : small_changes tzo -> clock_ordered tzo Dates.
Proof.
  intros Sm d e x y p q Id Ie [SU ST] Yd Ye P Q L.
  apply instant_days in Id as (Vd & Dd & ->). apply instant_days in Ie as (Ve & De & ->).
  apply posix_rebuilt in P, Q; auto. rewrite (date_secs d Vd Dd) in P. rewrite (date_secs e Ve De) in Q.
  assert (Z.abs (tz_lookup tzo d false - tz_lookup tzo e false) < 86400).
  { unfold tz_lookup. rewrite SU, ST, Dd, De. destruct (mTZUTC e); [lia|]. destruct (mTZID e); try apply Sm. lia. }
  lia.
Qed.
