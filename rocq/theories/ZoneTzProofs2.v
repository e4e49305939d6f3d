(** Proofs about the VTIMEZONE components written by the tz compiler: the recurrence rule of a tz rule. *)
From Coq Require Import Lia ZifyBool ZifyNat Sorting.Permutation Sorting.Sorted.
From Verif Require Import PyBase PyProofs CalModel CalSpec DateTimeModel DateTimeSpec DateTimeSpec2 CalProofs DateTimeProofs DateTimeProofs2
  DateTimeProofs3 DateTimeProofs4 PeriodSpec PeriodProofs RecurModel RecurSpec RecurExpand RecurExpandSpec RecurSetSpec RecurTextProofs2 RecurSimpleProofs RecurByPartsSpec RecurByPartsProofs3
  RecurSetModel RecurUnionSpec VTimezoneModel VTimezoneSpec
  ZonalModel ZonalProofs ZonalProofs2 ZonalProofs4 ZoneTzModel ZoneTzSpec ZoneProofs ZoneTzProofs.
Ltac Zify.zify_post_hook ::= Z.div_mod_to_equations.

Lemma parts_dim a b o w : a = b \/ o = 1 \/ o = 8 \/ o = 15 \/ o = 22 -> parts_of a o w = parts_of b o w.
Proof. intros [->|[->|[->|[->| ->]]]]; reflexivity. Qed.
Lemma parts_days dim o w : 1 <= o -> o + 6 <= dim -> match snd (parts_of dim o w) with Some l => l <> [] /\ Forall (fun n => 1 <= n) l | None => True end.
Proof.
  intros Ho Hd. unfold parts_of. repeat match goal with |- context [Z.eqb ?a ?b] => destruct (Z.eqb_spec a b) end; try exact I. cbn [snd]. split.
  - cbn [map filter]. replace (o + 0 <=? dim) with true by lia. discriminate.
  - apply Forall_forall. intros kk H. apply filter_In in H as [H _]. apply in_map_iff in H as (i & <- & H). cbn [In] in H. lia.
Qed.
Lemma details_days y m p d0 e : 1 <= m <= 12 -> match snd p with Some l => l <> [] /\ Forall (fun n => 1 <= n) l | None => True end ->
  (month_days (of_details m p) y m d0 e <-> by_selects y m p e).
Proof.
  intros Hm P. destruct p as ((o, w), ds). cbn [snd] in P. unfold month_days, of_details, by_selects, yearly, listed, given, is_month_weekday. cbn [rByMonthDay rByDay].
  destruct e as ((ey, em), ed). unfold year_of, month_of, day_of. cbn [fst snd]. split.
  - intros (V & -> & -> & L & (nw & [<-|[]] & W & F & B) & _). exists ed. cbn [fst snd] in *. repeat split; auto; try apply V.
    destruct ds as [[|n l]|]; [destruct P as [[] _]; reflexivity| |exact I]. destruct P as [_ P]. rewrite Forall_forall in P.
    destruct L as (v & Hv & [[_ E]|[H _]]); [|specialize (P v Hv); lia]. unfold day_of in E. cbn [snd] in E. subst v. exact Hv.
  - intros (d & E & V & W & F & B & L). injection E as -> -> ->. split; [exact V|]. split; [reflexivity|]. split; [reflexivity|]. split; [|split].
    + destruct ds as [[|n l]|]; [exact I| |exact I]. exists d. split; [exact L|]. destruct P as [_ P]. rewrite Forall_forall in P. left. specialize (P d L). unfold day_of. cbn [snd]. lia.
    + exists (o, w). split; [left; reflexivity|]. cbn [fst snd]. auto.
    + intros _ []. exact I.
Qed.
Lemma parts_month y m o w d0 e : 1 <= m <= 12 -> 1 <= o -> o + 6 <= month_len greg_leap y m ->
  (month_days (of_details m (parts_of (month_len greg_leap y m) o w)) y m d0 e <-> exists d, e = (y, m, d) /\ o <= d <= o + 6 /\ wd_at y m d = w).
Proof.
  intros Hm Ho Hd. rewrite details_days; [|exact Hm|apply parts_days; assumption]. rewrite parts_select by assumption. unfold wd_at.
  split; intros (d & -> & R & W); exists d; auto.
Qed.

(** What is common to the recurrence rules. *)
Definition plain (m : Z) (rr : rule) : Prop :=
  exists bd bm, rr = yearly [m] bd bm None /\ match bd with Some [(n, w)] => -5 <= n <= 5 /\ 0 <= w <= 6 | Some _ => False | None => True end /\
    match bm with Some l => l <> [] /\ Forall (fun n => 1 <= n <= 31) l | None => True end.
Lemma details_plain m dim o w : 1 <= o -> o + 6 <= dim -> dim <= 31 -> 0 <= w <= 6 -> plain m (of_details m (parts_of dim o w)).
Proof.
  intros Ho Hd Hd' Hw. unfold parts_of. repeat match goal with |- context [Z.eqb ?a ?b] => destruct (Z.eqb_spec a b) end; cbn [of_details];
    (eexists; eexists; split; [reflexivity|]; split; [lia|]); try exact I.
  destruct (filter _ _) as [|x l] eqn:E; [exact I|]. split; [discriminate|]. rewrite <- E. apply Forall_forall. intros kk H. apply filter_In in H as [H H']. apply in_map_iff in H as (i & <- & H). cbn [In] in H. lia.
Qed.

Lemma rule_parts_days r f off std y0 start d0 : form_of r f -> stays f off std -> 1901 <= y0 <= 2100 -> valid_dt start ->
  ymd start = (y0, fmMonth f, d0) -> window y0 (fmMonth f) (fmOn f) (moved f off std) d0 ->
  exists rr, rule_parts r start = Ok rr /\ plain (fmMonth f) rr /\
    forall y e, 1752 < y -> (month_days rr y (fmMonth f) d0 e <-> exists d, e = (y, fmMonth f, d) /\ window y (fmMonth f) (fmOn f) (moved f off std) d).
Proof.
  intros (Hm & Ei & To & Na & _) S Hy V Ey W. unfold rule_parts. rewrite Ei, mon_in by exact Hm. cbn [rbind].
  unfold ymd in Ey. injection Ey as Yy Ym Yd.
  assert (Wd : getDayOfWeek start = Ok (wd_at y0 (fmMonth f) d0)).
  { rewrite wd_ok by lia. rewrite Yy, Ym, Yd. unfold wd_at. rewrite !gdn_hdn by lia. reflexivity. }
  pose proof (stays_ok f off std y0 Hm S) as Ho. pose proof (len_30 _ Hm) as L30. unfold stays in S. set (m := fmMonth f) in *. set (sh := moved f off std) in *.
  destruct (len_common y0 m Hm) as [L0 E0].
  assert (Sel : forall w n, 0 <= w <= 6 -> 1 <= n <= month_len greg_leap y0 m -> (sh = 0 \/ sh = 1 \/ sh = -1) -> n + sh <= d0 <= n + sh + 6 -> wd_at y0 m d0 = (w + sh) mod 7 ->
     valid_date greg_leap (y0, m, d0) -> exists e, nth_wd_from (y0, m, n) w 1 e /\ days_between greg_leap e (ymd start) sh).
  { intros w n Hw Hn Hs R Wv Vd. assert (Vn : valid_date greg_leap (y0, m, n)) by (unfold valid_date; lia).
    assert (E : exists dd, valid_date greg_leap dd /\ gdn dd = gdn (y0, m, d0) - sh).
    { destruct Hs as [->|[->| ->]]; [exists (y0, m, d0); split; [exact Vd|lia]|destruct (days_back _ 1 Vd) as (b & Vb & Eb)|destruct (days_fwd _ 1 Vd) as (b & Vb & Eb)]; exists b; (split; [exact Vb|lia]). }
    destruct E as (dd & Vdd & E). exists dd. split.
    - apply nth_from_iff; [exact Vn|exact Vdd|]. rewrite E, (gdn_first y0 m n), (gdn_first y0 m d0). unfold wd_at in Wv. rewrite (gdn_first y0 m d0) in Wv. split; [lia|]. split; lia.
    - unfold ymd. rewrite Yy, Ym, Yd. apply gb; [exact Vdd|exact Vd|lia]. }
  pose proof (window_valid f off std y0 d0 Hm) as Vd. fold m sh in Vd.
  destruct (fmOn f) as [w|w n|w n|n] eqn:Eo; cbn [on_text window on_ok] in *.
  - destruct S as (Hw & S). rewrite To. destruct (last_in w Hw) as [Il Tl]. rewrite Il, Wd. cbn [rbind]. rewrite Tl. cbn [rbind].
    assert (Vd' : valid_date greg_leap (y0, m, d0)) by (apply Vd; [unfold stays; rewrite Eo; fold m sh; auto|exact W]).
    destruct W as [R Wv]. destruct S as [S|[S S2]].
    + replace (wd_at y0 m d0 =? w) with true by lia. eexists. split; [reflexivity|]. split.
      { eexists. exists None. split; [reflexivity|]. split; [lia|exact I]. }
      intros y e Y. change (yearly [m] (Some [(-1, w)]) None None) with (of_details m (-1, w, None)). rewrite details_days by (auto; exact I). rewrite by_iff by exact Hm.
      destruct (len_common y m Hm) as [Ly _]. split.
      * intros (d & -> & Rd & Ww & _ & B & _). exists d. split; [reflexivity|]. specialize (B ltac:(lia)). split; [lia|]. unfold wd_at. lia.
      * intros (d & -> & Rd & Ww). exists d. split; [reflexivity|]. split; [lia|]. split; [unfold wd_at in Ww; lia|]. split; [lia|]. split; [lia|exact I].
    + rewrite S in Wv. replace (wd_at y0 m d0 =? w) with false by lia.
      replace ((wd_at y0 m d0 <? w) || ((wd_at y0 m d0 =? 6) && (w =? 0))) with true by lia.
      rewrite Yy, Ym. rewrite daysInMonth_r_ok by exact Hm. rewrite month_len_greg by lia. cbn [rbind].
      set (L := month_len greg_leap y0 m) in *.
      destruct (Sel w (L - 6) Hw ltac:(lia) ltac:(lia) ltac:(lia) ltac:(rewrite S; exact Wv) Vd') as (e & N & B).
      pose proof (details start (L - 6) w sh) as G. cbv zeta in G. rewrite Yy, Ym in G. fold L in G.
      rewrite (proj2 (G _ e V Hy Hw ltac:(lia) ltac:(lia) ltac:(lia) ltac:(lia) N B) eq_refl). cbn [rbind]. eexists. split; [reflexivity|].
      split; [apply details_plain; lia|]. intros y e' Y. destruct (len_common y m Hm) as [_ Ey]. specialize (Ey S2). specialize (E0 S2).
      assert (EL : L = month_len greg_leap y m) by (unfold L; lia). rewrite EL. rewrite parts_month by lia. rewrite S.
      split; intros (d & -> & Rd & Ww); exists d; (split; [reflexivity|]); (split; [lia|exact Ww]).
  - destruct S as (Hw & Hs & Hn & Hn1 & Hn6 & H2). destruct To as [p ->]. rewrite wd_not_last by exact Hw. rewrite wd_split_ge by lia. rewrite Wd. cbn [rbind].
    rewrite wd_in by exact Hw. cbn [rbind]. rewrite pyint_fmt0 by lia. cbn [rbind].
    assert (Vd' : valid_date greg_leap (y0, m, d0)) by (apply Vd; [unfold stays; rewrite Eo; fold m sh; auto 8|exact W]).
    destruct W as [R Wv]. destruct (Sel w n Hw ltac:(lia) Hs R Wv Vd') as (e & N & B).
    pose proof (details start n w sh) as G. cbv zeta in G. rewrite Yy, Ym in G.
    rewrite (proj2 (G _ e V Hy Hw Hs ltac:(lia) Hn1 ltac:(lia) N B) eq_refl). cbn [rbind]. eexists. split; [reflexivity|].
    split; [apply details_plain; try lia; destruct (Z.eq_dec m 2) as [->|]; [unfold month_len; cbn; destruct (greg_leap y0); lia|rewrite E0 by assumption; lia]|].
    intros y e' Y. destruct (len_common y m Hm) as [Ly Ey].
    rewrite (parts_dim _ (month_len greg_leap y m)) by (destruct H2 as [H2|H2]; [left; rewrite (E0 H2), (Ey H2); reflexivity|right; exact H2]).
    rewrite parts_month by lia. reflexivity.
  - exfalso. eapply Na. reflexivity.
  - destruct To as [p ->]. destruct (fmt0_head p n ltac:(lia)) as (c & t & E & _ & Ad). rewrite digits_not_last by (rewrite E; exact Ad).
    rewrite split_ge_no by (apply fmt0_cin; [reflexivity|lia]). rewrite pyint_fmt0 by lia. eexists. split; [reflexivity|]. split.
    { exists None, None. split; [reflexivity|]. split; exact I. }
    intros y e Y. unfold month_days, yearly, listed, given. cbn [rByMonthDay rByDay]. destruct e as ((ey, em), ed). unfold year_of, month_of, day_of. cbn [fst snd].
    destruct (len_common y m Hm) as [Ly _]. split.
    + intros (_ & -> & -> & _ & _ & E'). exists ed. split; [reflexivity|]. specialize (E' (fun x => x) (fun x => x)). lia.
    + intros (d & E' & ->). injection E' as -> -> ->. split; [unfold valid_date; lia|]. repeat split; auto.
Qed.
