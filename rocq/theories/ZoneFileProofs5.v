(** Proofs for C74: the sub-components of a zone can be written. *)
From Coq Require Import Lia ZifyBool ZifyNat Sorting.Permutation Sorting.Sorted.
From Verif Require Import PyBase PyProofs CalModel CalSpec DateTimeModel DateTimeSpec DateTimeSpec2 CalProofs DateTimeProofs DateTimeProofs2
  DateTimeProofs3 DateTimeProofs4 PeriodSpec PeriodProofs RecurModel RecurSpec RecurExpand RecurExpandSpec RecurSetSpec RecurTextProofs2 RecurSimpleProofs RecurByPartsSpec RecurByPartsProofs3
  RecurSetModel RecurUnionSpec VTimezoneModel VTimezoneSpec VTimezoneProofs VTimezoneProofs3
  ZonalModel ZoneSpec ZonalProofs ZonalProofs2 ZonalProofs4 ZoneTzModel ZoneTzSpec ZoneProofs ZoneProofs2 ZoneTzProofs ZoneTzProofs2 ZoneTzProofs3 ZoneTzProofs4 ZoneTzProofs5 ZoneTzProofs6 ZoneTzProofs7 ZoneTzProofs8 ZoneTzProofs9.
From Verif Require Import ZoneFileSpec.
Ltac Zify.zify_post_hook ::= Z.div_mod_to_equations.

Lemma valid_printable d : valid_dt d -> 0 <= mYear d <= 9999 -> printable d.
Proof.
  intros (V & (H & M & S) & _) Y. unfold valid_date, ymd in V. destruct V as [V1 V2]. pose proof (month_len_bounds hist_leap (mYear d) (mMonth d)). unfold printable. lia.
Qed.
Lemma second_day y : instant local_time (newDateTime y 1 2 0 0 0 false TzNone) (civil (VTimezoneProofs.new_year y) + 86400).
Proof.
  apply instant_civil. split; [|do 3 (split; [reflexivity|])].
  - split; [|split; [unfold valid_time; cbn [newDateTime mHours mMinutes mSeconds]; lia|discriminate]]. change (1 <= 1 <= 12 /\ 1 <= 2 <= 31). lia.
  - unfold civil, secs_of_day. cbn [VTimezoneProofs.new_year newDateTime mYear mMonth mDay mHours mMinutes mSeconds]. assert (E : hdn y 1 2 = hdn y 1 1 + 1) by (unfold hdn, dn; lia). lia.
Qed.
Lemma year_up a b x y : instant local_time a x -> instant local_time b y -> x <= y -> mYear a <= mYear b.
Proof.
  intros Ia Ib L. pose proof (scale_year local_time a b) as H. cbn [on_scale] in H. pose proof (instant_T _ _ Ia). pose proof (instant_T _ _ Ib). subst. apply H; [discriminate|apply Ia|apply Ib|exact L].
Qed.
Definition local_form (u : dt) : dt := mkDT (mYear u) (mMonth u) (mDay u) (mHours u) (mMinutes u) (mSeconds u) false false TzNone None false 0.
Lemma until_local u c : instant (InZone true TzNone) u c -> instant local_time (local_form u) c.
Proof. intros (V & D & U & T & H). destruct V as (V1 & V2 & V3). split; [split; [exact V1|split; [exact V2|discriminate]]|]. do 3 (split; [reflexivity|]). exact H. Qed.

Lemma rule_fine m rr u : ZoneTzProofs2.plain m rr -> 1 <= m <= 12 -> match u with Some u => until_ok u | None => True end -> rule_ok (untiled rr u).
Proof.
  intros (bd & bm & -> & Hd & Hm) M U.
  assert (R : in_ranges (yearly [m] bd bm None)).
  { unfold in_ranges, yearly. cbn. split; [lia|]. split; [discriminate|]. do 3 (split; [exact I|]). split; [destruct bd as [[|[n w] [|? ?]]|]; try contradiction; [|exact I]; constructor; [cbn; lia|constructor]|].
    split; [destruct bm as [l|]; [|exact I]; eapply Forall_impl; [|apply Hm]; cbn; intros; lia|]. do 2 (split; [exact I|]). split; [constructor; [lia|constructor]|lia]. }
  destruct u as [u|]; (split; [exact R|]); split; cbn; auto; unfold limits_ok; cbn; repeat split; auto; intros; try discriminate.
Qed.
Lemma sub_fits cs s : Forall fits cs -> fine_sub s -> from_changes cs s -> sub_fine s.
Proof.
  intros F Fs (Fd & Fu). rewrite Forall_forall in F. split; [|inversion Fd as [|? ? (c & Hc & _ & Ef & Et & Cn) _]; subst; destruct (F c Hc) as (_ & A & B & C); split; [lia|]; split; [lia|]; split; [exact (C _ _ Cn)|]].
  - assert (At : Forall ZoneTzProofs8.at_time (sbStart s :: sbDates s)).
    { destruct Fs as [(E & A & _)|(_ & _ & A & D)]; constructor; [exact A|rewrite E; constructor|exact A|]. eapply Forall_impl; [|exact D]. intros z [Hz _]; exact Hz. }
    rewrite Forall_forall in *. intros d Hd. destruct (Fd d Hd) as (c & Hc & E & _). destruct (At d Hd) as (V & D & U & T & _). split; [|auto].
    apply valid_printable; [exact V|]. subst d. destruct (F c Hc) as (Y & _). lia.
  - destruct Fs as [(_ & _ & m & rr & u & (P & M) & Er & _)|(Er & _)]; rewrite Er; [|exact I]. apply (rule_fine m rr u P M). destruct u as [u|]; [|exact I].
    destruct (Fu (untiled rr (Some u)) u Er eq_refl) as (e & x & He & Ix & Iu). destruct (F e He) as (Y & _ & _ & _).
    pose proof (until_local _ _ Iu) as Il. pose proof Iu as (V & D & U & T & _). split; [|rewrite U; discriminate]. apply valid_printable; [exact V|]. rewrite Ef in Iu, Il.
    pose proof (year_before _ _ 9999 Ix ltac:(lia)) as Lx. split.
    + pose proof (second_day 1) as S1. destruct (Z.lt_ge_cases (mYear u) 0) as [G|G]; [exfalso|exact G]. pose proof (year_before _ _ 1 Il ltac:(cbn; lia)) as L0.
      destruct (Z.lt_ge_cases (civil (VTimezoneProofs.new_year 1) + 86400) x) as [Q|Q]; [lia|]. pose proof (year_up _ _ _ _ Ix S1 Q) as Q'. cbn [newDateTime mYear] in Q'. lia.
    + pose proof (second_day 9999) as S1. pose proof (year_up _ _ _ _ Il S1 ltac:(lia)) as Q. cbn [newDateTime mYear local_form] in Q. exact Q.
Qed.
Theorem zone_fits tzo zn rules minYear maxYear maxN lmt cs subs : 1901 <= maxYear -> ZoneSpec.new_year maxYear maxN ->
  zone_expand tzo zn rules minYear maxYear = Ok (lmt ++ cs) -> ZoneTzSpec.writable maxYear lmt cs -> Forall fits cs -> zone_vtimezone tzo zn rules minYear maxYear = Ok subs -> Forall sub_fine subs.
Proof.
  intros HM NY Ex Wr F E. destruct (vtimezone_spec tzo zn rules minYear maxYear maxN lmt cs HM NY Ex Wr) as (subs' & E' & Fs & Fc & _). rewrite E in E'. injection E' as <-.
  rewrite Forall_forall in *. intros s Hs. apply (sub_fits cs); [apply Forall_forall; exact F|auto|auto].
Qed.
