(** Proofs about the VTIMEZONE components written by the tz compiler: the component for a run of a rule. *)
From Coq Require Import Lia ZifyBool ZifyNat Sorting.Permutation Sorting.Sorted.
From Verif Require Import PyBase PyProofs CalModel CalSpec DateTimeModel DateTimeSpec DateTimeSpec2 CalProofs DateTimeProofs DateTimeProofs2
  DateTimeProofs3 DateTimeProofs4 PeriodSpec PeriodProofs RecurModel RecurSpec RecurExpand RecurExpandSpec RecurSetSpec RecurTextProofs2 RecurSimpleProofs RecurByPartsSpec RecurByPartsProofs3
  RecurSetModel RecurUnionSpec VTimezoneModel VTimezoneSpec
  ZonalModel ZonalProofs ZonalProofs2 ZonalProofs4 ZoneTzModel ZoneTzSpec ZoneProofs ZoneTzProofs ZoneTzProofs2.
Ltac Zify.zify_post_hook ::= Z.div_mod_to_equations.

Definition tod (f : form) (off std : Z) : Z := (3600 * fmHour f + 60 * fmMin f + heard (fmClock f) off std) mod 86400.
Lemma local_in_iff f off std y x : 1752 < y -> 1 <= fmMonth f <= 12 -> stays f off std ->
  (local_in f off std y x <-> exists d k, window y (fmMonth f) (fmOn f) (moved f off std) d /\
     days_between hist_leap (1970, 1, 1) (y, fmMonth f, d) k /\ x = 86400 * k + tod f off std).
Proof.
  intros Hy Hm S. pose proof (days_window f off std y Hy Hm S) as D. unfold local_in, reads. split.
  - intros (dd & k & Sl & (j & J & ->) & ->). destruct (proj1 (D (j + moved f off std)) ltac:(exists dd, j; auto)) as (d & W & K).
    exists d, (j + moved f off std). split; [exact W|]. split; [exact K|]. unfold moved, tod. lia.
  - intros (d & k & W & K & ->). destruct (proj2 (D k) ltac:(exists d; auto)) as (dd & j & Sl & J & ->).
    exists dd, (86400 * j + 3600 * fmHour f + 60 * fmMin f + 0). split; [exact Sl|]. split; [exists j; split; [exact J|lia]|]. unfold moved, tod. lia.
Qed.
Lemma days_one dd j k : valid_date hist_leap dd -> days_between hist_leap (1970, 1, 1) dd j -> days_between hist_leap (1970, 1, 1) dd k -> j = k.
Proof. intros V A B. apply hb in A, B; auto using valid_1970. lia. Qed.
Lemma window_dt f off std y d e x : 1752 < y -> 1 <= fmMonth f <= 12 -> stays f off std -> instant local_time e x -> local_in f off std y x ->
  window y (fmMonth f) (fmOn f) (moved f off std) d -> ymd e = (y, fmMonth f, d) /\ secs_of_day e = tod f off std.
Proof.
  intros Hy Hm S (V & _ & _ & _ & k & K & ->) L W. apply local_in_iff in L as (d' & j & W' & J & E); auto.
  rewrite (window_fun _ _ _ _ _ _ W W'). destruct V as (Vd & Vt & _). unfold valid_time in Vt.
  assert (R : 0 <= tod f off std < 86400) by (unfold tod; lia). assert (k = j) by (unfold secs_of_day in E; lia). subst j.
  pose proof (window_valid f off std y d' Hm S W') as Vg. apply (valid_greg_hist y (fmMonth f) d' Hy) in Vg.
  split; [|lia]. apply hdn_inj; [exact Vd|exact Vg|]. apply hb in J, K; auto using valid_1970. lia.
Qed.
Lemma local_year f off std y e x : 1752 < y -> 1 <= fmMonth f <= 12 -> stays f off std -> instant local_time e x -> local_in f off std y x ->
  exists d, ymd e = (y, fmMonth f, d) /\ secs_of_day e = tod f off std /\ window y (fmMonth f) (fmOn f) (moved f off std) d.
Proof.
  intros Hy Hm S I L. pose proof L as L'. apply local_in_iff in L' as (d & j & W & _); auto. exists d. destruct (window_dt f off std y d e x) as [A B]; auto.
Qed.
Lemma local_one f off std y x x' : 1752 < y -> 1 <= fmMonth f <= 12 -> stays f off std -> local_in f off std y x -> local_in f off std y x' -> x = x'.
Proof.
  intros Hy Hm S A B. apply local_in_iff in A as (d & k & W & K & ->), B as (d' & k' & W' & K' & ->); auto.
  rewrite (window_fun _ _ _ _ _ _ W' W) in K'. pose proof (window_valid f off std y d Hm S W) as V. apply (valid_greg_hist y _ d Hy) in V. rewrite (days_one _ _ _ V K K'). reflexivity.
Qed.
Lemma local_lt f off std y y' x x' : 1752 < y -> y < y' -> 1 <= fmMonth f <= 12 -> stays f off std -> local_in f off std y x -> local_in f off std y' x' -> x < x'.
Proof.
  intros Hy Hy' Hm S A B. apply local_in_iff in A as (d & k & W & K & ->), B as (d' & k' & W' & K' & ->); auto; [|lia].
  pose proof (window_valid f off std y d Hm S W) as V. pose proof (window_valid f off std y' d' Hm S W') as V'. apply valid_greg_hist in V, V'; try lia.
  pose proof (dn_lt_year hist_leap Lh Lh_step y _ d y' _ d' V V' Hy') as Q. apply hb in K, K'; auto using valid_1970. unfold dnd in *. unfold tod. lia.
Qed.
Lemma local_ex f off std y : 1752 < y -> 1 <= fmMonth f <= 12 -> stays f off std -> exists x, local_in f off std y x.
Proof.
  intros Hy Hm S. pose proof (len_30 _ Hm) as L30. destruct (len_common y _ Hm) as [L E].
  assert (W : exists d, window y (fmMonth f) (fmOn f) (moved f off std) d).
  { unfold stays in S. set (m := fmMonth f) in *. set (sh := moved f off std) in *.
    assert (G : forall lo v, 0 <= v < 7 -> exists d, lo <= d <= lo + 6 /\ wd_at y m d = v).
    { intros lo v Hv. exists (lo + (v - wd_at y m lo) mod 7). unfold wd_at. rewrite (gdn_first y m lo), (gdn_first y m (lo + _)). lia. }
    destruct (fmOn f) as [w|w n|w n|n]; cbn [window].
    - destruct (G (month_len greg_leap y m - 6 + sh) ((w + sh) mod 7) ltac:(lia)) as (d & R & Wd). exists d. split; [lia|exact Wd].
    - destruct (G (n + sh) ((w + sh) mod 7) ltac:(lia)) as (d & R & Wd). exists d. split; [lia|exact Wd].
    - contradiction.
    - exists (n + sh). reflexivity. }
  destruct W as (d & W). pose proof (window_valid f off std y d Hm S W) as V. pose proof V as V'. apply (valid_greg_hist y _ d Hy) in V'.
  eexists. apply local_in_iff; auto. exists d, (dnd hist_leap Lh (y, fmMonth f, d) - dnd hist_leap Lh (1970, 1, 1)). split; [exact W|]. split; [|reflexivity].
  apply hb; auto using valid_1970. lia.
Qed.

(** The times of the recurrence rule. *)
Definition untiled (rr : rule) (u : option dt) : rule := match u with Some u => with_until rr u | None => rr end.
Lemma plain_fields m rr u : plain m rr -> rFreq (untiled rr u) = YEARLY /\ hasBy (untiled rr u) = true /\ rInterval (untiled rr u) = 1 /\ rByMonth (untiled rr u) = Some [m] /\
  rByHours (untiled rr u) = None /\ rByMinutes (untiled rr u) = None /\ rBySeconds (untiled rr u) = None.
Proof. intros (bd & bm & -> & _). destruct u; cbn; destruct bd as [[|]|], bm as [[|]|]; repeat split; reflexivity. Qed.
Lemma month_days_until rr u y m d0 e : month_days (untiled rr u) y m d0 e <-> month_days rr y m d0 e.
Proof. destruct u; reflexivity. Qed.
Lemma plain_instances f off std rr u y0 start d0 a lim x : 1752 < y0 -> 1 <= fmMonth f <= 12 -> stays f off std -> plain (fmMonth f) rr ->
  (forall y e, 1752 < y -> (month_days rr y (fmMonth f) d0 e <-> exists d, e = (y, fmMonth f, d) /\ window y (fmMonth f) (fmOn f) (moved f off std) d)) ->
  instant local_time start a -> ymd start = (y0, fmMonth f, d0) -> local_in f off std y0 a ->
  (by_instances local_time (untiled rr u) lim start a x <-> (forall c, lim = Some c -> x <= c) /\ exists y, y0 <= y /\ local_in f off std y x).
Proof.
  intros Hy Hm S P D I Es L0. destruct (plain_fields _ rr u P) as (Fr & _ & Iv & Bm & Bh & Bi & Bs).
  destruct (local_year f off std y0 start a Hy Hm S I L0) as (d0' & Es' & Et & W0). rewrite Es in Es'. injection Es' as <-.
  pose proof I as (Vs & Ds & Us & Ts & _). unfold ymd in Es. injection Es as Ey Em Ed.
  unfold by_instances. split.
  - intros (A & Lc & k & s & e & Hk & Is & Sl & Ie). split; [exact Lc|].
    unfold interval_at, step_months in Is. rewrite Fr, Iv in Is. destruct Is as (Sh & Smi & Ss & _ & _ & _ & Sd & Sm & Sy).
    unfold RecurByPartsSpec.selects in Sl. rewrite Fr in Sl. destruct Sl as (_ & Ck & Yd). unfold clock_ok in Ck. rewrite Bh, Bi, Bs in Ck. cbn [clock_unit] in Ck.
    unfold year_days in Yd. destruct Yd as [Yd _]. destruct Yd as (m' & Im & _ & Md); [left; rewrite Bm; exact Logic.I|].
    rewrite Bm in Im. specialize (Im Logic.I). destruct Im as [<-|[]]. rewrite month_days_until in Md.
    assert (Sy' : mYear s = y0 + k /\ mDay s = d0) by lia. destruct Sy' as [E1 E2]. rewrite E1, E2 in Md. apply D in Md as (d & Ee & W); [|lia].
    exists (y0 + k). split; [lia|]. apply local_in_iff; auto; [lia|]. destruct Ie as (_ & _ & _ & _ & j & J & ->). rewrite Ee in J.
    exists d, j. split; [exact W|]. split; [exact J|]. rewrite <- Et. unfold secs_of_day. lia.
  - intros (Lc & y & Hyy & L). split; [|split; [exact Lc|]].
    + destruct (Z.eq_dec y y0) as [E|]; [rewrite E in L; pose proof (local_one f off std y0 x a Hy Hm S L L0); lia|]. apply Z.lt_le_incl, (local_lt f off std y0 y); auto; lia.
    + pose proof L as L'. apply local_in_iff in L' as (d & j & W & J & ->); auto; [|lia]. pose proof (window_valid f off std y d Hm S W) as V.
      exists (y - y0), (with_ymd start y (fmMonth f) d0), (with_ymd start y (fmMonth f) d). split; [lia|]. split; [|split].
      * unfold interval_at, step_months. rewrite Fr, Iv. unfold months_later. cbn [with_ymd mYear mMonth mDay mHours mMinutes mSeconds mDateOnly mTZUTC mTZID]. repeat split; lia.
      * unfold RecurByPartsSpec.selects. rewrite Fr. split; [repeat split|]. split; [unfold clock_ok; rewrite Bh, Bi, Bs; repeat split|].
        unfold year_days. split; [|intro H; exfalso; apply H; left; rewrite Bm; exact Logic.I]. intros _. exists (fmMonth f). rewrite Bm. split; [intros _; left; reflexivity|].
        split; [intros []; exact Logic.I|]. rewrite month_days_until. apply D; [cbn; lia|]. exists d. split; [reflexivity|exact W].
      * assert (Vh : valid_date hist_leap (y, fmMonth f, d)) by (apply valid_greg_hist; auto; lia). split.
        { unfold valid_dt in *. cbn. split; [exact Vh|]. split; [apply Vs|]. intro H. rewrite Ds in H. discriminate H. }
        split; [exact Ds|]. split; [exact Us|]. split; [exact Ts|]. exists j. split; [exact J|]. rewrite <- Et. reflexivity.
Qed.

(** ** Names *)
Lemma percent_plain l : ~ In "%"%char l -> percent l None = Ok l.
Proof.
  induction l as [|c l IH]; intro H; [reflexivity|]. cbn [percent]. destruct (Ascii.eqb_spec c "%") as [->|_]; [exfalso; apply H; left; reflexivity|].
  rewrite IH by (intro K; apply H; right; exact K). reflexivity.
Qed.
Lemma percent_arg a b t : ~ In "%"%char a -> ~ In "%"%char b -> percent (a ++ lit "%s" ++ b) (Some t) = Ok (a ++ t ++ b).
Proof.
  intros Ha Hb. induction a as [|c a IH]; cbn [app].
  - cbn. rewrite percent_plain by exact Hb. reflexivity.
  - cbn [percent]. destruct (Ascii.eqb_spec c "%") as [->|_]; [exfalso; apply Ha; left; reflexivity|]. rewrite IH by (intro K; apply Ha; right; exact K). reflexivity.
Qed.
Lemma cin_iff c s : cin c s = true <-> In c s.
Proof. split; intro H; [destruct (in_dec ascii_dec c s) as [|N]; [assumption|rewrite (ZonalProofs3.not_in_cin c s N) in H; discriminate H]|].
  destruct (cin c s) eqn:E; [reflexivity|]. apply ZonalProofs3.cin_not_in in E. contradiction. Qed.
Lemma cin_no c s : ~ In c s -> cin c s = false.
Proof. apply ZonalProofs3.not_in_cin. Qed.
Lemma tzname_spec r z s arg name : letter (rlLetter r) arg -> tz_name (zFormat z) arg s name -> rule_tzname r z s = Ok name.
Proof.
  intros Lt T. unfold rule_tzname. destruct T as [a b E Ha Hb|a b E Hp Ha Hb|Hp Hs].
  - replace (cin "%" (zFormat z)) with true by (symmetry; apply cin_iff; rewrite E; apply in_or_app; right; left; reflexivity). rewrite E.
    assert (X : (if beq (rlLetter r) (lit "-") then [] else rlLetter r) = arg).
    { destruct Lt as [[-> ->]|[N ->]]; [reflexivity|]. destruct (beq (rlLetter r) (lit "-")) eqn:B; [apply beq_eq in B; contradiction|reflexivity]. }
    rewrite X. apply percent_arg; assumption.
  - rewrite (cin_no _ _ Hp). replace (cin "/" (zFormat z)) with true by (symmetry; apply cin_iff; rewrite E; apply in_or_app; right; left; reflexivity). rewrite E.
    change (a ++ lit "/" ++ b) with (a ++ "/"%char :: b). rewrite RecurTextProofs.split_char_app by (apply cin_no; exact Ha).
    rewrite RecurTextProofs.split_char_no by (apply cin_no; exact Hb). reflexivity.
  - rewrite (cin_no _ _ Hp), (cin_no _ _ Hs). reflexivity.
Qed.

(** ** The ends of rules and lines *)
Lemma endYear_spec r b : to_year r b -> endYear r = Ok b.
Proof.
  intros (a & p & Ha & Ef & To). unfold endYear, startYear. destruct To as [[-> ->]|[[-> ->]|[Hb [q ->]]]]; [cbn; rewrite Ef; apply pyint_fmt0; exact Ha|reflexivity|].
  rewrite (not_word q b (lit "only") "o" (lit "nly")) by auto. rewrite (not_word q b (lit "max") "m" (lit "ax")) by auto. apply pyint_fmt0; exact Hb.
Qed.
Lemma sel_year y m o dd toks : 1 <= m <= 12 -> on_ok y m o -> until_day_ok y o toks -> on_selects y m o dd -> year_of dd = y.
Proof.
  intros Hm Ho Hd S. pose proof (len_30 m Hm). destruct (len_common y m Hm) as [L _].
  assert (Na : forall w n, o <> AtMost w n) by (intros w n ->; exact Hd).
  apply sel_in_month in S as (V & W); auto. assert (R : 1 <= in_month y m dd <= month_len greg_leap y m).
  { destruct o as [w|w n|w n|n]; cbn [selw on_ok until_day_ok] in *; try lia. }
  rewrite (in_month_is y m dd (in_month y m dd) V ltac:(unfold valid_date; lia) eq_refl). reflexivity.
Qed.
Lemma until_year z y : line_year z y -> exists u, getUntilDate z = Ok u /\ mYear (zDt u) = y.
Proof.
  intros [[N ->]|(m & o & h & mi & s & mode & toks & T & E & F & Hy & Hm & Ho & Hd)].
  - eexists. split; [apply until_none; exact N|reflexivity].
  - destruct (until_spec z y m o h mi s mode toks T E F ltac:(lia) Hm Ho Hd) as (u & G & S & _). exists u. split; [exact G|].
    exact (sel_year y m o _ toks Hm Ho Hd S).
Qed.

(** ** Components *)
Lemma once_written day from to name start x f g : (exists a, instant local_time start a) ->
  onset_of (elem_of (mkSub day from to name start None [start])) x f g <-> f = from /\ g = to /\ instant local_time start x.
Proof.
  intros (a & Ia). unfold onset_of, elem_of. cbn [eFrom eTo eStart eRec sbFrom sbTo sbStart sbRule sbDates sRrules sRdates]. split.
  - intros (-> & -> & b & Ib & _ & [->|[(r & c & [] & _)|(d & [<-|[]] & I)]]); auto.
  - intros (-> & -> & I). split; [reflexivity|]. split; [reflexivity|]. exists x. split; [exact I|]. split; [lia|left; reflexivity].
Qed.
Lemma utc_of d x : instant local_time d x -> instant (InZone true TzNone) (setTimezoneUTC d true) x.
Proof.
  intros (V & D & U & T & k & K & ->). unfold setTimezoneUTC. rewrite U. cbn [Bool.eqb negb]. split; [exact V|]. split; [exact D|]. split; [reflexivity|]. split; [exact T|].
  exists k. split; [exact K|reflexivity].
Qed.
Section WithTz.
Variable tzo : tzid -> Z -> Z -> Z -> Z -> Z -> Z -> bool -> bool -> Z.
Lemma rule_component r z f start end_ from to count std y0 y1 a b s arg name yu yr :
  form_of r f -> stays f from std -> 1901 <= y0 <= 2100 -> y0 <= y1 ->
  instant local_time start a -> local_in f from std y0 a -> instant local_time end_ b -> local_in f from std y1 b ->
  saving r s -> letter (rlLetter r) arg -> tz_name (zFormat z) arg s name -> line_year z yu -> to_year r yr ->
  (y0 < y1 -> count <> 1 /\ rlTo r <> lit "only") ->
  exists sub, rule_vtimezone tzo r z start end_ from to count = Ok sub /\ sbDay sub = negb (s =? 0) /\ sbName sub = name /\ sbStart sub = start /\
    (forall x g h, onset_of (elem_of sub) x g h <-> g = from /\ h = to /\
       exists y, y0 <= y /\ (y <= y1 \/ (y0 < y1 /\ 9999 <= yu /\ 9999 <= yr)) /\ local_in f from std y x) /\
    (y0 = y1 -> sub = mkSub (negb (s =? 0)) from to name start None [start]) /\
    (y0 < y1 -> exists rr u, plain (fmMonth f) rr /\ sub = mkSub (negb (s =? 0)) from to name start (Some (untiled rr u)) [] /\
       match u with Some u => instant (InZone true TzNone) u (b + - from) | None => True end).
Proof.
  intros Fo S Hy Hy1 Is Ls Ie Le (sg & hh & l & Ot & Ln & Nm & ->) Lt Tn Lu Ty Hc. unfold rule_vtimezone.
  rewrite (save_of r sg hh l Ot Ln Nm). cbn [rbind]. set (s := signed sg (seconds_of hh l)) in *.
  rewrite (tzname_spec r z s arg name Lt Tn). cbn [rbind].
  destruct (instant_ops tzo local_time _ _ _ _ Is Ie) as (_ & _ & _ & _ & Eq & _). rewrite Eq. cbn [rbind].
  pose proof (proj1 Fo) as Hm. pose proof (endYear_spec r yr Ty) as Ey. destruct (until_year z yu Lu) as (u & Eu & Yu).
  destruct (Z.eq_dec y0 y1) as [E|N].
  - subst y1. rewrite (local_one f from std y0 b a) by (auto; lia). rewrite Z.sub_diag. change (0 =? 0) with true. cbv iota. change (1 =? 1) with true. rewrite andb_false_r.
    eexists. split; [reflexivity|]. split; [reflexivity|]. split; [reflexivity|]. split; [reflexivity|]. split; [|split; [reflexivity|lia]].
    intros x g h. rewrite once_written by eauto. split; intros (-> & -> & H); (split; [reflexivity|]); (split; [reflexivity|]).
    + exists y0. rewrite (instant_eq _ _ _ H Is). split; [lia|]. split; [lia|exact Ls].
    + destruct H as (y & H1 & H2 & L). assert (y = y0) by lia. subst y. rewrite (local_one f from std y0 x a) by (auto; lia). exact Is.
  - destruct (Hc ltac:(lia)) as [Hc1 Hc2]. pose proof (local_lt f from std y0 y1 a b ltac:(lia) ltac:(lia) Hm S Ls Le) as Hab.
    replace (b - a =? 0) with false by lia. destruct (beq (rlTo r) (lit "only")) eqn:B; [apply beq_eq in B; contradiction|].
    replace (count =? 1) with false by lia. cbn [negb andb].
    destruct (local_year f from std y0 start a ltac:(lia) Hm S Is Ls) as (d0 & Es & Et & W0).
    destruct (rule_parts_days r f from std y0 start d0 Fo S Hy (proj1 Is) Es W0) as (rr & Er & P & D). rewrite Er. cbn [rbind]. rewrite Eu. cbn [rbind]. rewrite Yu, Ey.
    assert (En : (if yu <? 9999 then Ok 0 else Ok yr) = Ok (if yu <? 9999 then 0 else yr)) by (destruct (yu <? 9999); reflexivity). rewrite En. cbn [rbind].
    set (ut := setTimezoneUTC (offsetSeconds end_ (- from)) true). set (q := (yu <? 9999) || ((if yu <? 9999 then 0 else yr) <? 9999)).
    assert (Eq' : (if q then with_until rr ut else rr) = untiled rr (if q then Some ut else None)) by (destruct q; reflexivity). rewrite Eq'.
    pose proof (utc_of _ _ (offset_instant _ _ (- from) Ie)) as Iu. fold ut in Iu.
    eexists. split; [reflexivity|]. split; [reflexivity|]. split; [reflexivity|]. split; [reflexivity|]. split; [|split; [lia|]].
    + destruct (plain_fields _ rr (if q then Some ut else None) P) as (_ & Hb & _).
      intros x g h. unfold onset_of, elem_of. cbn [eFrom eTo eStart eRec sbFrom sbTo sbStart sbRule sbDates sRrules sRdates]. split.
      * intros (-> & -> & a' & Ia' & Hx & O). split; [reflexivity|]. split; [reflexivity|]. pose proof (instant_eq _ _ _ Is Ia') as Ea. subst a'.
        destruct O as [->|[(r' & c & [E|[]] & lim & Ul & G)|(d & [] & _)]]; [exists y0; split; [lia|]; split; [lia|exact Ls]|].
        injection E as <- <-. rewrite Hb in G. apply (plain_instances f from std rr _ y0 start d0) in G; auto; [|lia].
        destruct G as (Lc & y & Yy & L). exists y. split; [exact Yy|]. split; [|exact L].
        destruct q eqn:Eqq.
        -- left. cbn [untiled] in Ul. unfold until_at, with_until in Ul. cbn [rUseUntil rUntil] in Ul. destruct Ul as (uu & c & Euu & Ul). injection Euu as <-.
           assert (Fl : floating start = true) by (destruct Is as (_ & _ & U & T & _); unfold floating; rewrite U, T; reflexivity). rewrite Fl in Ul.
           destruct Ul as ((z' & t' & Ic) & ->). specialize (Lc _ eq_refl).
           assert (Ec : c = b + - from).
           { apply instant_civil in Ic as (_ & _ & _ & _ & ->). apply instant_civil in Iu as (_ & _ & _ & _ & ->). reflexivity. }
           destruct (Z.le_gt_cases y y1) as [|K]; [assumption|]. pose proof (local_lt f from std y1 y b x ltac:(lia) ltac:(lia) Hm S Le L). lia.
        -- right. unfold q in Eqq. destruct (yu <? 9999) eqn:E1; cbn [orb] in Eqq; [discriminate Eqq|]. lia.
      * intros (-> & -> & y & Yy & Yc & L). split; [reflexivity|]. split; [reflexivity|]. exists a. split; [exact Is|].
        assert (Hx : a <= x). { destruct (Z.eq_dec y y0) as [E|]; [rewrite E in L; pose proof (local_one f from std y0 x a ltac:(lia) Hm S L Ls); lia|]. apply Z.lt_le_incl, (local_lt f from std y0 y); auto; lia. }
        split; [exact Hx|]. right. left. eexists. eexists. split; [left; reflexivity|].
        exists (if q then Some b else None). split.
        -- destruct q; [|unfold until_at; cbn [untiled]; destruct P as (bd & bm & -> & _); reflexivity]. cbn [untiled]. unfold until_at, with_until. cbn [rUseUntil rUntil]. exists ut, (b + - from).
           split; [reflexivity|]. assert (Fl : floating start = true) by (destruct Is as (_ & _ & U & T & _); unfold floating; rewrite U, T; reflexivity). rewrite Fl.
           split; [eauto|]. f_equal. lia.
        -- rewrite Hb. apply (plain_instances f from std rr _ y0 start d0); auto; [lia|]. split; [|exists y; auto].
           intros c Ec. destruct q eqn:Eqq; [|discriminate Ec]. injection Ec as <-.
           assert (Y1 : y <= y1). { unfold q in Eqq. destruct (yu <? 9999) eqn:E1; lia. }
           destruct (Z.eq_dec y y1) as [E|]; [rewrite E in L; pose proof (local_one f from std y1 x b ltac:(lia) Hm S L Le); lia|]. apply Z.lt_le_incl, (local_lt f from std y y1); auto; lia.
    + intros _. exists rr, (if q then Some ut else None). split; [exact P|]. split; [reflexivity|]. destruct q; [exact Iu|exact I].
Qed.
End WithTz.
