(** Proofs about the VTIMEZONE components written by the tz compiler: the components of a line. *)
From Coq Require Import Lia ZifyBool ZifyNat Sorting.Permutation Sorting.Sorted.
From Verif Require Import PyBase PyProofs CalModel CalSpec DateTimeModel DateTimeSpec DateTimeSpec2 CalProofs DateTimeProofs DateTimeProofs2
  DateTimeProofs3 DateTimeProofs4 PeriodSpec PeriodProofs RecurModel RecurSpec RecurExpand RecurExpandSpec RecurSetSpec RecurTextProofs2 RecurSimpleProofs RecurByPartsSpec RecurByPartsProofs3
  RecurSetModel RecurUnionSpec VTimezoneModel VTimezoneSpec
  ZonalModel ZonalProofs ZonalProofs2 ZonalProofs4 ZoneTzModel ZoneTzSpec ZoneProofs ZoneProofs2 ZoneTzProofs ZoneTzProofs2 ZoneTzProofs3 ZoneTzProofs4.
Ltac Zify.zify_post_hook ::= Z.div_mod_to_equations.

(** What is written for a run of changes. *)
Definition rdate_sub (day : bool) (name : bytes) (c : change) : sub := mkSub day (chFrom c) (chTo c) name (chAt c) None [chAt c].
Definition written (maxN : Z) (run : list change) (s : sub) : Prop :=
  (forall c, In c run -> called c (sbDay s) (sbName s) /\ sbFrom s = chFrom c /\ sbTo s = chTo c) /\
  (forall x g h, x < maxN -> (onset_of (elem_of s) x g h <-> exists c, In c run /\ instant local_time (chAt c) x /\ chFrom c = g /\ chTo c = h)) /\
  ((exists c, run = [c] /\ s = rdate_sub (sbDay s) (sbName s) c) \/
   (exists c t m rr u, run = c :: t /\ t <> [] /\ (plain m rr /\ 1 <= m <= 12) /\ s = mkSub (sbDay s) (chFrom c) (chTo c) (sbName s) (chAt c) (Some (untiled rr u)) [] /\
      (match u with Some u => exists e x, In e run /\ instant local_time (chAt e) x /\ instant (InZone true TzNone) u (x + - chFrom c) | None => True end) /\ exists x, instant local_time (chAt c) x)).
Lemma written_single maxN c day name x : instant local_time (chAt c) x -> called c day name -> written maxN [c] (rdate_sub day name c).
Proof.
  intros I C. split; [intros d [<-|[]]; auto|]. split; [|left; exists c; split; reflexivity].
  intros y g h _. unfold rdate_sub. rewrite once_written by eauto. split.
  - intros (-> & -> & H). exists c. split; [left; reflexivity|]. auto.
  - intros (d & [<-|[]] & H & <- & <-). auto.
Qed.
Lemma year_after f off std maxYear maxN y x : 1752 < y -> 1 <= fmMonth f <= 12 -> stays f off std -> new_year maxYear maxN -> 1752 < maxYear -> maxYear <= y -> local_in f off std y x -> maxN <= x.
Proof.
  intros Hy Hm S (k & K & ->) HM Hyy L. apply local_in_iff in L as (d & j & W & J & ->); auto. pose proof (window_valid f off std y d Hm S W) as V.
  apply (valid_greg_hist y _ d Hy) in V. pose proof (valid_first hist_leap maxYear 1 ltac:(lia)) as V1. apply hb in K, J; auto using valid_1970.
  assert (Q : dnd hist_leap Lh (maxYear, 1, 1) <= dnd hist_leap Lh (y, fmMonth f, d)).
  { unfold dnd. destruct (Z.eq_dec maxYear y) as [E|]; [|apply Z.lt_le_incl, (dn_lt_year hist_leap Lh Lh_step); auto; lia]. subst y.
    destruct (Z.eq_dec (fmMonth f) 1) as [E|]; [rewrite E in *; unfold dn; unfold valid_date in V; lia|]. apply Z.lt_le_incl, (dn_lt hist_leap Lh Lh_step); auto. lia. }
  unfold tod. lia.
Qed.
Section WithTz.
Variable tzo : tzid -> Z -> Z -> Z -> Z -> Z -> Z -> bool -> bool -> Z.
Lemma single_component r z c n x day name : instant local_time (chAt c) x -> chRule c = Some r -> chZone c = z -> called c day name ->
  rule_vtimezone tzo r z (chAt c) (chAt c) (chFrom c) (chTo c) n = Ok (rdate_sub day name c).
Proof.
  intros I Er Ez C. unfold called in C. rewrite Er, Ez in C. destruct C as (s & arg & (sg & hh & l & Ot & Ln & Nm & ->) & Lt & Tn & ->).
  unfold rule_vtimezone. rewrite (save_of r sg hh l Ot Ln Nm). cbn [rbind]. rewrite (tzname_spec r z _ arg name Lt Tn). cbn [rbind].
  destruct (instant_ops tzo local_time _ _ _ _ I I) as (_ & _ & _ & _ & Eq & _). rewrite Eq, Z.sub_diag. cbn [rbind Z.eqb]. rewrite andb_false_r. reflexivity.
Qed.
Lemma start_component z c x day name : instant local_time (chAt c) x -> chRule c = None -> chZone c = z -> called c day name ->
  zonerule_vtimezone z (chAt c) (chFrom c) (chTo c) = Ok (rdate_sub day name c).
Proof.
  intros I Er Ez C. unfold called in C. rewrite Er, Ez in C. destruct C as (s & Ls & -> & Nm). unfold zonerule_vtimezone.
  assert (D : exists q, isNumericOffset z = Ok q /\ (if q then do o <- getNumericOffset z; Ok (negb (o =? 0)) else Ok false) = Ok (negb (s =? 0))).
  { destruct Ls as [[E ->]|[(sg & h & l & T & Np & Nm' & N0 & ->)|(c0 & t & E & Dg & Nd & ->)]].
    - exists true. unfold isNumericOffset, getNumericOffset. rewrite E. split; reflexivity.
    - exists true. split; [apply (numeric_rule z sg h l T Np)|]. rewrite (proj2 (numeric_offset_exact z sg h l T) (conj Nm' N0)). reflexivity.
    - exists false. split; [|reflexivity]. unfold isNumericOffset. rewrite E. cbn [sget]. destruct (beq (c0 :: t) (lit "-")) eqn:B; [apply beq_eq in B; injection B as -> _; congruence|].
      cbn. rewrite Dg. destruct (Ascii.eqb_spec c0 "-"); [contradiction|reflexivity]. }
  destruct D as (q & Eq & Ed). rewrite Eq. cbn [rbind]. rewrite Ed. cbn [rbind].
  destruct Nm as [(a & b & E & Ha & Hb & ->)|[Np ->]].
  - replace (cin "%" (zFormat z)) with true by (symmetry; apply cin_iff; rewrite E; apply in_or_app; right; left; reflexivity). rewrite E, percent_arg by assumption. reflexivity.
  - rewrite (cin_no _ _ Np). reflexivity.
Qed.
Lemma run_component maxYear maxN r z run c t n : 1901 <= maxYear -> new_year maxYear maxN -> run = c :: t -> (forall d, In d run -> chRule d = Some r /\ chZone d = z) ->
  (forall d e, In d run -> In e run -> same_as d e = true) -> (forall d, In d run -> exists day name, called d day name) -> (forall d, In d run -> exists x, instant local_time (chAt d) x) ->
  (exists d, run = [d]) \/ every_year maxYear z r run -> Z.of_nat (List.length run) <= n ->
  exists x, rule_vtimezone tzo r z (chAt c) (chAt (last run c)) (chFrom c) (chTo c) n = Ok x /\ written maxN run x.
Proof.
  intros HM NY Er K Sm Cl Tm H Hn. pose proof (K c ltac:(rewrite Er; left; reflexivity)) as [Kr Kz].
  destruct (Cl c ltac:(rewrite Er; left; reflexivity)) as (day & name & Cc). destruct (Tm c ltac:(rewrite Er; left; reflexivity)) as (x0 & I0).
  destruct t as [|c1 t'].
  - subst run. cbn [last]. eexists. split; [eapply single_component; eauto|]. eapply written_single; eauto.
  - destruct H as [(d & E)|(f & std & y0 & yu & yr & Fo & Hy & Lu & Ty & No & Yr & En)]; [rewrite E in Er; discriminate Er|].
    set (len := List.length run) in *. assert (Hl : (2 <= len)%nat) by (unfold len; rewrite Er; cbn [List.length]; lia).
    assert (Froms : forall d, In d run -> chFrom d = chFrom c /\ chTo d = chTo c).
    { intros d Hd. specialize (Sm d c Hd ltac:(rewrite Er; left; reflexivity)). unfold same_as in Sm. lia. }
    destruct (Yr 0%nat c ltac:(rewrite Er; reflexivity)) as (S & a & Ia & La). rewrite Z.add_0_r in La.
    assert (El : nth_error run (len - 1) = Some (last run c)).
    { destruct (nth_error run (len - 1)) as [d|] eqn:E; [|apply nth_error_None in E; unfold len in *; lia]. apply nth_error_nth with (d := c) in E. rewrite <- E. f_equal.
      clear. unfold len. clear. induction run as [|x l IH]; [reflexivity|]. destruct l as [|y l]; [reflexivity|]. cbn [List.length last] in *. rewrite <- IH.
      replace (Datatypes.S (Datatypes.S (List.length l)) - 1)%nat with (Datatypes.S (Datatypes.S (List.length l) - 1))%nat by lia. reflexivity. }
    pose proof (nth_error_In _ _ El) as Il. destruct (Yr _ _ El) as (_ & b & Ib & Lb). destruct (Froms _ Il) as [Fl _]. rewrite Fl in Lb.
    set (y1 := y0 + Z.of_nat (len - 1)) in *.
    unfold called in Cc. rewrite Kr, Kz in Cc. destruct Cc as (s & arg & Sv & Lt & Tn & Ed).
    destruct (rule_component tzo r z f (chAt c) (chAt (last run c)) (chFrom c) (chTo c) n std y0 y1 a b s arg name yu yr) as (sub & Ev & Dd & Nn & St & On & _ & Sh); auto; try lia.
    { intros _. split; [unfold len in *; lia|exact No]. }
    exists sub. split; [exact Ev|]. destruct (Sh ltac:(lia)) as (rr & u & P & Esub & Hu). split; [|split].
    + intros d Hd. destruct (K d Hd) as [Kr' Kz']. destruct (Froms d Hd) as [-> ->]. split; [|rewrite Esub; split; reflexivity].
      unfold called. rewrite Kr', Kz', Dd, Nn. exists s, arg. auto.
    + intros x g h Hx. rewrite On. pose proof (proj1 Fo) as Hm. split.
      * intros (-> & -> & y & Y0 & Y1 & L).
        assert (Y : y <= y1). { destruct Y1 as [|(_ & U & R)]; [assumption|]. specialize (En U R). destruct (Z.le_gt_cases y y1) as [|G]; [assumption|exfalso].
          pose proof (year_after f (chFrom c) std maxYear maxN y x ltac:(lia) Hm S NY ltac:(lia) ltac:(fold len in En; lia) L). lia. }
        assert (Hi : (Z.to_nat (y - y0) < len)%nat) by lia. destruct (nth_error run (Z.to_nat (y - y0))) as [d|] eqn:E; [|apply nth_error_None in E; fold len in E; lia].
        pose proof (nth_error_In _ _ E) as Id. destruct (Froms d Id) as [F1 F2]. destruct (Yr _ _ E) as (_ & x' & Ix & Lx). rewrite F1 in Lx. replace (y0 + Z.of_nat (Z.to_nat (y - y0))) with y in Lx by lia.
        exists d. rewrite (local_one f (chFrom c) std y x x') by (auto; lia). auto.
      * intros (d & Hd & Ix & <- & <-). destruct (Froms d Hd) as [F1 F2]. split; [exact F1|]. split; [exact F2|]. apply In_nth_error in Hd as (i & E).
        assert (Hi : (i < len)%nat) by (apply nth_error_Some; rewrite E; discriminate). destruct (Yr _ _ E) as (_ & x' & Ix' & Lx). rewrite F1 in Lx. rewrite (instant_eq _ _ _ Ix Ix').
        exists (y0 + Z.of_nat i). split; [lia|]. split; [left; lia|exact Lx].
    + right. exists c, (c1 :: t'), (fmMonth f), rr, u. split; [exact Er|]. split; [discriminate|]. split; [split; [exact P|exact (proj1 Fo)]|]. split; [rewrite Dd, Nn; exact Esub|]. split; [destruct u; eauto 8|eauto].
Qed.
End WithTz.
