(** C69: the VTIMEZONE components that the tz compiler writes: Zone.vtimezone (zonal/zone.py), ZoneRule.vtimezone and Rule.vtimezone (zonal/rule.py). *)
From Coq Require Import Lia ZifyBool ZifyNat Sorting.Permutation Sorting.Sorted.
From Verif Require Import PyBase PyProofs CalSpec CalModel DateTimeSpec DateTimeModel PeriodSpec RecurModel RecurSpec RecurByPartsSpec RecurSetModel RecurUnionSpec VTimezoneModel VTimezoneSpec
  CalProofs DateTimeProofs2 ZonalModel ZonalSpec ZonalProofs3 ZoneSpec ZoneProofs2 ZoneTzModel ZoneTzSpec ZoneTzProofs3 ZoneTzProofs5 ZoneTzProofs7 ZoneTzProofs8 ZoneTzProofs9 ZonalProofs2 RecurSimpleProofs PropComponent PropTimezone PropZone.
Ltac Zify.zify_post_hook ::= Z.div_mod_to_equations.

(** The component for the changes of a rule in the years y0 to y1: its onsets are the times of the rule in these years, and in all later ones if neither the
    line nor the rule ends. *)
Theorem C69_rule : forall tzo r z f start end_ from to count std y0 y1 a b s arg name yu yr,
  form_of r f -> stays f from std -> 1901 <= y0 <= 2100 -> y0 <= y1 ->
  instant local_time start a -> local_in f from std y0 a -> instant local_time end_ b -> local_in f from std y1 b ->
  saving r s -> letter (rlLetter r) arg -> tz_name (zFormat z) arg s name -> line_year z yu -> to_year r yr ->
  (y0 < y1 -> count <> 1 /\ rlTo r <> lit "only") ->
  exists sub, rule_vtimezone tzo r z start end_ from to count = Ok sub /\ sbDay sub = negb (s =? 0) /\ sbName sub = name /\ sbStart sub = start /\
    forall x g h, onset_of (elem_of sub) x g h <-> g = from /\ h = to /\
       exists y, y0 <= y /\ (y <= y1 \/ (y0 < y1 /\ 9999 <= yu /\ 9999 <= yr)) /\ local_in f from std y x.
Proof.
  intros tzo r z f start end_ from to count std y0 y1 a b s arg name yu yr H1 H2 H3 H4 H5 H6 H7 H8 H9 H10 H11 H12 H13 H14.
  destruct (rule_component tzo r z f start end_ from to count std y0 y1 a b s arg name yu yr H1 H2 H3 H4 H5 H6 H7 H8 H9 H10 H11 H12 H13 H14) as (x & E & A & B & C & D & _). exists x. auto.
Qed.
Print Assumptions C69_rule.

(** The components of a zone announce the changes that expand() lists up to maxYear: their local times, offsets before and after, whether daylight saving
    time begins, and the names. *)
Theorem C69_vtimezone : forall tzo zn rules minYear maxYear maxN lmt cs, 1901 <= maxYear -> new_year maxYear maxN ->
  zone_expand tzo zn rules minYear maxYear = Ok (lmt ++ cs) -> writable maxYear lmt cs ->
  exists subs, zone_vtimezone tzo zn rules minYear maxYear = Ok subs /\
  forall x from to day name, x < maxN ->
    (announces subs x from to day name <-> exists c, In c cs /\ instant local_time (chAt c) x /\ chFrom c = from /\ chTo c = to /\ called c day name).
Proof.
  intros tzo zn rules minYear maxYear maxN lmt cs H1 H2 H3 H4. destruct (vtimezone_spec tzo zn rules minYear maxYear maxN lmt cs H1 H2 H3 H4) as (subs & E & _ & _ & A). exists subs. auto.
Qed.
Print Assumptions C69_vtimezone.

(** When they are read, the offset at a moment in UTC is the one that the changes tell. *)
Theorem C69_lookup : forall tzo order torder top zn rules minYear maxYear maxN lmt cs, permutes order -> shuffles torder -> clock_ordered tzo local_time ->
  1901 <= maxYear -> new_year maxYear maxN -> top < maxYear -> top < 2099 ->
  zone_expand tzo zn rules minYear maxYear = Ok (lmt ++ cs) -> writable maxYear lmt cs -> utc_order cs -> Forall tellable cs ->
  exists subs, zone_vtimezone tzo zn rules minYear maxYear = Ok subs /\
  let es := map (fun s => elem_of (read_back s)) subs in
  forall obj d t, asked tzo order torder top es obj -> asking cs top d t ->
  exists N, forall fuel, (N <= fuel)%nat -> exists obj' v, getTimezoneOffsetSeconds tzo order torder fuel obj d true = Some (obj', Ok v) /\ told cs t v.
Proof. exact lookup_spec. Qed.
Print Assumptions C69_lookup.

(** So it is the offset that the tz source defines. *)
Theorem C69_zone : forall tzo order torder top zn rules minYear maxYear maxN lmt cs m s z ln e line lines first l,
  permutes order -> shuffles torder -> clock_ordered tzo local_time ->
  1901 <= maxYear -> new_year maxYear maxN -> top < maxYear -> top < 2099 ->
  znRules zn = map text_of ((z, ln, e) :: line :: lines) -> new_year minYear m -> new_year 1800 s ->
  zone_steps rules maxYear s (lnStd ln) (lnStd ln) ((z, ln, e) :: line :: lines) (first :: l) -> spaced s (lnStd ln) (List.concat l) ->
  zone_expand tzo zn rules minYear maxYear = Ok (lmt ++ cs) -> writable maxYear lmt cs -> utc_order cs -> Forall tellable cs ->
  exists subs, zone_vtimezone tzo zn rules minYear maxYear = Ok subs /\
  let es := map (fun s => elem_of (read_back s)) subs in
  forall obj d t o, asked tzo order torder top es obj -> asking cs top d t -> zone_offset e (line :: lines) t o -> m <= t ->
  exists N, forall fuel, (N <= fuel)%nat -> exists obj', getTimezoneOffsetSeconds tzo order torder fuel obj d true = Some (obj', Ok o).
Proof.
  intros tzo order torder top zn rules minYear maxYear maxN lmt cs m s z ln e line lines first l P1 P2 CO HM NY T1 T2 Z M S St Sp Ex Wr Uo Tl.
  destruct (lookup_spec tzo order torder top zn rules minYear maxYear maxN lmt cs P1 P2 CO HM NY T1 T2 Ex Wr Uo Tl) as (subs & Ev & H). exists subs. split; [exact Ev|]. intros es obj d t o As Ak Zo Mt.
  destruct (H obj d t As Ak) as (N & HN). exists N. intros fuel Lf. destruct (HN fuel Lf) as (obj' & v & E & Tv). exists obj'. rewrite E. repeat f_equal.
  destruct Ak as (_ & _ & _ & Hap & _). pose proof (told_app lmt cs t v Hap Tv) as Tv'.
  assert (N0 : lmt ++ cs <> []) by (destruct Hap as (c0 & _ & Hc0 & _); destruct cs; [destruct Hc0|destruct lmt; discriminate]).
  exact (told_one _ t v o Tv' (C68_offset tzo zn rules minYear maxYear m s z ln e line lines first l _ t o Z M S St Sp Zo Mt Ex N0)).
Qed.
Print Assumptions C69_zone.

(** ** An example: the simplified New York of C68, from 1902 on *)
Definition ny_changes : list change := match zone_expand tz_none ny us_rules 1902 2030 with Ok cs => cs | Raise _ => [] end.
Definition on_form := mkForm 3 (Last 0) 2 0 Wall.
Definition off_form := mkForm 10 (Last 0) 2 0 Wall.
(** A component: daylight, offsets, name, DTSTART, (BYMONTH, BYDAY, UNTIL), RDATEs. *)
Definition terse (s : sub) := (sbDay s, sbFrom s, sbTo s, sbName s, ymd (sbStart s),
  option_map (fun r => (rByMonth r, rByDay r, option_map ymd (rUntil r))) (sbRule s), map ymd (sbDates s)).
Lemma on_is : form_of us_on on_form.
Proof.
  split; [cbn; lia|]. split; [reflexivity|]. split; [reflexivity|]. split; [discriminate|]. split; [cbn; lia|]. split; [cbn; lia|].
  exists []. split; [apply (at_hm 1 2 0 []); [lia|lia|intros []]|right; left; reflexivity].
Qed.
Lemma off_is : form_of us_off off_form.
Proof.
  split; [cbn; lia|]. split; [reflexivity|]. split; [reflexivity|]. split; [discriminate|]. split; [cbn; lia|]. split; [cbn; lia|].
  exists []. split; [apply (at_hm 1 2 0 []); [lia|lia|intros []]|right; left; reflexivity].
Qed.
Lemma stays_on : stays on_form (-18000) (-18000). Proof. split; [cbn; lia|left; vm_compute; reflexivity]. Qed.
Lemma stays_off : stays off_form (-14400) (-18000). Proof. split; [cbn; lia|left; vm_compute; reflexivity]. Qed.
Ltac local_tac dd x n q := exists dd, x; split; [last_tac n q|]; split; [reads_tac q|reflexivity].
Lemma on_1918 : local_in on_form (-18000) (-18000) 1918 (-1633298400). Proof. local_tac (1918, 3, 31) (-1633298400) 0 (-18904). Qed.
Lemma on_1919 : local_in on_form (-18000) (-18000) 1919 (-1601848800). Proof. local_tac (1919, 3, 30) (-1601848800) 1 (-18540). Qed.
Lemma off_1918 : local_in off_form (-14400) (-18000) 1918 (-1615154400). Proof. local_tac (1918, 10, 27) (-1615154400) 4 (-18694). Qed.
Lemma off_1919 : local_in off_form (-14400) (-18000) 1919 (-1583704800). Proof. local_tac (1919, 10, 26) (-1583704800) 5 (-18330). Qed.
Lemma saving_on : saving us_on 3600.
Proof. exists NoSign, 1, [0]. split; [apply (off_hm NoSign 1 1 2 0); lia|]. split; [cbn; lia|]. split; [intros (E & _); discriminate E|reflexivity]. Qed.
Lemma saving_off : saving us_off 0.
Proof. exists NoSign, 0, []. split; [apply (off_h NoSign 0 1); lia|]. split; [cbn; lia|]. split; [intros (E & _); discriminate E|reflexivity]. Qed.
Lemma name_of t s : tz_name (lit "E%sT") t s (lit "E" ++ t ++ lit "T").
Proof. apply tn_arg; [reflexivity|intros [E|[]]; discriminate E|intros [E|[]]; discriminate E]. Qed.
Lemma z2_year : line_year z2 1920.
Proof.
  right. exists 1, (Day 1), 0, 0, 0, None, [lit "1920"]. split; [apply (ut_y 4 1920); exact I|]. split; [reflexivity|].
  split; [repeat (constructor; [apply cin_not_in; reflexivity|]); constructor|]. split; [lia|]. split; [lia|]. split; [cbn; lia|cbn; lia].
Qed.
Lemma us_year r : rlFrom r = lit "1918" -> rlTo r = lit "1919" -> to_year r 1919.
Proof. intros Ef Et. exists 1918, 4%nat. split; [lia|]. split; [exact Ef|]. right. right. split; [lia|]. exists 4%nat. exact Et. Qed.
Lemma at_is d x : timely_b d = true -> civil d = x -> instant local_time d x.
Proof. intros H <-. apply timely_spec. exact H. Qed.
Example C69_rule_ex : let start := local_at 1918 3 31 2 in let end_ := local_at 1919 3 30 2 in
  form_of us_on on_form /\ stays on_form (-18000) (-18000) /\ instant local_time start (-1633298400) /\ local_in on_form (-18000) (-18000) 1918 (-1633298400) /\
  instant local_time end_ (-1601848800) /\ local_in on_form (-18000) (-18000) 1919 (-1601848800) /\ saving us_on 3600 /\ letter (rlLetter us_on) (lit "D") /\
  tz_name (zFormat z2) (lit "D") 3600 (lit "EDT") /\ line_year z2 1920 /\ to_year us_on 1919 /\ rlTo us_on <> lit "only" /\
  exists sub, rule_vtimezone tz_none us_on z2 start end_ (-18000) (-14400) 2 = Ok sub /\
    terse sub = (true, -18000, -14400, lit "EDT", (1918, 3, 31), Some (Some [3], Some [(-1, 0)], Some (1919, 3, 30)), []).
Proof.
  intros start end_. split; [exact on_is|]. split; [exact stays_on|]. split; [apply at_is; vm_compute; reflexivity|]. split; [exact on_1918|].
  split; [apply at_is; vm_compute; reflexivity|]. split; [exact on_1919|]. split; [exact saving_on|]. split; [right; split; [discriminate|reflexivity]|]. split; [apply name_of|].
  split; [exact z2_year|]. split; [apply us_year; reflexivity|]. split; [discriminate|]. eexists. split; [vm_compute; reflexivity|reflexivity].
Qed.
Lemma ny_is : exists c1 c2 c3 c4 c5, ny_changes = [c1; c2; c3; c4; c5] /\
  map (fun c => (chZone c, chRule c)) ny_changes = [(z2, Some us_on); (z2, Some us_off); (z2, Some us_on); (z2, Some us_off); (z3, None)] /\
  map T ny_changes = [-1633298400; -1615154400; -1601848800; -1583704800; -1577923200] /\
  map chFrom ny_changes = [-18000; -14400; -18000; -14400; -18000] /\ map chTo ny_changes = [-14400; -18000; -14400; -18000; -14400] /\
  forallb (fun c => timely_b (chAt c)) ny_changes = true.
Proof. do 5 eexists. split; [vm_compute; reflexivity|]. repeat split; vm_compute; reflexivity. Qed.
Lemma ny_writable : writable 2030 [] ny_changes.
Proof.
  destruct ny_is as (c1 & c2 & c3 & c4 & c5 & E & Zr & Ts & Fr & To & Tm). rewrite E in *. cbn [map] in *.
  injection Zr as Z1 R1 Z2 R2 Z3 R3 Z4 R4 Z5 R5. injection Ts as T1 T2 T3 T4 T5. injection Fr as F1 F2 F3 F4 F5. injection To as O1 O2 O3 O4 O5.
  assert (K1 : forall c, chZone c = z2 -> chRule c = Some us_on -> called c true (lit "EDT")).
  { intros c Ez Er. unfold called. rewrite Er, Ez. exists 3600, (lit "D"). split; [exact saving_on|]. split; [right; split; [discriminate|reflexivity]|]. split; [apply name_of|reflexivity]. }
  assert (K2 : forall c, chZone c = z2 -> chRule c = Some us_off -> called c false (lit "EST")).
  { intros c Ez Er. unfold called. rewrite Er, Ez. exists 0, (lit "S"). split; [exact saving_off|]. split; [right; split; [discriminate|reflexivity]|]. split; [apply name_of|reflexivity]. }
  assert (K5 : called c5 false (lit "AST")).
  { unfold called. rewrite R5, Z5. exists 0. split; [left; split; reflexivity|]. split; [reflexivity|]. right. split; [apply cin_not_in; reflexivity|reflexivity]. }
  assert (Tt : forall c, In c [c1; c2; c3; c4; c5] -> at_time (chAt c)) by (rewrite forallb_forall in Tm; intros c Hc; apply timely_spec, Tm, Hc).
  assert (C1 : changes_of z2 (Some us_on) [c1; c2; c3; c4; c5] = [c1; c3]) by (unfold changes_of; cbn [filter]; rewrite Z1, Z2, Z3, Z4, Z5, R1, R2, R3, R4, R5; reflexivity).
  assert (C2 : changes_of z2 (Some us_off) [c1; c2; c3; c4; c5] = [c2; c4]) by (unfold changes_of; cbn [filter]; rewrite Z1, Z2, Z3, Z4, Z5, R1, R2, R3, R4, R5; reflexivity).
  assert (C5 : changes_of z3 None [c1; c2; c3; c4; c5] = [c5]) by (unfold changes_of; cbn [filter]; rewrite Z1, Z2, Z3, Z4, Z5, R1, R2, R3, R4, R5; reflexivity).
  assert (Cr : forall z r, changes_of z (Some r) [c1; c2; c3; c4; c5] = [] \/ (z = z2 /\ (r = us_on \/ r = us_off))).
  { intros z r. destruct (changes_of z (Some r) [c1; c2; c3; c4; c5]) as [|c l] eqn:Q; [left; reflexivity|right].
    assert (Hc : In c (changes_of z (Some r) [c1; c2; c3; c4; c5])) by (rewrite Q; left; reflexivity). unfold changes_of in Hc. apply filter_In in Hc as [Hc P].
    destruct (line_dec (chZone c) z) as [Ez|]; [|discriminate P]. destruct (key_dec (chRule c) (Some r)) as [Er|]; [|discriminate P].
    destruct Hc as [<-|[<-|[<-|[<-|[<-|[]]]]]]; rewrite ?R1, ?R2, ?R3, ?R4, ?R5 in Er; try discriminate Er; injection Er as <-; (split; [congruence|auto]). }
  split; [constructor|]. split; [repeat constructor; rewrite ?Z1, ?Z2, ?Z3, ?Z4, ?Z5; discriminate|].
  split; [repeat constructor; eauto|]. split; [apply in_order_check; [exact Tm|unfold ordered_b; cbn [map]; rewrite T1, T2, T3, T4, T5; reflexivity]|].
  split; [|split].
  - apply (together_block z2 [c1; c2; c3; c4] [c5]).
    + intros c [<-|[<-|[<-|[<-|[]]]]]; assumption.
    + intros c [<-|[]]. rewrite Z5. discriminate.
    + apply (together_block z3 [c5] []); [intros c [<-|[]]; assumption|intros c []|apply together_nil].
  - intro z. split.
    + intros r run Hr. destruct (Cr z r) as [Q|[-> [->| ->]]].
      * rewrite Q in Hr. destruct Hr.
      * right. rewrite C1 in Hr. cbn [cut] in Hr. rewrite F1, F3, O1, O3 in Hr. destruct Hr as [<-|[]]. exists on_form, (-18000), 1918, 1920, 1919. split; [exact on_is|]. split; [lia|]. split; [exact z2_year|].
        split; [apply us_year; reflexivity|]. split; [discriminate|]. split; [|lia]. intros [|[|i]] c Hc; [| |destruct i; discriminate Hc]; injection Hc as <-.
        -- rewrite F1. split; [exact stays_on|]. exists (T c1). split; [apply Tt; left; reflexivity|]. rewrite T1. exact on_1918.
        -- rewrite F3. split; [exact stays_on|]. exists (T c3). split; [apply Tt; right; right; left; reflexivity|]. rewrite T3. exact on_1919.
      * right. rewrite C2 in Hr. cbn [cut] in Hr. rewrite F2, F4, O2, O4 in Hr. destruct Hr as [<-|[]]. exists off_form, (-18000), 1918, 1920, 1919. split; [exact off_is|]. split; [lia|]. split; [exact z2_year|].
        split; [apply us_year; reflexivity|]. split; [discriminate|]. split; [|lia]. intros [|[|i]] c Hc; [| |destruct i; discriminate Hc]; injection Hc as <-.
        -- rewrite F2. split; [exact stays_off|]. exists (T c2). split; [apply Tt; right; left; reflexivity|]. rewrite T2. exact off_1918.
        -- rewrite F4. split; [exact stays_off|]. exists (T c4). split; [apply Tt; right; right; right; left; reflexivity|]. rewrite T4. exact off_1919.
    + unfold changes_of. cbn [filter]. rewrite R1, R2, R3, R4, R5. repeat match goal with |- context [line_dec ?a ?b] => destruct (line_dec a b) end; cbn; lia.
  - assert (Al : forall c, In c [c1; c2; c3; c4; c5] -> alone [c1; c2; c3; c4; c5] c -> c = c5).
    { intros c Hc A. unfold alone in A. destruct Hc as [<-|[<-|[<-|[<-|[<-|[]]]]]]; [| | | |reflexivity]; exfalso;
        rewrite ?Z1, ?Z2, ?Z3, ?Z4, ?R1, ?R2, ?R3, ?R4, ?C1, ?C2 in A; cbn [cut] in A; rewrite ?F1, ?F2, ?F3, ?F4, ?O1, ?O2, ?O3, ?O4 in A; destruct A as [A|[]]; discriminate A. }
    intros a c b d e day name Es _ Ac Ad _ _ _ _ x _ _ _.
    assert (Ic : In c [c1; c2; c3; c4; c5]) by (rewrite Es; apply in_or_app; right; left; reflexivity).
    assert (Id : In d [c1; c2; c3; c4; c5]) by (rewrite Es; apply in_or_app; right; right; apply in_or_app; right; left; reflexivity).
    rewrite (Al c Ic Ac), (Al d Id Ad). reflexivity.
Qed.
Lemma ny_expanded : zone_expand tz_none ny us_rules 1902 2030 = Ok ([] ++ ny_changes).
Proof. vm_compute. reflexivity. Qed.
Lemma year_2030 : new_year 2030 1893456000. Proof. reads_tac 21915. Qed.
Example C69_vtimezone_ex : new_year 2030 1893456000 /\ zone_expand tz_none ny us_rules 1902 2030 = Ok ([] ++ ny_changes) /\ writable 2030 [] ny_changes /\
  exists subs, zone_vtimezone tz_none ny us_rules 1902 2030 = Ok subs /\ map terse subs =
    [(true, -18000, -14400, lit "EDT", (1918, 3, 31), Some (Some [3], Some [(-1, 0)], Some (1919, 3, 30)), []);
     (false, -14400, -18000, lit "EST", (1918, 10, 27), Some (Some [10], Some [(-1, 0)], Some (1919, 10, 26)), []);
     (false, -18000, -14400, lit "AST", (1920, 1, 1), None, [(1920, 1, 1)])].
Proof. split; [exact year_2030|]. split; [exact ny_expanded|]. split; [exact ny_writable|]. eexists. split; [vm_compute; reflexivity|reflexivity]. Qed.
Lemma no_offsets : clock_ordered tz_none local_time.
Proof. apply (VTimezoneProofs3.fixed_default tz_none 0). reflexivity. Qed.
Lemma same_keeps : permutes same. Proof. intro l. apply Permutation_refl. Qed.
Lemma same_shuffles : shuffles same. Proof. intro l. apply Permutation_refl. Qed.
Lemma ny_told : utc_order ny_changes /\ Forall tellable ny_changes.
Proof.
  split; [apply utc_order_check; vm_compute; reflexivity|]. apply Forall_forall. intros c Hc.
  assert (H : forallb (fun c => (1902 <=? mYear (chAt c)) && (mSeconds (chAt c) =? 0) && (chFrom c mod 60 =? 0) && (Z.abs (chFrom c) <? 86400)) ny_changes = true) by (vm_compute; reflexivity).
  rewrite forallb_forall in H. specialize (H c Hc). unfold tellable. lia.
Qed.
Lemma asking_check cs top d t : timely_b (setTimezoneID d TzNone) = true -> civil (setTimezoneID d TzNone) = t -> 1902 <= mYear d -> mYear d + 2 <= top ->
  existsb (fun c => timely_b (chAt c) && (T c - chFrom c <=? t)) cs = true -> forallb (fun c => (t <? T c - chFrom c) || (mYear (chAt c) <=? mYear d)) cs = true -> asking cs top d t.
Proof.
  intros H1 H2 H3 H4 H5 H6. split; [apply at_is; assumption|]. split; [exact H3|]. split; [exact H4|]. split.
  - apply existsb_exists in H5 as (c & Hc & P). apply andb_true_iff in P as [P Q]. exists c, (T c). split; [exact Hc|]. split; [apply timely_spec; exact P|lia].
  - intros c x Hc Ic L. rewrite forallb_forall in H6. specialize (H6 c Hc). apply instant_T in Ic. fold (T c) in Ic. lia.
Qed.
(** In the summer of 1919 the offset is -4:00. *)
Example C69_lookup_ex : permutes same /\ shuffles same /\ clock_ordered tz_none local_time /\ utc_order ny_changes /\ Forall tellable ny_changes /\
  asking ny_changes 2020 (local_at 1919 7 1 0) (-1593820800) /\
  exists subs obj, zone_vtimezone tz_none ny us_rules 1902 2030 = Ok subs /\
    getTimezoneOffsetSeconds tz_none same same 50 (vtz_init (map (fun s => elem_of (read_back s)) subs)) (local_at 1919 7 1 0) true = Some (obj, Ok (-14400)).
Proof.
  split; [exact same_keeps|]. split; [exact same_shuffles|]. split; [exact no_offsets|]. split; [apply ny_told|]. split; [apply ny_told|].
  split; [apply asking_check; try (vm_compute; reflexivity); cbn; lia|]. eexists. eexists. split; [vm_compute; reflexivity|]. vm_compute. reflexivity.
Qed.
Example C69_zone_ex : new_year 1902 (-2145916800) /\ zone_offset e1 [(z2, l2, e2); (z3, l3, e3)] (-1593820800) (-14400) /\
  exists subs, zone_vtimezone tz_none ny us_rules 1902 2030 = Ok subs /\
  exists N, forall fuel, (N <= fuel)%nat -> exists obj',
    getTimezoneOffsetSeconds tz_none same same fuel (vtz_init (map (fun s => elem_of (read_back s)) subs)) (local_at 1919 7 1 0) true = Some (obj', Ok (-14400)).
Proof.
  assert (M : new_year 1902 (-2145916800)) by reads_tac (-24837). split; [exact M|].
  assert (Zo : zone_offset e1 [(z2, l2, e2); (z3, l3, e3)] (-1593820800) (-14400)) by (apply (zo_here e1 z2 l2); unfold e1, e2; lia). split; [exact Zo|].
  destruct (C69_zone tz_none same same 2020 ny us_rules 1902 2030 1893456000 [] ny_changes (-2145916800) (-5364662400) z1 l1 e1 (z2, l2, e2) [(z3, l3, e3)] _ _ same_keeps same_shuffles no_offsets
    ltac:(lia) year_2030 ltac:(lia) ltac:(lia) eq_refl M start ny_steps ltac:(repeat constructor; cbn; lia) ny_expanded ny_writable (proj1 ny_told) (proj2 ny_told)) as (subs & Ev & H).
  exists subs. split; [exact Ev|]. apply (H (vtz_init (map (fun s => elem_of (read_back s)) subs)) (local_at 1919 7 1 0) (-1593820800) (-14400)); [apply asked_new| |exact Zo|lia].
  apply asking_check; try (vm_compute; reflexivity); cbn; lia.
Qed.

(** ** What vtimezone() gets wrong *)
(** Read back, the components tell v at the moment t, and the changes o. *)
Definition misread (zs : list zonerule) (rs : list zrule) (maxYear : Z) (d : dt) (t o v : Z) : Prop :=
  exists cs subs obj, let zn := mkZone (lit "X") zs in let rules := [(lit "N", rs)] in
  zone_expand tz_none zn rules 1902 maxYear = Ok cs /\ told cs t o /\ instant local_time (setTimezoneID d TzNone) t /\
  zone_vtimezone tz_none zn rules 1902 maxYear = Ok subs /\
  getTimezoneOffsetSeconds tz_none same same 300 (vtz_init (map (fun s => elem_of (read_back s)) subs)) d true = Some (obj, Ok v) /\ v <> o.
Ltac misread_tac := eexists; eexists; eexists; split; [vm_compute; reflexivity|]; split; [apply told_check; vm_compute; reflexivity|]; split; [apply at_is; vm_compute; reflexivity|];
  split; [vm_compute; reflexivity|]; split; [vm_compute; reflexivity|discriminate].
Definition rule (frm to mon on_ at_ save letter : string) : zrule := mkZrule (lit "N") (lit frm) (lit to) (lit "-") (lit mon) (lit on_) (lit at_) (lit save) (lit letter).
Definition line (off rule fmt : string) (until : option string) : zonerule := mkZonerule (lit off) (lit rule) (lit fmt) (option_map lit until).
Definition utc (y m d h mi : Z) : dt := newDateTime y m d h mi 0 false TzNone.
Definition west := [line "-5:00" "-" "LMT" (Some "1930"%string); line "-5:00" "N" "E%sT" None].
Definition east := [line "5:00" "-" "LMT" (Some "1930"%string); line "5:00" "N" "E%sT" None].
(** A rule without end whose changes start from another offset in one year: the component for the years before that year has no UNTIL, and goes on in that
    year.  Here the clock is at -4:30 until 2:00 on 31 October 1943 (6:30 UTC), and already back at 6:00 UTC for the components. *)
Theorem C69_open_run_refuted : exists d t, misread west
  [rule "1940" "max" "Apr" "lastSun" "2:00" "1:00" "D"; rule "1940" "max" "Oct" "lastSun" "2:00" "0" "S"; rule "1943" "only" "Jul" "lastSun" "2:00" "0:30" "S"]
  1947 d t (-16200) (-18000).
Proof. exists (utc 1943 10 31 6 15), (-825875100). misread_tac. Qed.
Print Assumptions C69_open_run_refuted.
(** A line that starts with an offset that a rule gives: the start is taken for a change by that rule, and put in a component with the changes by it that have the
    same offsets; the recurrence rule is that for days moved by one, here wrong for all of them. *)
Theorem C69_line_start_refuted : exists d t, misread
  [line "5:00" "-" "LMT" (Some "1930"%string); line "5:00" "-" "A" (Some "1945"%string); line "4:00" "N" "E%sT" None]
  [rule "1940" "max" "Apr" "lastSun" "2:00" "1:00" "D"; rule "1940" "max" "Oct" "lastSun" "2:00" "0" "S"] 1950 d t 14400 18000.
Proof. exists (utc 1946 2 1 0 0), (-754704000). misread_tac. Qed.
Print Assumptions C69_line_start_refuted.
(** The last Sunday of a month, when the local date is the next day: negative BYYEARDAYs are written, which the
    expansion of the rule takes for invalid dates and drops; the change is missing. *)
Theorem C69_last_forward_refuted : exists d t, misread east
  [rule "1940" "max" "Jan" "lastSun" "22:00u" "1:00" "D"; rule "1940" "max" "Oct" "lastSun" "22:00u" "0" "S"] 1950 d t 21600 18000.
Proof. exists (utc 1944 1 30 23 0), (-817952400). misread_tac. Qed.
Print Assumptions C69_last_forward_refuted.
(** The last Saturday, likewise: BYMONTHDAY with the days of the month but the first of the next one.  In 1949 the last Saturday of April is the 30th. *)
Theorem C69_last_saturday_refuted : exists d t, misread east
  [rule "1940" "max" "Apr" "lastSat" "22:00u" "1:00" "D"; rule "1940" "max" "Oct" "lastSat" "22:00u" "0" "S"] 1950 d t 21600 18000.
Proof. exists (utc 1949 6 1 0 0), (-649641600). misread_tac. Qed.
Print Assumptions C69_last_saturday_refuted.
(** The first of April, when the local date is the day before: BYMONTH=4 is written, and the change is missed. *)
Theorem C69_day_back_refuted : exists d t, misread west
  [rule "1940" "max" "Apr" "1" "0:00u" "1:00" "D"; rule "1940" "max" "Oct" "1" "0:00u" "0" "S"] 1950 d t (-14400) (-18000).
Proof. exists (utc 1944 4 15 0 0), (-811468800). misread_tac. Qed.
Print Assumptions C69_day_back_refuted.
(** The Sunday on or after the first, when the local date is the day before: an exception. *)
Theorem C69_first_back_refuted : exists rs, (exists cs, zone_expand tz_none (mkZone (lit "X") west) [(lit "N", rs)] 1902 1950 = Ok cs) /\
  zone_vtimezone tz_none (mkZone (lit "X") west) [(lit "N", rs)] 1902 1950 = Raise AssertionError.
Proof.
  exists [rule "1940" "max" "Apr" "Sun>=1" "0:00u" "1:00" "D"; rule "1940" "max" "Oct" "Sun>=1" "0:00u" "0" "S"].
  split; [eexists; vm_compute; reflexivity|vm_compute; reflexivity].
Qed.
Print Assumptions C69_first_back_refuted.
(** The object that is returned, before it is written and read again, does not know the RDATEs. *)
Theorem C69_memory_refuted : exists rs cs subs obj t d, let zn := mkZone (lit "X") west in let rules := [(lit "N", rs)] in
  zone_expand tz_none zn rules 1902 1947 = Ok cs /\ told cs t (-14400) /\ instant local_time (setTimezoneID d TzNone) t /\ zone_vtimezone tz_none zn rules 1902 1947 = Ok subs /\
  getTimezoneOffsetSeconds tz_none same same 300 (vtz_init (map in_memory subs)) d true = Some (obj, Ok (-18000)) /\
  exists obj', getTimezoneOffsetSeconds tz_none same same 300 (vtz_init (map (fun s => elem_of (read_back s)) subs)) d true = Some (obj', Ok (-14400)).
Proof.
  exists [rule "1940" "only" "Apr" "lastSun" "2:00" "1:00" "D"; rule "1940" "only" "Oct" "lastSun" "2:00" "0" "S";
    rule "1943" "only" "Apr" "lastSun" "2:00" "1:00" "D"; rule "1943" "only" "Oct" "lastSun" "2:00" "0" "S"].
  eexists. eexists. eexists. exists (-836438400), (utc 1943 7 1 0 0). split; [vm_compute; reflexivity|]. split; [apply told_check; vm_compute; reflexivity|]. split; [apply at_is; vm_compute; reflexivity|].
  split; [vm_compute; reflexivity|]. split; [vm_compute; reflexivity|]. eexists. vm_compute. reflexivity.
Qed.
Print Assumptions C69_memory_refuted.
(** A format with a slash: the name of the time from the start of the line on is the whole format. *)
Theorem C69_slash_name_refuted : exists zn subs, znRules zn = [line "5:00" "-" "LMT" (Some "1930"%string); line "4:00" "1:00" "EET/EEST" None] /\
  zone_vtimezone tz_none zn [] 1902 1950 = Ok subs /\ map (fun s => (sbDay s, sbName s)) subs = [(true, lit "EET/EEST")].
Proof. eexists (mkZone (lit "X") _). eexists. split; [reflexivity|]. split; [vm_compute; reflexivity|reflexivity]. Qed.
Print Assumptions C69_slash_name_refuted.
