(** Proofs about the VTIMEZONE components written by the tz compiler: what they tell when they are read. *)
From Coq Require Import Lia ZifyBool ZifyNat Sorting.Permutation Sorting.Sorted.
From Verif Require Import PyBase PyProofs CalModel CalSpec DateTimeModel DateTimeSpec DateTimeSpec2 CalProofs DateTimeProofs DateTimeProofs2
  DateTimeProofs3 DateTimeProofs4 PeriodSpec PeriodProofs RecurModel RecurSpec RecurExpand RecurExpandSpec RecurSetSpec RecurTextProofs2 RecurSimpleProofs RecurByPartsSpec RecurByPartsProofs3
  RecurSetModel RecurUnionSpec VTimezoneModel VTimezoneSpec VTimezoneProofs VTimezoneProofs3
  ZonalModel ZonalProofs ZonalProofs2 ZonalProofs4 ZoneTzModel ZoneTzSpec ZoneProofs ZoneProofs2 ZoneTzProofs ZoneTzProofs2 ZoneTzProofs3 ZoneTzProofs4 ZoneTzProofs5 ZoneTzProofs6 ZoneTzProofs7 ZoneTzProofs8.
Ltac Zify.zify_post_hook ::= Z.div_mod_to_equations.

Notation jan_first := VTimezoneProofs.new_year.
Lemma fresh_instant d x : instant local_time (fresh d) x <-> instant local_time d x.
Proof. reflexivity. Qed.
Lemma fresh_honest tzo d : honest tzo (fresh d).
Proof. split; discriminate. Qed.
Lemma canon_plain m rr u : plain m rr -> canon (untiled rr u) = untiled rr (option_map said u).
Proof.
  intros (bd & bm & -> & Hd & Hm). destruct bd as [[|[n w] [|? ?]]|]; try contradiction; (destruct bm as [[|k l]|]; [destruct Hm as [[] _]; reflexivity| |]); destruct u; reflexivity.
Qed.
Lemma said_instant u c : instant (InZone true TzNone) u c -> instant (InZone true TzNone) (said u) c.
Proof. intros (V & D & U & T & H). unfold said. rewrite D, U. destruct V as (V1 & V2 & V3). split; [split; [exact V1|split; [exact V2|discriminate]]|]. do 3 (split; [reflexivity|]). exact H. Qed.
Lemma instant_fun z t u c e : instant (InZone z t) u c -> instant (InZone z t) u e -> c = e.
Proof. intros (V & _ & _ & _ & k & H & ->) (_ & _ & _ & _ & j & K & ->). rewrite (days_one _ _ _ (proj1 V) H K). reflexivity. Qed.
Lemma until_said rr u st off lim : floating st = true -> (forall u', u = Some u' -> exists c, instant (InZone true TzNone) u' c) ->
  (until_at local_time st off (untiled rr (option_map said u)) lim <-> until_at local_time st off (untiled rr u) lim).
Proof.
  intros Fl H. destruct u as [u|]; [|reflexivity]. destruct (H u eq_refl) as (c & Ic). unfold until_at. cbn [option_map untiled with_until rUseUntil rUntil]. rewrite Fl.
  assert (X : forall z t e, instant (InZone z t) u e -> e = c).
  { intros z t e I. pose proof I as (_ & _ & U & T & _). pose proof Ic as (_ & _ & U' & T' & _). replace z with true in I by congruence. replace t with TzNone in I by congruence. eapply instant_fun; eauto. }
  assert (X' : forall z t e, instant (InZone z t) (said u) e -> e = c).
  { intros z t e I. pose proof (said_instant u c Ic) as J. pose proof I as (_ & _ & U & T & _). pose proof J as (_ & _ & U' & T' & _). replace z with true in I by congruence. replace t with TzNone in I by congruence. eapply instant_fun; eauto. }
  split; intros (v & e & Ev & (z & t & I) & L); injection Ev as <-.
  - apply X' in I as ->. exists u, c. eauto.
  - apply X in I as ->. exists (said u), c. split; [reflexivity|]. split; [|exact L]. exists true, TzNone. apply said_instant. exact Ic.
Qed.
Lemma read_onset s x f g : fine_sub s -> (onset_of (elem_of (read_back s)) x f g <-> onset_of (elem_of s) x f g).
Proof.
  intro Fs. unfold onset_of, elem_of, read_back. cbn [sbStart sbTo sbFrom sbName sbRule sbDates eFrom eTo eStart eRec sRrules sRdates].
  assert (D : date_gives local_time (map fresh (sbDates s)) x <-> date_gives local_time (sbDates s) x).
  { split; [intros (d & H & I); apply in_map_iff in H as (e & <- & H); exists e; auto|intros (d & H & I); exists (fresh d); split; [apply in_map; exact H|exact I]]. }
  assert (R : forall a, (exists r c, In (r, c) match option_map canon (sbRule s) with Some r => [(r, cache_init)] | None => [] end /\ rule_gives local_time (sbFrom s) (fresh (sbStart s)) a r x) <->
                        (exists r c, In (r, c) match sbRule s with Some r => [(r, cache_init)] | None => [] end /\ rule_gives local_time (sbFrom s) (sbStart s) a r x)).
  { intro a. destruct Fs as [(_ & Ia & m & rr & u & (P & _) & Er & Hu)|(Er & _)]; rewrite Er; [|cbn; split; intros (r & c & [] & _)]. cbn [option_map]. rewrite (canon_plain m rr u P).
    assert (Fl : floating (sbStart s) = true) by (destruct Ia as (_ & _ & U & T & _); unfold floating; rewrite U, T; reflexivity).
    assert (Hu' : forall u', u = Some u' -> exists c, instant (InZone true TzNone) u' c) by (intros u' ->; exact Hu).
    assert (G : rule_gives local_time (sbFrom s) (fresh (sbStart s)) a (untiled rr (option_map said u)) x <-> rule_gives local_time (sbFrom s) (sbStart s) a (untiled rr u) x).
    { unfold rule_gives. split; intros (lim & U & H); exists lim.
      - split; [apply (until_said rr u (sbStart s) (sbFrom s) lim Fl Hu'); exact U|]. revert H. destruct u; exact (fun h => h).
      - split; [apply (until_said rr u (sbStart s) (sbFrom s) lim Fl Hu'); exact U|]. revert H. destruct u; exact (fun h => h). }
    split; intros (r & c & [H|[]] & Hg); injection H as <- <-; eexists; eexists; (split; [left; reflexivity|]); apply G; exact Hg. }
  split; (intros (-> & -> & a & Ia & L & H); split; [reflexivity|]; split; [reflexivity|]; exists a; split; [exact Ia|]; split; [exact L|]).
  - destruct H as [H|[H|H]]; [left; exact H|right; left; apply R; exact H|right; right; apply D; exact H].
  - destruct H as [H|[H|H]]; [left; exact H|right; left; apply R; exact H|right; right; apply D; exact H].
Qed.
Lemma plain_ok m rr u : plain m rr -> 1 <= m <= 12 -> by_ok local_time (untiled rr u).
Proof.
  intros (bd & bm & -> & Hd & Hm) M. assert (B : by_ok local_time (yearly [m] bd bm None)).
  { split; [|split; [reflexivity|split; [intros []|split; [exact I|split; [discriminate|split; [intros _ []|]]]]]].
    - do 5 (split; [cbn; auto; try lia; try discriminate|]). split; [|split; [|do 2 (split; [exact I|])]].
      + cbn. destruct bd as [[|[n w] [|? ?]]|]; try contradiction; [|exact I]. constructor; [cbn; lia|constructor].
      + cbn. destruct bm as [l|]; [|exact I]. eapply Forall_impl; [|apply Hm]. cbn. intros; lia.
      + split; [cbn; constructor; [lia|constructor]|]. cbn. lia.
    - intros _. split; [intros []|]. left. left. exact I. }
  destruct u; exact B.
Qed.
Section WithTz.
Variable tzo : tzid -> Z -> Z -> Z -> Z -> Z -> Z -> bool -> bool -> Z.
Lemma ruled_ok top s : clock_ordered tzo local_time -> top < 2099 -> ruled s -> 1902 <= mYear (sbStart s) -> elem_ok tzo top (elem_of (read_back s)).
Proof.
  intros CO Tp (Ed & Ia & m & rr & v & (P & M) & Er & Hv) Y. unfold elem_ok, elem_of, read_back. rewrite Ed, Er. cbn [option_map]. rewrite (canon_plain m rr v P).
  assert (Hu : match option_map said v with Some u => exists c, instant (InZone true TzNone) u c | None => True end) by (destruct v as [v|]; [destruct Hv as (c & Ic); exists c; apply said_instant; exact Ic|exact I]).
  set (u := option_map said v) in *. clearbody u. clear v Hv Er.
  cbn [sbStart sbTo sbFrom sbName sbRule sbDates map eBelow eItems eStart eFrom eRec sRrules sExrules sRdates sExdates sRperiods sExperiods fst].
  do 2 (split; [reflexivity|]). split; [exact Y|]. split; [apply fresh_honest|]. do 4 (split; [reflexivity|]). split; [repeat constructor|]. split; [constructor|].
  exists (civil (sbStart s)). split; [exact Ia|]. intros d b MD Yd Ib L. constructor; [|constructor].
  destruct (plain_fields m rr u P) as (Fr & Hb & Iv & _).
  assert (U : exists lim, until_at local_time (fresh (sbStart s)) (sbFrom s) (untiled rr u) lim).
  { unfold until_at. assert (Fl : floating (fresh (sbStart s)) = true) by (destruct Ia as (_ & _ & U & T & _); unfold floating; cbn; rewrite U, T; reflexivity). rewrite Fl.
    destruct u as [u|]; cbn [untiled with_until rUseUntil rUntil]; [|exists None; destruct P as (bd & bm & -> & _); reflexivity].
    destruct Hu as (c & Ic). exists (Some (c + sbFrom s)). exists u, c. split; [reflexivity|]. split; [eauto|reflexivity]. }
  destruct U as (lim & U). exists lim. right. split; [|exact CO].
  assert (Lt : mYear (sbStart s) <= mYear d).
  { pose proof Ia as Ia'. pose proof Ib as Ib'. apply instant_civil in Ia' as (Va & _ & _ & _ & Ea), Ib' as (Vb & _ & _ & _ & Eb).
    apply (scale_year local_time (sbStart s) d); auto; [discriminate|]. cbn. lia. }
  split; [discriminate|]. split; [exact Hb|]. split; [eapply plain_ok; eauto|]. split; [exact Ia|]. split; [exact Y|]. split; [|split; [exact Ia|exact U]].
  exists d. split; [reflexivity|]. split; [exact Ib|]. set (start := fresh (sbStart s)) in *. change (mYear (sbStart s)) with (mYear start) in *.
  exists (mYear d + 1 - mYear start), (with_ymd start (mYear d + 1) (mMonth start) (mDay start)). split; [lia|].
  assert (Vs : 1 <= mMonth start <= 12) by (destruct Ia as ((V & _) & _); cbn in V; apply V).
  assert (Ys : mYear (with_ymd start (mYear d + 1) (mMonth start) (mDay start)) = mYear d + 1) by reflexivity. split; [|rewrite Ys; lia]. unfold interval_at, step_months. rewrite Fr, Iv.
  do 7 (split; [reflexivity|]). split; [exact Vs|]. rewrite Ys. change (mMonth (with_ymd start (mYear d + 1) (mMonth start) (mDay start))) with (mMonth start). lia.
Qed.
Lemma dated_ok top s : dated s -> 1902 <= mYear (sbStart s) -> elem_ok tzo top (elem_of (read_back s)).
Proof.
  intros (Er & _ & Ia & Fd) Y. unfold elem_ok, elem_of, read_back. rewrite Er.
  cbn [sbStart sbTo sbFrom sbName sbRule sbDates map eBelow eItems eStart eFrom eRec sRrules sExrules sRdates sExdates sRperiods sExperiods fst].
  do 2 (split; [reflexivity|]). split; [exact Y|]. split; [apply fresh_honest|]. do 4 (split; [reflexivity|]). split; [constructor|]. split; [|exists (civil (sbStart s)); split; [exact Ia|intros; constructor]].
  apply Forall_forall. intros d Hd. apply in_map_iff in Hd as (e & <- & He). rewrite Forall_forall in Fd. destruct (Fd e He) as [Ie _].
  split; [exists (civil e); exact Ie|]. split; [|apply fresh_honest]. destruct Ia as (_ & _ & U & T & _), Ie as (_ & _ & U' & T' & _). split; cbn; congruence.
Qed.
Lemma onset_seconds s x f g : fine_sub s -> mSeconds (sbStart s) = 0 -> Forall (fun d => mSeconds d = 0) (sbDates s) -> onset_of (elem_of s) x f g -> x mod 60 = 0.
Proof.
  intros Fs S0 Fd (-> & -> & a & Ia & _ & H). unfold elem_of in *. cbn [eStart eRec sRrules sRdates eFrom] in *. destruct H as [->|[(r & c & Hr & G)|(d & Hd & I)]]; [eapply instant_minutes; eauto| |].
  - destruct Fs as [(_ & _ & m & rr & u & (P & _) & Er & _)|(Er & _)]; rewrite Er in Hr; [|destruct Hr]. destruct Hr as [Hr|[]]. injection Hr as <- <-.
    destruct (plain_fields m rr u P) as (Fr & Hb & Iv & _ & _ & _ & Bs). eapply rule_minutes; eauto. unfold step_months. rewrite Fr. discriminate.
  - rewrite Forall_forall in Fd. eapply instant_minutes; eauto.
Qed.
Lemma utc_pairs cs : in_order cs -> utc_order cs -> forall c d, In c cs -> In d cs -> T c <= T d -> T c - chFrom c <= T d - chFrom d.
Proof.
  intros O (us & Fu & Su). destruct (order_timely cs O) as [Ti So]. revert us Fu Su. induction cs as [|e cs IH]; intros us Fu Su c d Hc Hd L; [destruct Hc|].
  inversion Fu as [|? u ? us' Iu Fu']; subst. inversion Su as [|? ? Su' Lu]; subst. inversion Ti as [|? ? Te Ti']; subst. inversion So as [|? ? So' Le]; subst.
  assert (X : forall d, In d cs -> T e < T d /\ u < T d - chFrom d).
  { intros d' Hd'. rewrite Forall_forall in Le, Lu. split; [apply Le; exact Hd'|]. destruct (f2_in_l _ _ _ _ Fu' Hd') as (v & Hv & Iv).
    specialize (Lu v Hv). apply instant_T in Iv. fold (T d') in Iv. lia. }
  apply instant_T in Iu. fold (T e) in Iu. destruct Hc as [<-|Hc], Hd as [<-|Hd].
  - lia.
  - destruct (X d Hd). lia.
  - destruct (X c Hc). lia.
  - apply (IH) with (us := us'); auto. destruct O as (xs & Fx & Sx). inversion Fx; subst. inversion Sx; subst. eexists. eauto.
Qed.
Lemma utc_after cs a c b d : utc_order cs -> cs = a ++ c :: b -> In d b -> T c - chFrom c < T d - chFrom d.
Proof.
  intros (us & Fu & Su) -> Hd. apply Forall2_app_inv_l in Fu as (u1 & u2 & F1 & F2 & ->). apply sorted_app in Su as (_ & Su & _). inversion F2 as [|? u ? us I F3]; subst. inversion Su as [|? ? Su' Lu]; subst.
  destruct (f2_in_l _ _ _ _ F3 Hd) as (v & Hv & Iv). rewrite Forall_forall in Lu. specialize (Lu v Hv). apply instant_T in I, Iv. fold (T c) in I. fold (T d) in Iv. lia.
Qed.
Lemma app_len_inj {A} (a a' b b' : list A) : List.length a = List.length a' -> a ++ b = a' ++ b' -> a = a' /\ b = b'.
Proof. revert a'. induction a as [|x a IH]; intros [|y a'] L E; try discriminate L; [auto|]. injection E as -> E. injection L as L. destruct (IH a' L E) as [-> ->]. auto. Qed.
Lemma year_gap y : civil (jan_first y) + 86400 < civil (jan_first (y + 1)).
Proof.
  assert (V : instant local_time (newDateTime y 1 2 0 0 0 false TzNone) (civil (newDateTime y 1 2 0 0 0 false TzNone))).
  { apply instant_civil. split; [|auto]. split; [|split; [unfold valid_time; cbn [newDateTime mHours mMinutes mSeconds]; lia|discriminate]]. change (1 <= 1 <= 12 /\ 1 <= 2 <= 31). lia. }
  pose proof (year_before _ _ (y + 1) V ltac:(cbn; lia)) as H. unfold civil in *. unfold secs_of_day in *. cbn [jan_first newDateTime mYear mMonth mDay mHours mMinutes mSeconds] in *.
  assert (E : hdn y 1 2 = hdn y 1 1 + 1) by (unfold hdn, dn; lia). lia.
Qed.
Theorem lookup_spec order torder top zn rules minYear maxYear maxN lmt cs : permutes order -> shuffles torder -> clock_ordered tzo local_time ->
  1901 <= maxYear -> new_year maxYear maxN -> top < maxYear -> top < 2099 ->
  zone_expand tzo zn rules minYear maxYear = Ok (lmt ++ cs) -> writable maxYear lmt cs -> utc_order cs -> Forall tellable cs ->
  exists subs, zone_vtimezone tzo zn rules minYear maxYear = Ok subs /\
  let es := map (fun s => elem_of (read_back s)) subs in
  forall z d t, asked tzo order torder top es z -> asking cs top d t ->
  exists N, forall fuel, (N <= fuel)%nat -> exists z' v, getTimezoneOffsetSeconds tzo order torder fuel z d true = Some (z', Ok v) /\ told cs t v.
Proof.
  intros Po Ps CO HM NY Tp Tp2 Ex Wr Uo Tl. destruct (vtimezone_spec tzo zn rules minYear maxYear maxN lmt cs HM NY Ex Wr) as (subs & Ev & Fs & Fc & An).
  exists subs. split; [exact Ev|]. intro es. assert (IO : in_order cs) by apply Wr. destruct Wr as (_ & _ & Cl & _). rewrite Forall_forall in Cl. destruct (order_timely cs IO) as [Ti _]. rewrite Forall_forall in Ti, Tl, Fs, Fc.
  assert (On : forall x f o, onset es x f o <-> exists s, In s subs /\ onset_of (elem_of s) x f o).
  { intros x f o. unfold onset, es. split.
    - intros (e & He & O). apply in_map_iff in He as (s & <- & Hs). exists s. split; [exact Hs|]. apply (read_onset s x f o (Fs s Hs)). exact O.
    - intros (s & Hs & O). exists (elem_of (read_back s)). split; [apply in_map_iff; eauto|apply (read_onset s x f o (Fs s Hs)); exact O]. }
  assert (Fr : forall x f o, onset es x f o -> exists c, In c cs /\ chFrom c = f).
  { intros x f o O. apply On in O as (s & Hs & (-> & _)). pose proof (proj1 (Fc s Hs)) as H. inversion H as [|? ? (c & Hc & _ & E & _) _]; subst. exists c. auto. }
  assert (K1 : forall x f o, x < maxN -> onset es x f o -> exists c, In c cs /\ T c = x /\ chFrom c = f /\ chTo c = o).
  { intros x f o L O. apply On in O as (s & Hs & O). destruct (proj1 (An x f o (sbDay s) (sbName s) L)) as (c & Hc & I & <- & <- & _); [exists s; auto|]. exists c. split; [exact Hc|]. split; [symmetry; apply instant_T; exact I|auto]. }
  assert (K2 : forall c, In c cs -> T c < maxN -> onset es (T c) (chFrom c) (chTo c)).
  { intros c Hc L. destruct (Cl c Hc) as (day & name & Cc). destruct (proj2 (An (T c) (chFrom c) (chTo c) day name L)) as (s & Hs & O & _); [exists c; auto|]. apply On. eauto. }
  assert (EN : maxN = civil (jan_first maxYear)). { apply instant_T. apply (reads_instant _ (maxYear, 1, 1) 0 0 0); auto. apply (new_year_instant maxYear). }
  assert (HE : Forall (elem_ok tzo top) es).
  { unfold es. apply Forall_forall. intros e He. apply in_map_iff in He as (s & <- & Hs). pose proof (proj1 (Fc s Hs)) as H. inversion H as [|? ? (c & Hc & E & _) _]; subst.
    destruct (Tl c Hc) as (Y & _). rewrite <- E in Y. destruct (Fs s Hs) as [R|D]; [apply ruled_ok; assumption|apply dated_ok; assumption]. }
  assert (WM : whole_minutes es).
  { intros x f o O. split.
    - apply On in O as (s & Hs & O). pose proof (proj1 (Fc s Hs)) as H. inversion H as [|? ? (c & Hc & E & _) H2]; subst. apply (onset_seconds s x f o (Fs s Hs)); [rewrite E; apply (Tl c Hc)| |exact O].
      eapply Forall_impl; [|exact H2]. intros d (c' & Hc' & -> & _). apply (Tl c' Hc').
    - destruct (Fr _ _ _ O) as (c & Hc & <-). apply (Tl c Hc). }
  intros z d t As (It & Y1 & Y2 & (c0 & x0 & H0 & I0 & L0) & Nx).
  assert (Lt : t < civil (jan_first (mYear d + 1))) by (apply (year_before (setTimezoneID d TzNone)); [exact It|cbn; lia]).
  pose proof (year_gap (mYear d + 1)) as Gap. replace (mYear d + 1 + 1) with (mYear d + 2) in Gap by lia.
  pose proof (new_year_le (mYear d + 2) top ltac:(lia)) as Le1. pose proof (new_year_le (top + 1) maxYear ltac:(lia)) as Le2. pose proof (year_gap top) as Gap2. rewrite <- EN in Le2.
  assert (Ch : forall c, In c cs -> T c - chFrom c <= t -> T c < civil (jan_first (mYear d + 1))).
  { intros c Hc L. apply (year_before (chAt c)); [apply Ti; exact Hc|]. specialize (Nx c (T c) Hc (Ti c Hc) L). lia. }
  assert (Os : forall x f o, onset es x f o -> x - f <= t -> x < civil (jan_first (mYear d + 1))).
  { intros x f o O L. destruct (Z.lt_ge_cases x maxN) as [G|G].
    - destruct (K1 x f o G O) as (c & Hc & <- & <- & _). apply Ch; assumption.
    - destruct (Fr _ _ _ O) as (c & Hc & <-). destruct (Tl c Hc) as (_ & _ & _ & B). lia. }
  assert (Q : question es top d true t).
  { split; [exact It|]. split; [exact Y1|]. split; [exact Y2|]. intros _. split.
    - intros x f o y g o' n b O O' L In_ Yn Zn Lb. assert (Eb : b = civil (jan_first top)).
      { apply instant_T in In_. rewrite In_. unfold civil, secs_of_day. injection Yn as -> -> ->. injection Zn as -> -> ->. reflexivity. }
      destruct (K1 x f o ltac:(lia) O) as (c & Hc & <- & <- & _), (K1 y g o' ltac:(lia) O') as (e & He & <- & <- & _). apply (utc_pairs cs); auto.
    - intros x f o n y O L In_ MD Yn. specialize (Os x f o O L). assert (E : civil (jan_first (mYear d + 1)) <= y).
      { apply (midnight_le n (jan_first (mYear d + 1))); [exact In_|apply new_year_instant| |reflexivity]. unfold ymd. injection MD as -> ->. rewrite Yn. reflexivity. }
      lia. }
  destruct (offset_in_force tzo order torder Po Ps top ltac:(lia) CO es HE WM z d true t As Q) as (N & HN). exists N. intros fuel Lf. destruct (HN fuel Lf) as (z' & v & Eo & Inf).
  exists z', v. split; [exact Eo|]. apply instant_T in I0. fold (T c0) in I0. subst x0. destruct Inf as [[_ H]|(x & f & O & L & M)].
  - pose proof (Ch c0 H0 L0). specialize (H _ _ _ (K2 c0 H0 ltac:(lia))). cbn [change_at] in H. lia.
  - cbn [change_at] in L, M. pose proof (Os x f v O L). destruct (K1 x f v ltac:(lia) O) as (c & Hc & <- & <- & <-). left. apply in_split in Hc as (a & b & Ec). exists a, c, b. split; [exact Ec|]. split; [reflexivity|].
    assert (Hc : In c cs) by (rewrite Ec; apply in_or_app; right; left; reflexivity). split; [exists (T c); split; [apply Ti; exact Hc|exact L]|].
    intros e He. assert (He' : In e cs) by (rewrite Ec; apply in_or_app; right; right; exact He). exists (T e). split; [apply Ti; exact He'|].
    destruct (Z.lt_ge_cases t (T e - chFrom e)) as [|G]; [assumption|]. pose proof (Ch e He' ltac:(lia)). specialize (M _ _ _ (K2 e He' ltac:(lia)) ltac:(lia)).
    pose proof (utc_after cs a c b e Uo Ec He). lia.
Qed.
End WithTz.
(** The results tell one offset. *)
Lemma told_one l t o v : told l t o -> told l t v -> o = v.
Proof.
  assert (X : forall a c b a' c' b', l = a ++ c :: b -> l = a' ++ c' :: b' -> (forall d, In d b -> exists x, instant local_time (chAt d) x /\ t < x - chFrom d) ->
    (exists x, instant local_time (chAt c') x /\ x - chFrom c' <= t) -> (List.length a' <= List.length a)%nat).
  { intros a c b a' c' b' E E' Hb (x & I & L). destruct (Nat.le_gt_cases (List.length a') (List.length a)) as [|G]; [assumption|exfalso].
    assert (Hc : In c' b).
    { assert (Q : nth_error l (List.length a') = Some c') by (rewrite E', nth_error_app2, Nat.sub_diag by lia; reflexivity).
      rewrite E, nth_error_app2 in Q by lia. destruct (List.length a' - List.length a)%nat as [|k] eqn:D; [lia|]. exact (nth_error_In b k Q). }
    destruct (Hb c' Hc) as (y & J & L'). apply instant_T in I, J. lia. }
  intros [(a & c & b & E & <- & H & Hb)|(c & b & E & <- & H)] [(a' & c' & b' & E' & <- & H' & Hb')|(c' & b' & E' & <- & H')].
  - pose proof (X _ _ _ _ _ _ E E' Hb H'). pose proof (X _ _ _ _ _ _ E' E Hb' H). assert (L : List.length a = List.length a') by lia. rewrite E in E'. destruct (app_len_inj a a' (c :: b) (c' :: b') L E') as [_ E2]. injection E2 as -> _. reflexivity.
  - exfalso. destruct H as (x & I & L), (H' c) as (y & J & L'); [rewrite E; apply in_or_app; right; left; reflexivity|]. apply instant_T in I, J. lia.
  - exfalso. destruct H' as (x & I & L), (H c') as (y & J & L'); [rewrite E'; apply in_or_app; right; left; reflexivity|]. apply instant_T in I, J. lia.
  - rewrite E in E'. injection E' as -> _. reflexivity.
Qed.
Lemma told_app l1 l t o : (exists c x, In c l /\ instant local_time (chAt c) x /\ x - chFrom c <= t) -> told l t o -> told (l1 ++ l) t o.
Proof.
  intros (c0 & x0 & H0 & I0 & L0) [(a & c & b & -> & R)|(c & b & E & _ & H)].
  - left. exists (l1 ++ a), c, b. split; [apply app_assoc|exact R].
  - exfalso. destruct (H c0 H0) as (y & J & L'). apply instant_T in I0, J. lia.
Qed.

(** ** Checks of examples by computation *)
Definition timely_b (d : dt) : bool :=
  (1 <=? mMonth d) && (mMonth d <=? 12) && (1 <=? mDay d) && (mDay d <=? month_len hist_leap (mYear d) (mMonth d)) &&
  (0 <=? mHours d) && (mHours d <? 24) && (0 <=? mMinutes d) && (mMinutes d <? 60) && (0 <=? mSeconds d) && (mSeconds d <? 60) &&
  negb (mDateOnly d) && negb (mTZUTC d) && match mTZID d with TzNone => true | _ => false end.
Lemma timely_spec d : timely_b d = true -> at_time d.
Proof.
  unfold timely_b. rewrite !andb_true_iff, !negb_true_iff. intros (((((((((((( A & B) & C) & D) & E) & F) & G) & H) & I) & J) & K) & L) & M). destruct (mTZID d) eqn:Z; try discriminate M.
  apply instant_civil. split; [|auto]. split; [unfold ymd, valid_date; lia|]. split; [unfold valid_time; lia|congruence].
Qed.
Definition told_b (cs : list change) (t : Z) : option Z :=
  fold_left (fun r c => if civil (chAt c) - chFrom c <=? t then Some (chTo c) else r) cs None.
Fixpoint rising (x : Z) (l : list Z) : bool := match l with [] => true | y :: r => (x <? y) && rising y r end.
Lemma rising_spec l : forall x, rising x l = true -> StronglySorted Z.lt (x :: l).
Proof.
  induction l as [|y l IH]; intros x H; [repeat constructor|]. cbn [rising] in H. apply andb_true_iff in H as [L H]. specialize (IH y H). constructor; [exact IH|]. constructor; [lia|].
  inversion IH as [|? ? _ F]; subst. eapply Forall_impl; [|exact F]. intros; cbn in *. lia.
Qed.
Definition ordered_b (f : change -> Z) (cs : list change) : bool := match map f cs with [] => true | x :: l => rising x l end.
Lemma ordered_spec f cs : ordered_b f cs = true -> StronglySorted Z.lt (map f cs).
Proof. unfold ordered_b. destruct (map f cs) as [|x l]; [constructor|apply rising_spec]. Qed.
Lemma in_order_check cs : forallb (fun c => timely_b (chAt c)) cs = true -> ordered_b T cs = true -> in_order cs.
Proof.
  intros H O. exists (map T cs). split; [|apply ordered_spec; exact O]. clear O. rewrite forallb_forall in H. induction cs as [|c cs IH]; [constructor|]. cbn [map]. constructor; [apply timely_spec, H; left; reflexivity|].
  apply IH. intros; apply H; right; assumption.
Qed.
Lemma utc_order_check cs : forallb (fun c => timely_b (chAt c)) cs = true -> ordered_b (fun c => T c - chFrom c) cs = true -> utc_order cs.
Proof.
  intros H O. exists (map (fun c => T c - chFrom c) cs). split; [|apply ordered_spec; exact O]. clear O. rewrite forallb_forall in H. induction cs as [|c cs IH]; [constructor|]. cbn [map]. constructor.
  - replace (T c - chFrom c + chFrom c) with (T c) by lia. apply timely_spec, H. left; reflexivity.
  - apply IH. intros; apply H; right; assumption.
Qed.
Lemma told_check cs t o : forallb (fun c => timely_b (chAt c)) cs = true -> ordered_b (fun c => T c - chFrom c) cs = true -> told_b cs t = Some o -> told cs t o.
Proof.
  intros H O E. apply ordered_spec in O. rewrite forallb_forall in H. unfold told_b in E. left. revert E O H. induction cs as [|c cs IH] using rev_ind; [discriminate|].
  intros E O H. rewrite fold_left_app in E. cbn [fold_left] in E. rewrite map_app in O. apply sorted_app in O as (O & _ & L).
  assert (Ac : at_time (chAt c)) by (apply timely_spec, H, in_or_app; right; left; reflexivity).
  destruct (Z.leb_spec (civil (chAt c) - chFrom c) t) as [G|G].
  - injection E as <-. exists cs, c, []. split; [reflexivity|]. split; [reflexivity|]. split; [exists (civil (chAt c)); auto|intros d []].
  - destruct (IH E O ltac:(intros; apply H, in_or_app; left; assumption)) as (a & e & b & -> & R & S & N). exists a, e, (b ++ [c]). split; [rewrite <- app_assoc; reflexivity|]. split; [exact R|]. split; [exact S|].
    intros d Hd. apply in_app_or in Hd as [Hd|[<-|[]]]; [apply N; exact Hd|]. exists (civil (chAt c)). split; [exact Ac|lia].
Qed.
Lemma together_block z l cs : (forall c, In c l -> chZone c = z) -> (forall c, In c cs -> chZone c <> z) -> together cs -> together (l ++ cs).
Proof.
  intros Hl Hc Tg. induction l as [|x l IH]; [exact Tg|]. specialize (IH ltac:(intros; apply Hl; right; assumption)). intros a c b d e E Ez. destruct a as [|y a].
  - injection E as <- E. rewrite (Hl x (or_introl eq_refl)) in *. apply Forall_forall. intros w Hw.
    assert (Q : In d l \/ In d cs) by (apply in_app_or; change (l ++ cs) with (l ++ cs); rewrite E; apply in_or_app; right; left; reflexivity).
    destruct (in_split _ _ Hw) as (b1 & b2 & Eb). assert (Iw : In w (l ++ cs)) by (rewrite E; apply in_or_app; left; exact Hw). apply in_app_or in Iw as [Iw|Iw]; [apply Hl; right; exact Iw|].
    exfalso. revert E Iw Hw Ez Hl Hc. clear -d. revert b. induction l as [|v l IHl]; intros b E Iw Hw Ez Hl Hc.
    + cbn [app] in E. apply (Hc d); [rewrite E; apply in_or_app; right; left; reflexivity|auto].
    + destruct b as [|v' b]; [destruct Hw|]. injection E as <- E. destruct Hw as [<-|Hw]; [apply (Hc v Iw); apply Hl; right; left; reflexivity|]. apply (IHl b E Iw Hw Ez); [|exact Hc].
      intros c' [<-|Hc']; apply Hl; [left; reflexivity|right; right; exact Hc'].
  - injection E as <- E. apply (IH a c b d e E Ez).
Qed.
Lemma together_nil : together [].
Proof. intros a c b d e E. destruct a; discriminate E. Qed.
