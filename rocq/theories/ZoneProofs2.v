(** Proofs about the expansion of tz zones: lines, and the whole zone. *)
From Coq Require Import Lia ZifyBool ZifyNat Sorting.Permutation Sorting.Sorted.
From Verif Require Import PyBase PyProofs CalModel CalSpec DateTimeModel DateTimeSpec DateTimeSpec2 CalProofs DateTimeProofs DateTimeProofs2
  DateTimeProofs3 DateTimeProofs4 PeriodSpec PeriodProofs RecurModel RecurTextProofs2 RecurSimpleProofs RecurByPartsProofs3
  ZonalModel ZonalProofs ZonalProofs4 ZoneSpec ZoneProofs.
Ltac Zify.zify_post_hook ::= Z.div_mod_to_equations.

Lemma hist_valid y m d : 1752 < y -> valid_date greg_leap (y, m, d) -> valid_date hist_leap (y, m, d).
Proof. intros Hy (Hm & Hd). split; [exact Hm|]. rewrite month_len_greg by exact Hy. exact Hd. Qed.
Lemma selects_valid y m o dd : 1752 < y -> 1 <= m <= 12 -> on_ok y m o -> (forall w n, o <> AtMost w n) -> selects y m o dd -> valid_date hist_leap dd.
Proof.
  intros Hy Hm Ho Nm S. destruct o as [w|w n|w n|n]; cbn [selects on_ok] in *.
  - destruct (last_exists y m w Hy Hm Ho) as (d & V & N). assert (dd = (y, m, d)) as -> by (apply (selects_fun y m (Last w)); cbn; auto).
    apply hist_valid; assumption.
  - assert (Vn : valid_date greg_leap (y, m, n)) by (unfold valid_date; lia).
    apply nth_from_gdn in S as (V & _ & G & _); [|exact Vn]. destruct dd as [[y' m'] d']. apply hist_valid; [|exact V].
    destruct (Z.le_gt_cases y y') as [|L]; [lia|exfalso].
    pose proof (dn_lt_year greg_leap Lg Lg_step y' m' d' y m n V Vn ltac:(lia)). unfold gdn, dnd in G. lia.
  - exfalso. eapply Nm. reflexivity.
  - subst dd. apply hist_valid; [exact Hy|]. unfold valid_date. lia.
Qed.

Lemma std_of rules maxYear z ln : line_of rules maxYear z ln -> getUTCOffset z = Ok (lnStd ln).
Proof. intros ((sg & h & l & T & ->) & _). apply utc_offset. exact T. Qed.
Lemma until_of rules maxYear z ln : line_of rules maxYear z ln ->
  exists u, getUntilDate z = Ok u /\ instant local_time (zDt u) (lnUntil ln) /\ suffix (zMode u) (lnClock ln).
Proof.
  intros (_ & _ & [(N & R & C)|(y & m & o & h & mi & s & mode & toks & dd & T & E & F & Hy & Hm & Ho & Hd & Hh & Hmi & Hs & Se & R & Su)]).
  - exists (mkZdt (newDateTime 9999 12 1 0 0 0 false TzNone) None). split; [apply until_none; exact N|]. cbn [zDt zMode]. split.
    + apply (reads_instant _ (9999, 12, 1) 0 0 0); try reflexivity; [|exact R]. unfold valid_dt, valid_date, valid_time. cbn. repeat split; lia.
    + rewrite C. left. reflexivity.
  - assert (Nm : forall w n, o <> AtMost w n) by (intros w n ->; exact Hd).
    destruct (until_spec z y m o h mi s mode toks T E F ltac:(lia) Hm Ho Hd) as (u & Eu & Su' & Tu & D & U & Z & M).
    assert (Ey : ymd (zDt u) = dd) by (apply (selects_fun y m o); auto).
    exists u. split; [exact Eu|]. split; [|rewrite M; exact Su]. apply (reads_instant _ dd h mi s); auto.
    injection Tu as Th Tm Ts. split; [rewrite Ey; apply (selects_valid y m o); auto|]. split; [unfold valid_time; lia|congruence].
Qed.

Lemma find_set {A} (rules : list (bytes * A)) n set : In (n, set) rules -> NoDup (map fst rules) -> find (fun e => beq (fst e) n) rules = Some (n, set).
Proof.
  induction rules as [|[k v] rules IH]; intros I N; [destruct I|]. cbn [map fst] in N. inversion N as [|? ? Nk N']; subst. cbn [find fst].
  destruct (beq k n) eqn:E.
  - apply beq_eq in E as ->. destruct I as [I|I]; [injection I as ->; reflexivity|]. exfalso. apply Nk. apply in_map_iff. exists (n, set). auto.
  - destruct I as [I|I]; [injection I as -> ->; rewrite beq_refl in E; discriminate E|]. apply IH; assumption.
Qed.
Lemma numeric_rule z sg h l : offset_text sg h l (zRule z) -> sg <> Plus -> isNumericOffset z = Ok true.
Proof.
  intros T N. unfold isNumericOffset.
  assert (H : exists p t, 0 <= h /\ zRule z = sign_text sg ++ fmt0 p h ++ t).
  { inversion T as [p Hh E|p q m Hh Hm E|p q r m x Hh Hm Hx E]; exists p; [exists []; rewrite app_nil_r|eexists|eexists]; split; auto. }
  destruct H as (p & t & Hh & ->). destruct (fmt0_head p h Hh) as (c & r & E & Hc & _). rewrite E.
  destruct sg; [congruence| |]; cbn [sign_text app].
  - destruct (beq _ _) eqn:B; [reflexivity|]. cbn. rewrite Hc. reflexivity.
  - destruct (beq _ _) eqn:B; [reflexivity|]. cbn. rewrite Hc. reflexivity.
Qed.
Lemma late off js t : Forall (fun j => t < jAt j) js -> after_jumps off js t = off.
Proof. intros F. destruct F as [|j js H F]; [reflexivity|]. cbn [after_jumps]. replace (jAt j <=? t) with false by lia. reflexivity. Qed.
Section WithTz.
Variable tzo : tzid -> Z -> Z -> Z -> Z -> Z -> Z -> bool -> bool -> Z.

Lemma line_expand rules maxYear z ln s e sdt po ps : line_of rules maxYear z ln -> StronglySorted (fun a b => jAt a < jAt b) (jumps ln) ->
  clear_start ln s po ps -> clear_end ln e -> s < e -> instant local_time sdt s ->
  exists ts, zonerule_expand tzo rules z sdt po ps maxYear = Ok (ts, offset_at ln (e - 1), lnStd ln) /\ Forall2 tshows ts (line_steps z ln s e).
Proof.
  intros Lo S Cs Ce L Is. pose proof (std_of _ _ _ _ Lo) as Es. destruct (until_of _ _ _ _ Lo) as (fin & Ef & If & Sf).
  destruct Lo as (_ & Lb & _). unfold zonerule_expand, line_steps, offset_at, jumps, base, clear_start, clear_end in *. unfold jumps in Ce.
  destruct (lnBody ln) as [save|sws] eqn:B.
  - assert (N : isNumericOffset z = Ok true /\ getNumericOffset z = Ok save).
    { destruct Lb as [[E ->]|(sg & h & l & T & NP & M & X & ->)].
      - unfold isNumericOffset, getNumericOffset. rewrite E. split; reflexivity.
      - split; [apply (numeric_rule z sg h l); assumption|]. apply (numeric_offset_exact z sg h l T). auto. }
    destruct N as [-> ->]. cbn [rbind]. rewrite Es. cbn [rbind after_jumps filter map]. eexists. split; [reflexivity|].
    constructor; [|constructor]. unfold tshows. cbn. auto.
  - destruct Lb as (c & r & set & Ez & Dc & Nc & Ir & Nd & (ll & Fl & P & Ss)).
    assert (N : isNumericOffset z = Ok false).
    { unfold isNumericOffset. rewrite Ez. destruct (beq (c :: r) (lit "-")) eqn:X; [apply beq_eq in X; injection X as -> _; congruence|].
      cbn. rewrite Dc. destruct (Ascii.eqb_spec c "-"); [congruence|]. reflexivity. }
    rewrite N. cbn [rbind]. rewrite (find_set rules (zRule z) set Ir Nd).
    destruct (ruleset_expand_spec tzo z (lnStd ln) maxYear set ll Es Fl) as (temp & Et & Ft). rewrite Et. cbn [rbind]. rewrite Ef. cbn [rbind].
    assert (Fs : Forall2 (fun x sw => switched x (lnStd ln) sw) (sort_at tzo (fun x => zDt (fst (fst x))) temp) sws).
    { apply (sort_at_spec tzo (fun x => zDt (fst (fst x))) swAt _) with (ys := List.concat ll); auto. intros [[d o] r0] sw (I & _). exact I. }
    destruct Fs as [|x sw l sws Hx Fs]; [contradiction|].
    assert (G : exists y ts, zonerule_loop tzo z sdt fin (x :: l) false false po ps None [] = Ok y /\
      finish z sdt y = (ts, after_jumps (lnStd ln) (chain (lnStd ln) (lnStd ln) (sw :: sws)) (e - 1), lnStd ln) /\
      Forall2 tshows ts (mkStep s (after_jumps (lnStd ln) (chain (lnStd ln) (lnStd ln) (sw :: sws)) s) z None ::
        inside z s e (chain (lnStd ln) (lnStd ln) (sw :: sws)))).
    { destruct Cs as [[U V]|[[U V]|[-> ->]]].
      - destruct x as [[d o] r0]. destruct Hx as (Id & Sd & -> & ->). pose proof (utc_instant d _ _ po ps Id Sd) as Iv.
        cbn [zonerule_loop]. destruct (cmp_s tzo s sdt Is _ _ Iv) as [-> ->]. cbn [rbind]. destruct (s <=? meant _ _ po ps) eqn:X; [lia|].
        rewrite Es. cbn [rbind chain] in *. inversion S as [|? ? S' _]; subst. inversion Ce as [|? ? _ Ce']; subst. cbn [jAt] in *.
        destruct (loop_before tzo z ln s e sdt fin Es Is If Sf L l sws Fs (lnStd ln + swSave sw) (Some (swRule sw)) [] S' Ce') as (y & ts & E & Fi & Fh).
        exists y, ts. split; [exact E|]. cbn [after_jumps jAt jTo]. destruct (meant _ _ _ _ <=? e - 1) eqn:X1; [|lia]. destruct (meant _ _ _ _ <=? s) eqn:X2; [|lia].
        split; [exact Fi|]. unfold inside in *. cbn [filter jAt]. destruct (s <? meant _ _ _ _) eqn:X3; [lia|]. exact Fh.
      - rewrite (loop_first tzo z ln s sdt fin Es Is x l po ps sw Hx V U).
        destruct (loop_started tzo z ln s e sdt fin Es Is If Sf (x :: l) (sw :: sws)) with (off := lnStd ln) (r := @None zrule) (acc := [mkTrans sdt (lnStd ln) z None]) as (ts & E & Fh);
          [constructor; assumption|exact S| |exact Ce|].
        + cbn [chain] in *. inversion S as [|? ? _ Fj]; subst. constructor; [exact U|]. eapply Forall_impl; [|exact Fj]. cbn [jAt]. intros; lia.
        + rewrite E. do 2 eexists. split; [reflexivity|]. cbn [finish]. split; [reflexivity|]. cbn [app]. constructor; [|exact Fh].
          unfold tshows. cbn [trUTC trTo trZone trRule stAt stTo stLine stRule]. rewrite late; [auto|].
          cbn [chain] in *. inversion S as [|? ? _ Fj]; subst. constructor; [exact U|]. eapply Forall_impl; [|exact Fj]. cbn [jAt]. intros; lia.
      - rewrite (loop_same tzo z ln sdt fin Es x l).
        destruct (loop_before tzo z ln s e sdt fin Es Is If Sf L (x :: l) (sw :: sws) (Forall2_cons (R := fun x sw => switched x (lnStd ln) sw) x sw Hx Fs) (lnStd ln) None [] S Ce) as (y & ts & E & Fi & Fh).
        exists y, ts. auto. }
    destruct G as (y & ts & E & Fi & Fh). rewrite E. cbn [rbind]. destruct y as [[[acc fs] lo] ls]. unfold finish in Fi. exists ts. split; [f_equal; exact Fi|exact Fh].
Qed.

Lemma steps_in z ln s e : s < e -> Forall (fun st => s <= stAt st < e) (line_steps z ln s e).
Proof.
  intro L. constructor; [cbn; lia|]. apply Forall_forall. intros st H. apply in_map_iff in H as (j & <- & H). apply filter_In in H as [_ H]. cbn. lia.
Qed.
Lemma filter_sorted {A} (R : A -> A -> Prop) f l : StronglySorted R l -> StronglySorted R (filter f l).
Proof.
  intro S. induction S as [|x l S IH F]; cbn [filter]; [constructor|]. destruct (f x); [|exact IH]. constructor; [exact IH|].
  apply Forall_forall. intros y H. apply filter_In in H as [H _]. rewrite Forall_forall in F. auto.
Qed.
Lemma line_sorted z ln s e : StronglySorted (fun a b => jAt a < jAt b) (jumps ln) -> StronglySorted (fun a b => stAt a < stAt b) (line_steps z ln s e).
Proof.
  intro S. unfold line_steps. constructor.
  - apply (filter_sorted _ (fun j => (s <? jAt j) && (jAt j <? e))) in S. induction S as [|j l S IH F]; cbn [map]; constructor; [exact IH|].
    apply Forall_forall. intros st H. apply in_map_iff in H as (k & <- & H). rewrite Forall_forall in F. cbn. auto.
  - apply Forall_forall. intros st H. apply in_map_iff in H as (j & <- & H). apply filter_In in H as [_ H]. cbn. lia.
Qed.
Lemma app_sorted {A} (R : A -> A -> Prop) l m : StronglySorted R l -> StronglySorted R m -> (forall a b, In a l -> In b m -> R a b) -> StronglySorted R (l ++ m).
Proof.
  intros S M H. induction S as [|x l S IH F]; [exact M|]. cbn [app]. constructor; [apply IH; intros; apply H; auto; right; assumption|].
  apply Forall_app. split; [exact F|]. apply Forall_forall. intros b Hb. apply H; [left; reflexivity|exact Hb].
Qed.
Lemma zone_sorted rules maxYear s po ps lines l : zone_steps rules maxYear s po ps lines l ->
  StronglySorted (fun a b => stAt a < stAt b) (List.concat l) /\ Forall (fun st => s <= stAt st) (List.concat l).
Proof.
  intro Z. induction Z as [s po ps|s po ps z ln e rest l Lo S Cs En Ce L Z [IH1 IH2]]; cbn [List.concat]; [split; constructor|].
  pose proof (steps_in z ln s e L) as I. rewrite Forall_forall in I, IH2. split.
  - apply app_sorted; [apply line_sorted; exact S|exact IH1|]. intros a b Ha Hb. specialize (I a Ha). specialize (IH2 b Hb). cbv beta in *. lia.
  - apply Forall_app. split; apply Forall_forall; intros st H; [specialize (I st H)|specialize (IH2 st H)]; cbv beta in *; lia.
Qed.

Lemma transitions_spec rules maxYear s po ps lines l : zone_steps rules maxYear s po ps lines l -> forall sdt acc, instant local_time sdt s ->
  exists ts, zone_transitions tzo rules maxYear (map text_of lines) sdt po ps false acc = Ok (acc ++ ts) /\ Forall2 tshows ts (List.concat l).
Proof.
  intro Z. induction Z as [s po ps|s po ps z ln e rest l Lo S Cs En Ce L Z IH]; intros sdt acc Is; cbn [map text_of fst zone_transitions List.concat].
  - exists []. rewrite app_nil_r. split; [reflexivity|constructor].
  - destruct (line_expand rules maxYear z ln s e sdt po ps Lo S Cs Ce L Is) as (ts & E & F). rewrite E. cbn [rbind].
    destruct (until_of _ _ _ _ Lo) as (fin & Ef & If & Sf). rewrite Ef. cbn [rbind].
    pose proof (utc_instant fin _ _ (offset_at ln (e - 1)) (lnStd ln) If Sf) as Ie. unfold ends in En. rewrite <- En in Ie.
    destruct (IH (getUTC fin (offset_at ln (e - 1)) (lnStd ln)) (acc ++ ts) Ie) as (ts' & E' & F').
    rewrite E'. exists (ts ++ ts'). rewrite app_assoc. split; [reflexivity|]. apply Forall2_app; assumption.
Qed.
Lemma transitions_dropped rules maxYear s po ps line lines k l sdt : zone_steps rules maxYear s po ps (line :: lines) (k :: l) -> instant local_time sdt s ->
  exists ts, zone_transitions tzo rules maxYear (map text_of (line :: lines)) sdt po ps true [] = Ok ts /\ Forall2 tshows ts (List.concat l).
Proof.
  intros Z Is. inversion Z as [|? ? ? z ln e ? ? Lo S Cs En Ce L Z']; subst. cbn [map text_of fst zone_transitions].
  destruct (line_expand rules maxYear z ln s e sdt po ps Lo S Cs Ce L Is) as (ts & E & F). rewrite E. cbn [rbind].
  destruct (until_of _ _ _ _ Lo) as (fin & Ef & If & Sf). rewrite Ef. cbn [rbind].
  pose proof (utc_instant fin _ _ (offset_at ln (e - 1)) (lnStd ln) If Sf) as Ie. unfold ends in En. rewrite <- En in Ie.
  destruct (transitions_spec _ _ _ _ _ _ _ Z' _ [] Ie) as (ts' & E' & F'). exists ts'. auto.
Qed.

(** ** The scan *)
Lemma year_from d x y m : instant local_time d x -> new_year y m -> (y <=? mYear d) = (m <=? x).
Proof.
  intros I (k & K & ->). apply instant_civil in I as (V & _ & _ & _ & ->). pose proof (valid_secs d V) as Sd. destruct V as (V & _).
  assert (Vy : valid_date hist_leap (y, 1, 1)) by (cbn; lia).
  apply (days_between_dn hist_leap Lh Lh_step) in K; [|apply valid_1970|exact Vy]. unfold civil.
  assert (Ek : k = hdn y 1 1 - hdn 1970 1 1) by (unfold dnd, hdn in *; lia).
  destruct (Z.lt_trichotomy (mYear d) y) as [Lt|[Eq|Gt]].
  - pose proof (dn_lt_year hist_leap Lh Lh_step (mYear d) (mMonth d) (mDay d) y 1 1 V Vy Lt). unfold hdn in *. lia.
  - assert (hdn y 1 1 <= hdn (mYear d) (mMonth d) (mDay d)).
    { rewrite <- Eq. unfold hdn. destruct V as (Hm & Hd). pose proof (day_mono (InZone false TzNone) (mYear d) 1 (mYear d) (mMonth d) ltac:(lia) Hm ltac:(lia)). unfold day_at, hdn, dn in *. lia. }
    lia.
  - pose proof (dn_lt_year hist_leap Lh Lh_step y 1 1 (mYear d) (mMonth d) (mDay d) Vy V ltac:(lia)). unfold hdn in *. lia.
Qed.
Lemma scan_spec minYear m so ts steps : new_year minYear m -> Forall2 tshows ts steps -> forall ldt x off results, instant local_time ldt x -> spaced x off steps ->
  exists cs, zone_scan tzo minYear so ts ldt off results = Ok (results ++ cs) /\ Forall2 shows (filter (fun p => m <=? stAt (snd p)) (with_from off steps)) cs.
Proof.
  intros Ny F. induction F as [|t st ts steps (It & To & Tz & Tr) F IH]; intros ldt x off results Il Sp; cbn [zone_scan with_from filter].
  - exists []. rewrite app_nil_r. split; [reflexivity|constructor].
  - unfold spaced in Sp. cbn [with_from map snd fst] in Sp. inversion Sp as [|? ? Sp' Fx]; subst. inversion Fx as [|? ? Lt _]; subst.
    pose proof (offset_instant _ _ off It) as Id. rewrite (year_from _ _ _ _ It Ny).
    pose proof (instant_ops tzo local_time _ _ _ _ Id Il) as (_ & _ & G & _).
    cbn [snd]. destruct (m <=? stAt st); cbn [rbind].
    + rewrite G. replace (x - (stAt st + off) <? 0) with true by lia. cbn [rbind].
      destruct (IH (offsetSeconds (trUTC t) off) (stAt st + off) (trTo t) (results ++ [mkChange (offsetSeconds (trUTC t) off) off (trTo t) (trZone t) (trRule t)]) Id) as (cs & E & Fc).
      { unfold spaced. rewrite To. exact Sp'. }
      rewrite E, <- app_assoc. eexists. split; [reflexivity|]. cbn [app]. constructor; [|rewrite <- To; exact Fc].
      unfold shows. cbn [chAt chFrom chTo chZone chRule]. auto.
    + destruct (IH (offsetSeconds (trUTC t) off) (stAt st + off) (trTo t) results Id) as (cs & E & Fc).
      { unfold spaced. rewrite To. exact Sp'. }
      rewrite E. eexists. split; [reflexivity|]. rewrite <- To. exact Fc.
Qed.
Lemma sorted_transitions ts steps : StronglySorted (fun a b => stAt a < stAt b) steps -> Forall2 tshows ts steps -> Forall2 tshows (sort_at tzo trUTC ts) steps.
Proof. intros S F. apply (sort_at_spec tzo trUTC stAt tshows) with (ys := steps); auto. intros t st (I & _). exact I. Qed.

Definition start_dt : dt := newDateTime 1800 1 1 0 0 0 false TzNone.
Lemma start_instant x : new_year 1800 x -> instant local_time start_dt x.
Proof. intro N. apply (reads_instant start_dt (1800, 1, 1) 0 0 0); try reflexivity; [|exact N]. unfold valid_dt, valid_date, valid_time. cbn. repeat split; lia. Qed.
Lemma expand_lines zn rules minYear maxYear m s z ln e line lines k l :
  znRules zn = map text_of ((z, ln, e) :: line :: lines) -> new_year minYear m -> new_year 1800 s ->
  zone_steps rules maxYear s (lnStd ln) (lnStd ln) ((z, ln, e) :: line :: lines) (k :: l) -> spaced s (lnStd ln) (List.concat l) ->
  exists cs, zone_expand tzo zn rules minYear maxYear = Ok cs /\
    Forall2 shows (filter (fun p => m <=? stAt (snd p)) (with_from (lnStd ln) (List.concat l))) cs.
Proof.
  intros Ez Ny Ns Z Sp. pose proof (start_instant s Ns) as Is. unfold zone_expand. rewrite Ez. cbn [map text_of fst].
  assert (Lo : line_of rules maxYear z ln) by (inversion Z; assumption). rewrite (std_of _ _ _ _ Lo). cbn [rbind].
  replace (1 <? Z.of_nat (List.length (z :: text_of line :: map text_of lines))) with true by (cbn [List.length]; lia).
  destruct (transitions_dropped _ _ _ _ _ _ _ _ _ _ Z Is) as (ts & E & F). cbn [map text_of fst] in E. fold start_dt. rewrite E. cbn [rbind].
  assert (S : StronglySorted (fun a b => stAt a < stAt b) (List.concat l)) by (inversion Z; subst; eapply zone_sorted; eassumption).
  pose proof (sorted_transitions ts _ S F) as F'.
  destruct (scan_spec minYear m (lnStd ln) _ _ Ny F' start_dt s (lnStd ln) [] Is Sp) as (cs & E' & Fc). exists cs. split; [exact E'|exact Fc].
Qed.
(** One line: its start is listed as a change that changes nothing, if the years go back that far. *)
Lemma expand_single zn rules minYear maxYear m s z ln e steps :
  znRules zn = [z] -> new_year minYear m -> new_year 1800 s ->
  zone_steps rules maxYear s (lnStd ln) (lnStd ln) [(z, ln, e)] [steps] -> offset_at ln s = lnStd ln -> spaced (s + lnStd ln) (lnStd ln) (tl steps) ->
  exists pre cs, zone_expand tzo zn rules minYear maxYear = Ok (pre ++ cs) /\
    Forall2 shows (filter (fun p => m <=? stAt (snd p)) (with_from (lnStd ln) (tl steps))) cs /\
    if minYear <=? 1800 then exists c, pre = [c] /\ chFrom c = lnStd ln /\ chTo c = lnStd ln else pre = [].
Proof.
  intros Ez Ny Ns Z Eo Sp. pose proof (start_instant s Ns) as Is. unfold zone_expand. rewrite Ez.
  assert (Lo : line_of rules maxYear z ln) by (inversion Z; assumption). rewrite (std_of _ _ _ _ Lo). cbn [rbind].
  change (1 <? Z.of_nat (List.length [z])) with false.
  destruct (transitions_spec _ _ _ _ _ _ _ Z start_dt [] Is) as (ts & E & F). cbn [map text_of fst app] in E. fold start_dt. rewrite E. cbn [rbind].
  pose proof (sorted_transitions ts _ (proj1 (zone_sorted _ _ _ _ _ _ _ Z)) F) as F'.
  inversion Z as [|? ? ? ? ? ? ? ? _ _ _ _ _ _ Z']; subst. inversion Z'; subst. cbn [List.concat] in F'. rewrite app_nil_r in F'.
  unfold line_steps in *. cbn [tl] in Sp |- *. rewrite Eo in F'. inversion F' as [|t st ts' steps' (It & To & Tz & _) F2]; subst. cbn [stAt stTo stLine] in *.
  cbn [zone_scan]. pose proof (offset_instant _ _ (lnStd ln) It) as Id. pose proof (instant_ops tzo local_time _ _ _ _ Id Is) as (_ & Le & G & _).
  assert (Y : mYear (trUTC t) = 1800).
  { apply instant_civil in It as (Vt & _ & _ & _ & Et). apply instant_civil in Is as (Vs & _ & _ & _ & Es). change 1800 with (mYear start_dt).
    pose proof (scale_year local_time (trUTC t) start_dt ltac:(discriminate) Vt Vs ltac:(cbn [on_scale]; lia)).
    pose proof (scale_year local_time start_dt (trUTC t) ltac:(discriminate) Vs Vt ltac:(cbn [on_scale]; lia)). lia. }
  rewrite Y. rewrite To in *. destruct (minYear <=? 1800); cbn [rbind].
  - rewrite G, Le. cbn [rbind].
    assert (X : exists c, (if s - (s + lnStd ln) <? 0 then Ok ([] ++ [mkChange (offsetSeconds (trUTC t) (lnStd ln)) (lnStd ln) (lnStd ln) (trZone t) (trRule t)])
        else Ok (if 0 <=? s - (s + lnStd ln) then [mkChange start_dt (lnStd ln) (lnStd ln) (trZone t) None] else [])) = Ok [c] /\ chFrom c = lnStd ln /\ chTo c = lnStd ln).
    { destruct (s - (s + lnStd ln) <? 0) eqn:X1; [eexists; split; [reflexivity|]; auto|]. destruct (0 <=? s - (s + lnStd ln)) eqn:X2; [|lia]. eexists; split; [reflexivity|]; auto. }
    destruct X as (c & X & Cf & Ct).
    match goal with |- context [rbind ?q _] => replace q with (@Ok (list change) [c]) end.
    cbn [rbind]. destruct (scan_spec minYear m (lnStd ln) _ _ Ny F2 (offsetSeconds (trUTC t) (lnStd ln)) (s + lnStd ln) (lnStd ln) [c] Id Sp) as (cs & E' & Fc).
    exists [c], cs. split; [exact E'|]. split; [exact Fc|]. exists c. auto.
  - destruct (scan_spec minYear m (lnStd ln) _ _ Ny F2 (offsetSeconds (trUTC t) (lnStd ln)) (s + lnStd ln) (lnStd ln) [] Id Sp) as (cs & E' & Fc).
    exists [], cs. split; [exact E'|]. split; [exact Fc|reflexivity].
Qed.
End WithTz.

(** ** The offset that the results tell *)
Lemma zone_sorted' rules maxYear s po ps lines l : zone_steps rules maxYear s po ps lines l ->
  StronglySorted (fun a b => stAt a < stAt b) (List.concat l) /\ Forall (fun st => s <= stAt st) (List.concat l).
Proof. exact (zone_sorted (fun _ _ _ _ _ _ _ _ _ => 0) rules maxYear s po ps lines l). Qed.
Definition splits_at (l : list step) (t o : Z) : Prop :=
  exists pre st post, l = pre ++ st :: post /\ stAt st <= t /\ stTo st = o /\ Forall (fun q => t < stAt q) post.
Lemma inside_late' z s e t js : Forall (fun j => t < jAt j) js -> Forall (fun q => t < stAt q) (inside z s e js).
Proof.
  intro F. unfold inside. apply Forall_forall. intros q H. apply in_map_iff in H as (j & <- & H). apply filter_In in H as [H _].
  rewrite Forall_forall in F. apply F. exact H.
Qed.
Lemma split_after z s e t js : s <= t < e -> StronglySorted (fun a b => jAt a < jAt b) js -> Forall (fun j => s < jAt j) js -> forall h off, stAt h <= t -> stTo h = off ->
  splits_at (h :: inside z s e js) t (after_jumps off js t).
Proof.
  intros T S. induction S as [|j js S IH F]; intros A h off Ha Ho.
  - exists [], h, []. repeat split; auto.
  - inversion A as [|? ? A1 A']; subst. cbn [after_jumps]. destruct (jAt j <=? t) eqn:E.
    + unfold inside in *. cbn [filter]. replace ((s <? jAt j) && (jAt j <? e)) with true by lia. cbn [map].
      destruct (IH A' (as_step z j) (jTo j)) as (pre & st & post & El & X); [cbn; lia|reflexivity|].
      exists (h :: pre), st, post. split; [cbn [app]; rewrite <- El; reflexivity|exact X].
    + exists [], h, (inside z s e (j :: js)). split; [reflexivity|]. split; [exact Ha|]. split; [reflexivity|].
      apply inside_late'. constructor; [lia|]. eapply Forall_impl; [|exact F]. cbv beta. intros; lia.
Qed.
Lemma split_line z ln s e t : s <= t < e -> StronglySorted (fun a b => jAt a < jAt b) (jumps ln) -> splits_at (line_steps z ln s e) t (offset_at ln t).
Proof.
  intros T S. unfold line_steps, offset_at. change (map _ (filter _ (jumps ln))) with (inside z s e (jumps ln)). generalize (base ln) as off.
  induction S as [|j js S IH F]; intro off.
  - exists [], (mkStep s off z None), []. cbn. repeat split; auto. lia.
  - destruct (jAt j <=? s) eqn:E.
    + cbn [after_jumps]. rewrite E. replace (jAt j <=? t) with true by lia. unfold inside in *. cbn [filter]. replace (s <? jAt j) with false by lia. cbn [andb]. apply IH.
    + assert (A : Forall (fun k => s < jAt k) (j :: js)) by (constructor; [lia|]; eapply Forall_impl; [|exact F]; cbv beta; intros; lia).
      rewrite (late off (j :: js) s A). apply split_after; auto; [constructor; assumption|cbn; lia].
Qed.
Lemma split_zone rules maxYear s po ps lines l t o : zone_steps rules maxYear s po ps lines l -> zone_offset s lines t o -> splits_at (List.concat l) t o.
Proof.
  intro Z. induction Z as [s po ps|s po ps z ln e rest l Lo S Cs En Ce L Z IH]; intro Q; inversion Q as [? ? ? ? ? ? T|? ? ? ? ? ? ? T Q']; subst; cbn [List.concat].
  - destruct (split_line z ln s e t T S) as (pre & st & post & -> & Ht & Ho & F). exists pre, st, (post ++ List.concat l). rewrite <- app_assoc. split; [reflexivity|].
    split; [exact Ht|]. split; [exact Ho|]. apply Forall_app. split; [exact F|]. destruct (zone_sorted' _ _ _ _ _ _ _ Z) as [_ G]. eapply Forall_impl; [|exact G]. cbv beta. intros; lia.
  - destruct (IH Q') as (pre & st & post & -> & X). exists (line_steps z ln s e ++ pre), st, post. rewrite <- app_assoc. auto.
Qed.
Lemma with_from_app off a st b : exists f, with_from off (a ++ st :: b) = with_from off a ++ (f, st) :: with_from (stTo st) b.
Proof.
  revert off. induction a as [|x a IH]; intro off; cbn [app with_from]; [eexists; reflexivity|]. destruct (IH (stTo x)) as (f & ->). exists f. reflexivity.
Qed.
Lemma with_from_in off l p : In p (with_from off l) -> In (snd p) l.
Proof. revert off. induction l as [|x l IH]; intros off H; [destruct H|]. destruct H as [<-|H]; [left; reflexivity|right; eapply IH; exact H]. Qed.
Lemma f2_in {A B} (R : A -> B -> Prop) l m y : Forall2 R l m -> In y m -> exists x, In x l /\ R x y.
Proof. intro F. induction F as [|a b l m H F IH]; intros []; [subst; exists a; split; [left; reflexivity|assumption]|]. destruct (IH H0) as (x & I & X). exists x. split; [right; exact I|exact X]. Qed.
Lemma f2_head {A B} (R : A -> B -> Prop) x y l m : Forall2 R (x :: l) (y :: m) -> R x y /\ Forall2 R l m.
Proof. intro F. inversion F. auto. Qed.
Lemma f2_late t l cs : Forall2 shows l cs -> (forall p, In p l -> t < stAt (snd p)) -> forall d, In d cs -> exists x, instant local_time (chAt d) x /\ t < x - chFrom d.
Proof.
  intros F H d Hd. destruct (f2_in _ _ _ _ F Hd) as ([f st] & Ip & (J & Ef & _)). specialize (H _ Ip). cbn [snd] in H.
  exists (stAt st + f). split; [exact J|]. rewrite Ef. lia.
Qed.
Lemma none_kept m off l : Forall (fun q => stAt q < m) l -> filter (fun p => m <=? stAt (snd p)) (with_from off l) = [].
Proof.
  revert off. induction l as [|x l IH]; intros off F; [reflexivity|]. inversion F; subst. cbn [with_from filter snd].
  replace (m <=? stAt x) with false by lia. apply IH. assumption.
Qed.
Lemma all_kept m off l : Forall (fun q => m <= stAt q) l -> filter (fun p => m <=? stAt (snd p)) (with_from off l) = with_from off l.
Proof.
  revert off. induction l as [|x l IH]; intros off F; [reflexivity|]. inversion F; subst. cbn [with_from filter snd].
  replace (m <=? stAt x) with true by lia. f_equal. apply IH. assumption.
Qed.
Lemma sorted_before (l : list step) st post : StronglySorted (fun a b => stAt a < stAt b) (l ++ st :: post) -> Forall (fun q => stAt q < stAt st) l.
Proof.
  induction l as [|x l IH]; intro S; [constructor|]. cbn [app] in S. inversion S as [|? ? S' F]; subst. constructor; [|apply IH; exact S'].
  rewrite Forall_forall in F. apply F. apply in_or_app. right. left. reflexivity.
Qed.
Lemma told_spec m off l cs t o : Forall2 shows (filter (fun p => m <=? stAt (snd p)) (with_from off l)) cs -> StronglySorted (fun a b => stAt a < stAt b) l ->
  splits_at l t o -> m <= t -> cs <> [] -> told cs t o.
Proof.
  intros F S (pre & st & post & -> & Ht & Ho & Fp) M N. pose proof (sorted_before _ _ _ S) as B. destruct (with_from_app off pre st post) as (f & E).
  rewrite E, filter_app in F. cbn [filter snd] in F.
  rewrite (all_kept m (stTo st) post) in F by (eapply Forall_impl; [|exact Fp]; cbv beta; intros; lia).
  assert (LP : forall p, In p (with_from (stTo st) post) -> t < stAt (snd p)).
  { intros p Hp. apply with_from_in in Hp. rewrite Forall_forall in Fp. apply Fp. exact Hp. }
  destruct (m <=? stAt st) eqn:X; rewrite ?X in F.
  - apply Forall2_app_inv_l in F as (c1 & c2 & F1 & F2 & ->). destruct c2 as [|c c2']; [inversion F2|]. apply f2_head in F2 as [(I & Ef & Et & _) F3].
    left. exists c1, c, c2'. split; [reflexivity|]. split; [rewrite Et; exact Ho|]. split.
    + exists (stAt st + f). split; [exact I|]. rewrite Ef. lia.
    + apply (f2_late t _ _ F3 LP).
  - rewrite (none_kept m off pre) in F by (eapply Forall_impl; [|exact B]; cbv beta; intros; lia). cbn [app] in F.
    right. pose proof (f2_late t _ _ F LP) as L. destruct post as [|q post]; cbn [with_from] in F; [inversion F; subst; destruct N; reflexivity|].
    destruct cs as [|c cs']; [inversion F|]. apply f2_head in F as [(_ & Ef & _) F']. exists c, cs'. split; [reflexivity|]. split; [rewrite Ef; exact Ho|exact L].
Qed.

Lemma expand_told tzo zn rules minYear maxYear m s z ln e line lines k l cs t o :
  znRules zn = map text_of ((z, ln, e) :: line :: lines) -> new_year minYear m -> new_year 1800 s ->
  zone_steps rules maxYear s (lnStd ln) (lnStd ln) ((z, ln, e) :: line :: lines) (k :: l) -> spaced s (lnStd ln) (List.concat l) ->
  zone_offset e (line :: lines) t o -> m <= t -> zone_expand tzo zn rules minYear maxYear = Ok cs -> cs <> [] -> told cs t o.
Proof.
  intros Ez Ny Ns Z Sp Q M E N. destruct (expand_lines tzo _ _ _ _ _ _ _ _ _ _ _ _ _ Ez Ny Ns Z Sp) as (cs' & E' & F). rewrite E in E'. injection E' as <-.
  inversion Z as [|? ? ? ? ? ? ? ? _ _ _ _ _ _ Z']; subst.
  apply (told_spec m (lnStd ln) (List.concat l)); auto; [exact (proj1 (zone_sorted' _ _ _ _ _ _ _ Z'))|]. exact (split_zone _ _ _ _ _ _ _ _ _ Z' Q).
Qed.
