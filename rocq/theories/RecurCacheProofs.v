(** Expansion through the cache. *)
From Coq Require Import Lia ZifyBool ZifyNat Sorting.Sorted.
From Verif Require Import PyBase CalSpec CalProofs DateTimeModel DateTimeSpec DateTimeSpec2 DateTimeProofs DateTimeProofs2 DateTimeProofs4.
From Verif Require Import PeriodModel PeriodSpec PeriodProofs RecurModel RecurExpand RecurExpandSpec RecurSimpleProofs RecurCacheSpec.
Ltac Zify.zify_post_hook ::= Z.div_mod_to_equations.

Lemma instant_fun sc d x y : sc <> Offsets -> instant sc d x -> instant sc d y -> x = y.
Proof. intros NO H K. apply instant_iff in H as (_ & _ & ->); [|exact NO]. apply instant_iff in K as (_ & _ & ->); [reflexivity|exact NO]. Qed.
Lemma instant_same sc d d' a : sc <> Offsets -> instant sc d a -> instant sc d' a ->
  ymd d = ymd d' /\ (mHours d, mMinutes d, mSeconds d) = (mHours d', mMinutes d', mSeconds d').
Proof.
  intros NO H K. apply instant_iff in H as (V & S & E); [|exact NO]. apply instant_iff in K as (V' & S' & E'); [|exact NO].
  pose proof (valid_secs d V). pose proof (valid_secs d' V').
  apply fields_unique; auto; destruct sc; cbn in *; try congruence; unfold civil in *; try lia.
  - pose proof (date_secs d V S). pose proof (date_secs d' V' S'). lia.
Qed.
Lemma lim_fun sc off r st st' lim lim' : sc <> Offsets -> floating st = floating st' ->
  until_at sc st off r lim -> until_at sc st' off r lim' -> lim = lim'.
Proof.
  intros NO F. unfold until_at. rewrite F. destruct (rUseUntil r); [|congruence].
  intros (u & c & Eu & H) (u' & c' & Eu' & H'). assert (u' = u) by congruence. subst u'.
  destruct sc as [z t| |]; [| |congruence].
  - destruct (floating st').
    + destruct H as ((z1 & t1 & H) & ->), H' as ((z2 & t2 & H') & ->). apply instant_civil in H, H'. f_equal. lia.
    + destruct H as (H & ->), H' as (H' & ->). f_equal. eapply instant_fun; eauto.
  - destruct H as (H & ->), H' as (H' & ->). pose proof (instant_fun _ _ _ _ NO H H'). subst c'. reflexivity.
Qed.
Lemma instances_same sc r lim st st' a x : sc <> Offsets -> instant sc st a -> instant sc st' a ->
  instances sc r lim st x -> instances sc r lim st' x.
Proof.
  intros NO I I' H. unfold instances in *. destruct (step_months r) as [p|].
  - destruct (instant_same sc st st' a NO I I') as [E1 E2]. unfold ymd in E1. injection E1 as Y M D. injection E2 as h m s.
    destruct H as (j & d & L & Id & H).
    exists j, (with_tz (with_dateonly d (mDateOnly st')) (mTZUTC st') (mTZID st')).
    assert (KB : kept_before st' p j = kept_before st p j) by (unfold kept_before, month_no; rewrite Y, M, D; reflexivity).
    rewrite KB. split; [|split; [|exact H]].
    + unfold months_later in *. cbn [with_tz with_dateonly mYear mMonth mDay mHours mMinutes mSeconds mDateOnly mTZUTC mTZID]. intuition congruence.
    + apply instant_iff in Id as (Vd & Sd & ->); [|exact NO]. apply instant_iff in I' as (V' & S' & _); [|exact NO]. apply instant_iff; [exact NO|].
      apply instant_iff in I as (V & S & _); [|exact NO].
      split; [|split; [|reflexivity]].
      * destruct Vd as (A & B & C). split; [exact A|]. split; [exact B|].
        intro Dt. cbn [with_tz with_dateonly mDateOnly] in Dt. assert (Dd : mDateOnly d = true).
        { destruct sc; cbn in S, S', Sd; [|exact Sd|contradiction]. destruct S' as [S' _]. congruence. }
        apply C in Dd. exact Dd.
      * destruct sc; cbn in *; auto.
  - destruct H as (a' & s & Ia & Es & H). exists a, s. pose proof (instant_fun _ _ _ _ NO I Ia). subst a'. auto.
Qed.
Lemma advances_same sc r st st' a : sc <> Offsets -> instant sc st a -> instant sc st' a -> advances sc r st -> advances sc r st'.
Proof.
  intros NO I I' (H1 & H2). split; [exact H1|]. destruct (step_months r); [|exact H2].
  destruct (instant_same sc st st' a NO I I') as [<- _]. exact H2.
Qed.
Lemma norm_same sc d a : sc <> Offsets -> instant sc d a -> instant sc (normalise d) a /\ floating (normalise d) = floating d.
Proof.
  intros NO I. apply instant_iff in I as (V & S & ->); [|exact NO]. pose proof (normalise_valid d V) as N.
  assert (V' : valid_dt (normalise d)) by (apply (normalise_inmonth d); apply valid_month; exact V).
  unfold visible, ymd in N. injection N as Y M D h m s DO U T. split.
  - apply instant_iff; [exact NO|]. split; [exact V'|]. split.
    + destruct sc; cbn in *; rewrite ?DO, ?U, ?T; exact S.
    + unfold on_scale, civil, secs_of_day. rewrite Y, M, D, h, m, s. reflexivity.
  - unfold floating. rewrite U, T. reflexivity.
Qed.

(** The filter at the end of expand. *)
Lemma in_range_spec tzo sc range e w b : snd (getEnd range) = Ok e -> instant sc (pStart range) w -> instant sc e b ->
  forall recs xs, Forall2 (instant sc) recs xs -> forall limited items, exists sel,
  in_range tzo range recs limited items = (items ++ sel, Ok (limited || existsb (fun x => negb ((w <=? x) && (x <? b))) xs)) /\
  Forall2 (instant sc) sel (filter (fun x => (w <=? x) && (x <? b)) xs).
Proof.
  intros E Iw Ib. induction 1 as [|d x recs xs Id F IH]; intros limited items.
  - exists []. cbn. rewrite app_nil_r, orb_false_r. auto.
  - cbn [in_range]. destruct (within_spec tzo sc range d e w b x E Iw Ib Id) as (-> & _).
    cbn [existsb filter]. destruct ((w <=? x) && (x <? b)); cbn [negb orb].
    + destruct (IH limited (items ++ [d])) as (sel & -> & G). exists (d :: sel). rewrite <- app_assoc. split; [reflexivity|]. constructor; auto.
    + destruct (IH true items) as (sel & -> & G). exists sel. rewrite orb_true_r. auto.
Qed.
Lemma sorted_filter (f : Z -> bool) xs : StronglySorted Z.lt xs -> StronglySorted Z.lt (filter f xs).
Proof.
  induction 1 as [|x xs S IH F]; cbn; [constructor|]. destruct (f x); [|exact IH]. constructor; [exact IH|].
  apply Forall_forall. intros y Hy. apply filter_In in Hy as [Hy _]. rewrite Forall_forall in F. auto.
Qed.
Lemma in_range_enum tzo sc range e w b b' recs (P : Z -> Prop) full :
  snd (getEnd range) = Ok e -> instant sc (pStart range) w -> instant sc e b ->
  enumerates sc recs (fun x => P x /\ x < b') -> (full = true -> forall x, P x -> x < b') ->
  (full = false -> exists x, P x /\ b' <= x) -> full = true \/ b <= b' ->
  exists sel limited, in_range tzo range recs (negb full) [] = (sel, Ok limited) /\
  enumerates sc sel (fun x => P x /\ w <= x < b) /\ (limited = true <-> exists x, P x /\ ~ (w <= x < b)).
Proof.
  intros E Iw Ib (xs & F & S & M) Full Part Ok'.
  destruct (in_range_spec tzo sc range e w b E Iw Ib recs xs F (negb full) []) as (sel & -> & G). cbn [app].
  eexists; eexists; split; [reflexivity|]. split.
  - exists (filter (fun x => (w <=? x) && (x <? b)) xs). split; [exact G|]. split; [apply sorted_filter; exact S|].
    intro x. rewrite filter_In, M. split.
    + intros ((H & _) & L). split; [exact H|]. lia.
    + intros (H & L). split; [|lia]. split; [exact H|]. destruct Ok' as [Ok'|Ok']; [|lia]. apply Full; auto.
  - rewrite orb_true_iff, existsb_exists. split.
    + intros [NF|(x & Hx & L)].
      * destruct full; [discriminate|]. destruct Ok' as [|Ok']; [discriminate|].
        destruct (Part eq_refl) as (x & Hx & L). exists x. split; [exact Hx|lia].
      * apply M in Hx as [Hx _]. exists x. split; [exact Hx|]. lia.
    + intros (x & Hx & L). destruct full; [|left; reflexivity]. right. exists x. split; [apply M; split; [exact Hx|]; apply Full; auto|]. lia.
Qed.

(** What a cache may hold. *)
Definition good (sc : scale) (fl : bool) (off : Z) (r : rule) (c : rcache) : Prop :=
  cCached c = true -> exists st a e b lim,
    cStart c = Some st /\ instant sc st a /\ floating st = fl /\ until_at sc st off r lim /\
    cUpto c = Some e /\ instant sc e b /\
    enumerates sc (cRecs c) (fun x => instances sc r lim st x /\ x < b) /\
    (cFully c = true -> forall x, instances sc r lim st x -> x < b) /\
    (cFully c = false -> exists x, instances sc r lim st x /\ b <= x).

Lemma until_norm sc off r st a lim : sc <> Offsets -> instant sc st a -> until_at sc st off r lim -> until_at sc (normalise st) off r lim.
Proof. intros NO I U. destruct (norm_same sc st a NO I) as [_ F]. unfold until_at in *. rewrite F. exact U. Qed.

Lemma expand_good tzo sc off r c start range lim w b :
  call_ok sc off r start range lim w b -> good sc (floating start) off r c ->
  exists N, forall fuel, (N <= fuel)%nat -> exists c' sel limited,
    expand tzo fuel r c start range off None = Some (c', (sel, Ok limited)) /\ good sc (floating start) off r c' /\
    enumerates sc sel (fun x => instances sc r lim start x /\ w <= x < b) /\
    (limited = true <-> exists x, instances sc r lim start x /\ ~ (w <= x < b)).
Proof.
  intros (NO & NB & Ad & (a & I) & (e & E & Ie) & Iw & U) G.
  destruct (norm_same sc start a NO I) as [In Fn]. set (st := normalise start) in *.
  assert (Un : until_at sc st off r lim) by (eapply until_norm; eauto).
  assert (An : advances sc r st) by (apply (advances_same sc r start st a); auto).
  destruct (simple_spec tzo sc r st range e off a b lim NO An In E Ie Un) as (recs & full & N & En & F1 & F2 & R & _).
  assert (Inst : forall x, instances sc r lim st x <-> instances sc r lim start x) by (intro x; split; apply instances_same with (a := a); auto).
  assert (Fresh : forall fuel, (N <= fuel)%nat -> forall c0, exists c' sel limited,
    (match compute tzo fuel r st range off None with
      | None => None
      | Some (recs, Raise e) => Some (mkCache (cCached c0) (cStart c0) (cUpto c0) (cFully c0) recs, ([], Raise e))
      | Some (recs, Ok full) =>
        match snd (getEnd range) with
        | Raise e => Some (mkCache true (Some st) (cUpto c0) full recs, ([], Raise e))
        | Ok e =>
          let c := mkCache true (Some st) (Some e) full recs in
          Some (c, in_range tzo range recs (negb full) [])
        end
      end) = Some (c', (sel, Ok limited)) /\ good sc (floating start) off r c' /\
    enumerates sc sel (fun x => instances sc r lim start x /\ w <= x < b) /\
    (limited = true <-> exists x, instances sc r lim start x /\ ~ (w <= x < b))).
  { intros fuel Hf c0. unfold compute. rewrite NB. cbn [negb]. rewrite R by (try exact Hf; exact Logic.I). rewrite E. cbv zeta.
    destruct (in_range_enum tzo sc range e w b b recs _ full E Iw Ie En F1 F2 ltac:(lia)) as (sel & limited & -> & Es & L).
    eexists; exists sel, limited; split; [reflexivity|]. split.
    - intros _. exists st, a, e, b, lim. cbn [cStart cUpto cRecs cFully]. exact (conj eq_refl (conj In (conj Fn (conj Un (conj eq_refl (conj Ie (conj En (conj F1 F2)))))))).
    - split.
      + destruct Es as (xs & X1 & X2 & X3). exists xs. split; [exact X1|]. split; [exact X2|]. intro x. rewrite X3, Inst. tauto.
      + rewrite L. split; intros (x & H & H'); exists x; rewrite Inst in *; auto. }
  exists N. intros fuel Hf. unfold expand. fold st.
  assert (Cc : cCached c = true \/ cCached c = false) by (destruct (cCached c); auto).
  destruct Cc as [Cc|Cc].
  2: { assert (CS : check_start tzo c st = Ok c) by (unfold check_start; rewrite Cc; reflexivity). rewrite CS.
       assert (MC : must_compute tzo c range = Ok true) by (unfold must_compute; rewrite Cc; reflexivity). rewrite MC. exact (Fresh fuel Hf c). }
  unfold check_start at 1. rewrite Cc.
  destruct (G Cc) as (st' & a' & e' & b' & lim' & Es & Is & Fs & Us & Eu & Iu & Enc & Fc1 & Fc2). rewrite Es.
  pose proof (instant_ops tzo _ _ _ _ _ In Is) as O. destruct O as (_ & _ & _ & _ & _ & ->). cbn [rbind].
  destruct (a' - a =? 0) eqn:Ea; cbn [negb].
  2: { unfold must_compute. cbn [cCached negb]. match goal with |- context [mkCache false ?a ?b ?c ?d] => exact (Fresh fuel Hf (mkCache false a b c d)) end. }
  assert (a' = a) by lia. subst a'.
  assert (lim' = lim) by (eapply (lim_fun sc off r st' st); eauto; congruence). subst lim'.
  assert (Inst' : forall x, instances sc r lim st' x <-> instances sc r lim start x) by (intro x; split; apply instances_same with (a := a); auto).
  assert (MC : must_compute tzo c range = if cFully c then Ok false else dt_lt tzo e' e).
  { unfold must_compute. rewrite Cc, Eu, E. reflexivity. }
  rewrite MC.
  pose proof (instant_ops tzo _ _ _ _ _ Iu Ie) as O. destruct O as (-> & _).
  assert (Hit : cFully c = true \/ b <= b' -> exists c' sel limited,
     Some (c, in_range tzo range (cRecs c) (negb (cFully c)) []) = Some (c', (sel, Ok limited)) /\ good sc (floating start) off r c' /\
    enumerates sc sel (fun x => instances sc r lim start x /\ w <= x < b) /\
    (limited = true <-> exists x, instances sc r lim start x /\ ~ (w <= x < b))).
  { intro H. destruct (in_range_enum tzo sc range e w b b' (cRecs c) _ (cFully c) E Iw Ie Enc Fc1 Fc2 H) as (sel & limited & -> & Es' & L).
    exists c, sel, limited. split; [reflexivity|]. split; [exact G|]. split.
    + destruct Es' as (xs & X1 & X2 & X3). exists xs. split; [exact X1|]. split; [exact X2|]. intro x. rewrite X3, Inst'. tauto.
    + rewrite L. split; intros (x & H0 & H'); exists x; rewrite Inst' in *; auto. }
  assert (Fc : cFully c = true \/ cFully c = false) by (destruct (cFully c); auto).
  destruct Fc as [Fc|Fc]; [assert (X : (if cFully c then Ok false else Ok (0 <? b - b')) = Ok false) by (rewrite Fc; reflexivity); rewrite X; apply Hit; left; exact Fc|].
  assert (X : (if cFully c then Ok false else Ok (0 <? b - b')) = Ok (0 <? b - b')) by (rewrite Fc; reflexivity). rewrite X.
  destruct (0 <? b - b') eqn:Eb; [exact (Fresh fuel Hf c)|]. apply Hit. right. lia.
Qed.

(** Fuel: a result does not change when more is given. *)
Lemma skip_more f i : forall n d x m, skip_invalid n f i d = Some x -> (n <= m)%nat -> skip_invalid m f i d = Some x.
Proof.
  induction n as [|n IH]; intros d x m H Hm; destruct m as [|m]; try lia; cbn [skip_invalid] in *;
    destruct (invalid d) as [[|]|ex]; auto; try discriminate. apply IH; [exact H|lia].
Qed.
Lemma simple_more tzo r range until max : forall n it ctr items x m, simple_loop tzo n r range until max it ctr items = Some x -> (n <= m)%nat ->
  simple_loop tzo m r range until max it ctr items = Some x.
Proof.
  induction n as [|n IH]; intros it ctr items x m H Hm; [discriminate|]. destruct m as [|m]; [lia|]. cbn [simple_loop] in *.
  destruct (isDateAfterPeriod tzo range it) as [[|]|]; auto. destruct (too_many max (items ++ [it])); auto.
  destruct (skip_invalid n (rFreq r) (rInterval r) (recur it (rFreq r) (rInterval r) true)) as [[it'|ex]|] eqn:Sk; [| |discriminate];
    rewrite (skip_more _ _ _ _ _ m Sk) by lia; auto.
  destruct (rUseCount r).
  - destruct (rCount r <=? ctr + 1); auto. apply IH; [exact H|lia].
  - destruct until as [u|]; [|apply IH; [exact H|lia]]. destruct (dt_gt tzo it' u) as [[|]|]; auto. apply IH; [exact H|lia].
Qed.
Lemma complex_more tzo r start range until max : forall n it ctr items x m, complex_loop tzo n r start range until max it ctr items = Some x -> (n <= m)%nat ->
  complex_loop tzo m r start range until max it ctr items = Some x.
Proof.
  induction n as [|n IH]; intros it ctr items x m H Hm; [discriminate|]. destruct m as [|m]; [lia|]. cbn [complex_loop] in *.
  destruct (generate_set tzo r it) as [set|]; auto. destruct (set_loop tzo r start range until max set ctr items) as [o|[ctr' items']]; auto.
  destruct (isDateAfterPeriod tzo range it) as [[|]|]; auto. apply IH; [exact H|lia].
Qed.
Lemma compute_more tzo r start range off max n m x : compute tzo n r start range off max = Some x -> (n <= m)%nat ->
  compute tzo m r start range off max = Some x.
Proof.
  unfold compute, simpleExpand, complexExpand. intros H Hm. destruct (negb (hasBy r)).
  - destruct (float_until (TzInt 0) r start off); auto. eapply simple_more; eauto.
  - destruct (float_until TzNone r start off); auto. destruct (rUseCount r); [destruct (rCount r <=? 1); auto|]; eapply complex_more; eauto.
Qed.
Lemma expand_more tzo r c start range off max n m x : expand tzo n r c start range off max = Some x -> (n <= m)%nat ->
  expand tzo m r c start range off max = Some x.
Proof.
  unfold expand. intros H Hm. destruct (check_start tzo c (normalise start)) as [c1|]; auto.
  destruct (must_compute tzo c1 range) as [[|]|]; auto.
  destruct (compute tzo n r (normalise start) range off max) as [o|] eqn:C; [|discriminate].
  rewrite (compute_more _ _ _ _ _ _ _ m _ C Hm). exact H.
Qed.

Lemma reachable_good tzo sc fl off r c : reachable tzo sc fl off r c -> good sc fl off r c.
Proof.
  induction 1 as [r|r c start range lim w b fuel c' o R IH K F X|r c s r' c' R IH X].
  - intro H. discriminate.
  - subst fl. destruct (expand_good tzo sc off r c start range lim w b K IH) as (N & H).
    destruct (H (fuel + N)%nat ltac:(lia)) as (c2 & sel & limited & X2 & G & _).
    rewrite (expand_more _ _ _ _ _ _ _ _ (fuel + N)%nat _ X) in X2 by lia. injection X2 as <- _. exact G.
  - unfold setAndClear in X. cbn [fst snd] in X. destruct (setter_differs tzo s r) as [[|]|]; cbn [rbind] in X; try discriminate; injection X as <- <-.
    + intro H. discriminate.
    + exact IH.
Qed.

Lemma enumerates_unique sc l l' (P : Z -> Prop) : sc <> Offsets -> enumerates sc l P -> enumerates sc l' P ->
  exists xs, Forall2 (instant sc) l xs /\ Forall2 (instant sc) l' xs.
Proof.
  intros NO (xs & F & S & M) (xs' & F' & S' & M'). assert (xs = xs'); [|subst; eauto].
  assert (forall x, In x xs <-> In x xs') by (intro x; rewrite M, M'; tauto). clear - S S' H.
  revert xs' S' H. induction S as [|x xs S IH F]; intros xs' S' H.
  - destruct xs' as [|y ys]; [reflexivity|]. destruct (proj2 (H y) (or_introl eq_refl)).
  - destruct S' as [|y ys S' F']; [destruct (proj1 (H x) (or_introl eq_refl))|].
    rewrite Forall_forall in F, F'.
    assert (x = y). { destruct (proj1 (H x) (or_introl eq_refl)) as [|A]; [congruence|]. destruct (proj2 (H y) (or_introl eq_refl)) as [|B]; [congruence|].
      apply F' in A. apply F in B. lia. }
    subst y. f_equal. apply IH; [exact S'|]. intro z. split; intro Hz.
    + destruct (proj1 (H z) (or_intror Hz)) as [<-|]; [|assumption]. apply F in Hz. lia.
    + destruct (proj2 (H z) (or_intror Hz)) as [<-|]; [|assumption]. apply F' in Hz. lia.
Qed.
Lemma bool_iff a b (P : Prop) : (a = true <-> P) -> (b = true <-> P) -> a = b.
Proof. intros H K. destruct a, b; auto; [symmetry; apply K, H|apply H, K]; reflexivity. Qed.

Lemma transparent tzo sc off r c start range lim w b :
  reachable tzo sc (floating start) off r c -> call_ok sc off r start range lim w b ->
  exists N xs limited, forall fuel, (N <= fuel)%nat -> exists c1 c2 sel1 sel2,
    expand tzo fuel r c start range off None = Some (c1, (sel1, Ok limited)) /\
    expand tzo fuel r cache_init start range off None = Some (c2, (sel2, Ok limited)) /\
    Forall2 (instant sc) sel1 xs /\ Forall2 (instant sc) sel2 xs.
Proof.
  intros R K. pose proof K as (NO & _).
  destruct (expand_good tzo sc off r c start range lim w b K (reachable_good _ _ _ _ _ _ R)) as (N1 & H1).
  assert (G0 : good sc (floating start) off r cache_init) by (intro H; discriminate).
  destruct (expand_good tzo sc off r cache_init start range lim w b K G0) as (N2 & H2).
  destruct (H1 (N1 + N2)%nat ltac:(lia)) as (c1 & s1 & l1 & X1 & _ & E1 & L1).
  destruct (H2 (N1 + N2)%nat ltac:(lia)) as (c2 & s2 & l2 & X2 & _ & E2 & L2).
  destruct (enumerates_unique sc s1 s2 _ NO E1 E2) as (xs & F1 & F2).
  exists (N1 + N2)%nat, xs, l1. intros fuel Hf. exists c1, c2, s1, s2.
  rewrite (expand_more _ _ _ _ _ _ _ _ fuel _ X1) by exact Hf. rewrite (expand_more _ _ _ _ _ _ _ _ fuel _ X2) by exact Hf.
  rewrite (bool_iff l2 l1 _ L2 L1). auto.
Qed.
