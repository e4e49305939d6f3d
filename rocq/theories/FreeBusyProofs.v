(** Proofs for C67. *)
From Coq Require Import Lia ZifyBool ZifyNat Permutation.
From Verif Require Import PyBase PyProofs CalSpec DateTimeModel DateTimeSpec DateTimeSpec2 DateTimeProofs DateTimeProofs2 DurationModel DurationProofs PeriodModel PeriodSpec PeriodProofs PropertyModel PropertyProofs3
  ComponentModel ComponentProofs2 LineProofs RecurUnionSpec RecurSetModel TimingModel TimingSpec TimingProofs ValidateSpec ValidateProofs DeriveModel DeriveSpec DeriveProofs EditModel EditSpec EditProofs DupModel FreeBusyModel FreeBusySpec.
Ltac Zify.zify_post_hook ::= Z.div_mod_to_equations.

Section S.
Variable tzo : tzid -> Z -> Z -> Z -> Z -> Z -> Z -> bool -> bool -> Z.

Lemma built_dup p : built p -> period_duplicate p = Ok p.
Proof. intros (s & [(e & ->)|(d & ->)]); reflexivity. Qed.
Lemma kind_busy p n : busy_as p n -> busy_kind p = Ok (Some n).
Proof.
  unfold busy_kind. intros [[E ->]|(v & (l & E & F) & I)]; rewrite E; [reflexivity|]. rewrite F. cbn [rbind].
  cbn [busy_names In] in I. destruct I as [I|[I|[I|[]]]]; injection I as <- <-; reflexivity.
Qed.
Lemma kind_free p : not_busy p -> busy_kind p = Ok None.
Proof.
  unfold busy_kind. intros (v & (l & E & F) & I). rewrite E, F. cbn [rbind]. cbn [busy_names map fst In] in I.
  repeat match goal with |- context [beq ?a ?b] => destruct (beq_case a b) as [[Q _]|[_ ->]]; [exfalso; rewrite Q in I; apply I; tauto|] end.
  reflexivity.
Qed.
Lemma periods_listed p l : pValue p = Some (Multi T_PERIOD (map VPeriod l)) -> periods_of p = l.
Proof. intro E. unfold periods_of. rewrite E. clear E. induction l as [|q l IH]; [reflexivity|]. cbn. f_equal. exact IH. Qed.

(** ** Collecting *)
Section Scale.
Variable sc : scale.
Definition fine (t : Z * period) : Prop := built (snd t) /\ exists x y, spans sc (snd t) x y.
(** What is known after these items. *)
Definition holds (busy : list (Z * period)) (f : gathered) : Prop :=
  fTimes f = as_items busy /\
  (busy <> [] -> exists x y, earliest sc busy x /\ latest sc busy y /\ instant sc (fMin f) x /\ instant sc (fMax f) y).
Lemma instant_fun d x y : instant sc d x -> instant sc d y -> x = y.
Proof. intros I J. destruct (instant_ops tzo sc d d x y I J) as (_ & _ & _ & _ & E & _). assert (F := instant_ops tzo sc d d x x I I). destruct F as (_ & _ & _ & _ & F & _). rewrite E in F. injection F as F. lia. Qed.
Lemma spans_fun p a b c d : spans sc p a b -> spans sc p c d -> a = c /\ b = d.
Proof.
  intros (A & e & E & B) (C & e' & E' & D). split; [eapply instant_fun; eassumption|]. rewrite E in E'. injection E' as <-. eapply instant_fun; eassumption.
Qed.

Lemma add_one busy n q f : holds busy f -> fine (n, q) ->
  exists f', add_busy_period tzo n q f = (f', Ok tt) /\ holds (busy ++ [(n, q)]) f'.
Proof.
  intros (T & H) (B & x & y & S). cbn [snd] in *. unfold add_busy_period, new_freebusy. rewrite (built_dup q B). cbn [rbind].
  destruct S as (Sx & e & E & Sy). rewrite E. assert (S : spans sc q x y) by (split; [exact Sx|exists e; split; assumption]).
  assert (TT : forall m M, fTimes (mkFound (fTimes f ++ [FB (Kind n) (Some q)]) m M) = as_items (busy ++ [(n, q)])).
  { intros m M. cbn [fTimes]. rewrite T. unfold as_items. rewrite map_app. reflexivity. }
  destruct busy as [|b0 br].
  - rewrite T. cbn [as_items map]. eexists. split; [reflexivity|]. split; [reflexivity|]. intros _. exists x, y.
    cbn [fMin fMax app]. split; [|split; [|split; assumption]].
    + split; [exists (n, q), y; split; [left; reflexivity|exact S]|]. intros t a b [<-|[]] J. destruct (spans_fun _ _ _ _ _ S J). lia.
    + split; [exists (n, q), x; split; [left; reflexivity|exact S]|]. intros t a b [<-|[]] J. destruct (spans_fun _ _ _ _ _ S J). lia.
  - destruct (H ltac:(discriminate)) as (u & v & Eu & Ev & Iu & Iv). rewrite T. unfold as_items at 1. cbn [map]. rewrite <- T.
    destruct (instant_ops tzo sc _ _ _ _ Iu Sx) as (_ & _ & G & _). rewrite G. destruct (instant_ops tzo sc _ _ _ _ Iv Sy) as (L & _). rewrite L.
    eexists. split; [reflexivity|]. split; [apply TT|]. intros _. exists (Z.min u x), (Z.max v y). cbn [fMin fMax].
    split; [|split; [|split]].
    + destruct Eu as ((t & b & It & St) & M). split.
      * destruct (Z.leb_spec u x); [exists t, b; rewrite Z.min_l by lia|exists (n, q), y; rewrite Z.min_r by lia]; (split; [apply in_or_app|assumption]); [left; exact It|right; left; reflexivity].
      * intros t' a b' J K. apply in_app_or in J. destruct J as [J|[<-|[]]]; [specialize (M t' a b' J K); lia|destruct (spans_fun _ _ _ _ _ S K); lia].
    + destruct Ev as ((t & b & It & St) & M). split.
      * destruct (Z.leb_spec y v); [exists t, b; rewrite Z.max_l by lia|exists (n, q), x; rewrite Z.max_r by lia]; (split; [apply in_or_app|assumption]); [left; exact It|right; left; reflexivity].
      * intros t' a b' J K. apply in_app_or in J. destruct J as [J|[<-|[]]]; [specialize (M t' a b' J K); lia|destruct (spans_fun _ _ _ _ _ S K); lia].
    + destruct (Z.ltb_spec (x - u) 0); [rewrite Z.min_r by lia; exact Sx|rewrite Z.min_l by lia; exact Iu].
    + destruct (Z.ltb_spec 0 (y - v)); [rewrite Z.max_r by lia; exact Sy|rewrite Z.max_l by lia; exact Iv].
Qed.
Lemma add_some n l : forall busy f, holds busy f -> Forall fine (map (pair n) l) ->
  exists f', add_busy_periods tzo n l f = (f', Ok tt) /\ holds (busy ++ map (pair n) l) f'.
Proof.
  induction l as [|q l IH]; intros busy f H F; cbn [add_busy_periods map].
  - exists f. rewrite app_nil_r. split; [reflexivity|exact H].
  - inversion F as [|? ? A R]; subst. destruct (add_one busy n q f H A) as (f1 & E & H1). rewrite E.
    destruct (IH _ f1 H1 R) as (f2 & E2 & H2). exists f2. split; [exact E2|]. rewrite <- app_assoc in H2. exact H2.
Qed.
Lemma add_all l busy' : lists_busy l busy' -> forall busy f, holds busy f -> Forall fine busy' ->
  exists f', add_busy_props tzo l f = (f', Ok tt) /\ holds (busy ++ busy') f'.
Proof.
  induction 1 as [|p n l r t K V L IH|p r t K L IH]; intros busy f H F; cbn [add_busy_props].
  - exists f. rewrite app_nil_r. split; [reflexivity|exact H].
  - rewrite (kind_busy p n K), (periods_listed p l V). apply Forall_app in F as [F1 F2].
    destruct (add_some n l busy f H F1) as (f1 & E & H1). rewrite E. destruct (IH _ f1 H1 F2) as (f2 & E2 & H2). exists f2. split; [exact E2|]. rewrite <- app_assoc in H2. exact H2.
  - rewrite (kind_free p K). apply IH; assumption.
Qed.

(** ** Sorting *)
Definition item (t : Z * period) : freebusy := FB (Kind (fst t)) (Some (snd t)).
Variable at_ : Z * period -> Z.
Definition on (t : Z * period) : Prop := instant sc (pStart (snd t)) (at_ t).
Lemma cmp_on s t : on s -> on t -> exists c, cmp_busy tzo (item s) (item t) = Ok c /\ (c <? 0) = (at_ s <? at_ t).
Proof.
  intros A B. unfold cmp_busy, item. cbn [fb_getPeriod]. destruct (instant_ops tzo sc _ _ _ _ A B) as (L & _). unfold dt_lt in L.
  destruct (compareDateTime tzo (pStart (snd s)) (pStart (snd t))) as [c|]; [|discriminate L]. exists c. split; [reflexivity|]. cbn [rbind] in L. injection L as ->. lia.
Qed.
(** before is the reverse of a sorted list. *)
Fixpoint falling (l : list (Z * period)) : Prop := match l with [] => True | x :: r => Forall (fun y => at_ y <= at_ x) r /\ falling r end.
Lemma move_on x before : on x -> Forall on before -> falling before ->
  exists l, move_left (cmp_busy tzo) (item x) (map item before) = Ok (map item l) /\ falling l /\ Forall on l /\
    (forall k, filter (fun t => at_ t =? k) l = filter (fun t => at_ t =? k) (x :: before)) /\ (forall z, In z l -> z = x \/ In z before).
Proof.
  intros X. induction before as [|y r IH]; intros F D; cbn [map move_left].
  - exists [x]. split; [reflexivity|]. cbn. repeat split; auto. intros z [->|[]]; auto.
  - inversion F as [|? ? Y R]; subst. destruct D as [D1 D2]. destruct (cmp_on x y X Y) as (c & -> & C). cbn [rbind]. rewrite C.
    destruct (Z.ltb_spec (at_ x) (at_ y)).
    + destruct (IH R D2) as (l & E & A & B & G & I). rewrite E. cbn [rbind]. exists (y :: l). split; [reflexivity|]. split; [|split; [|split]].
      * split; [|exact A]. rewrite Forall_forall in *. intros z J. destruct (I z J) as [->|K]; [lia|apply D1; exact K].
      * constructor; assumption.
      * intro k. cbn [filter]. rewrite G. cbn [filter]. destruct (Z.eqb_spec (at_ y) k), (Z.eqb_spec (at_ x) k); try reflexivity. lia.
      * intros z [->|J]; [right; left; reflexivity|]. destruct (I z J) as [->|K]; auto. right; right; exact K.
    + exists (x :: y :: r). split; [reflexivity|]. split; [|split; [|split]].
      * split; [|split; assumption]. constructor; [lia|]. rewrite Forall_forall in *. intros z J. specialize (D1 z J). cbn in D1. lia.
      * constructor; assumption.
      * reflexivity.
      * intros z [->|J]; auto.
Qed.
Lemma sort_on l : forall before, Forall on before -> Forall on l -> falling before ->
  exists l', sort_cmp (cmp_busy tzo) (map item before) (map item l) = Ok (map item (rev l')) /\ falling l' /\ Forall on l' /\
    forall k, filter (fun t => at_ t =? k) l' = rev (filter (fun t => at_ t =? k) l) ++ filter (fun t => at_ t =? k) before.
Proof.
  induction l as [|x l IH]; intros before B F D; cbn [map sort_cmp].
  - exists before. rewrite map_rev. auto.
  - inversion F as [|? ? X R]; subst. destruct (move_on x before X B D) as (b1 & E & D1 & B1 & G & _). rewrite E. cbn [rbind].
    destruct (IH b1 B1 R D1) as (l' & E' & D' & B' & G'). exists l'. split; [exact E'|]. split; [exact D'|]. split; [exact B'|].
    intro k. rewrite G', G. cbn [filter]. destruct (at_ x =? k); [|reflexivity]. cbn [rev]. rewrite <- app_assoc. reflexivity.
Qed.
Lemma falling_nth l : falling l -> forall i j s t, (i < j)%nat -> nth_error l i = Some s -> nth_error l j = Some t -> at_ t <= at_ s.
Proof.
  induction l as [|x r IH]; intros D i j s t L I J; [destruct i; discriminate|]. destruct D as [D1 D2]. destruct j as [|j]; [lia|]. cbn in J. destruct i as [|i].
  - injection I as <-. rewrite Forall_forall in D1. apply D1. eapply nth_error_In. exact J.
  - cbn in I. apply (IH D2 i j s t); auto. lia.
Qed.
Lemma nth_rev {A} (l : list A) i x : nth_error (rev l) i = Some x -> (i < List.length l)%nat /\ nth_error l (List.length l - 1 - i) = Some x.
Proof.
  intro E. assert (L : (i < List.length (rev l))%nat) by (apply nth_error_Some; congruence). rewrite rev_length in L. split; [exact L|].
  rewrite (nth_error_nth' (rev l) x) in E by (rewrite rev_length; exact L). injection E as E. rewrite rev_nth in E by exact L.
  replace (List.length l - 1 - i)%nat with (List.length l - S i)%nat by lia. rewrite (nth_error_nth' l x) by lia. rewrite E. reflexivity.
Qed.
Lemma sort_all l : Forall on l -> exists l', sort_cmp (cmp_busy tzo) [] (as_items l) = Ok (as_items l') /\ by_start sc l l'.
Proof.
  intro F. destruct (sort_on l [] ltac:(constructor) F I) as (r & E & D & O & G). exists (rev r). split; [exact E|]. split.
  - intros i j s t a b c d L Hi Hj Ss St. apply nth_rev in Hi as [Li Hi]. apply nth_rev in Hj as [Lj Hj].
    assert (at_ s <= at_ t) by (apply (falling_nth r D (List.length r - 1 - j) (List.length r - 1 - i) t s); auto; lia).
    rewrite Forall_forall in O. assert (A := O s (nth_error_In _ _ Hi)). assert (B := O t (nth_error_In _ _ Hj)).
    destruct Ss as [Ss _], St as [St _]. rewrite (instant_fun _ _ _ Ss A), (instant_fun _ _ _ St B). assumption.
  - exists at_. split; [exact F|]. intro k. specialize (G k). cbn [filter] in G. rewrite app_nil_r in G.
    assert (R : forall (f : Z * period -> bool) m, filter f (rev m) = rev (filter f m)).
    { intros f m. induction m as [|y m IHm]; [reflexivity|]. cbn [rev filter]. rewrite filter_app, IHm. cbn [filter]. destruct (f y); cbn [rev]; [reflexivity|apply app_nil_r]. }
    rewrite R, G. apply rev_involutive.
Qed.
End Scale.

(** ** The moments *)
Definition moment (sc : scale) (d : dt) : Z :=
  let k := CalProofs.hdn (mYear d) (mMonth d) (mDay d) - CalProofs.hdn 1970 1 1 in
  match sc with
  | InZone _ _ => 86400 * k + secs_of_day d
  | Dates => k
  | Offsets => 86400 * k + secs_of_day d - (if mTZUTC d then 0 else match mTZID d with TzInt n => n | _ => 0 end)
  end.
Lemma moment_ok sc d x : instant sc d x -> moment sc d = x.
Proof.
  unfold moment. intros (V & H). destruct sc.
  - destruct H as (_ & _ & _ & k & B & ->). apply (db_hdn tzo d _ V) in B. lia.
  - destruct H as (_ & B). apply (db_hdn tzo d _ V) in B. lia.
  - destruct H as (_ & _ & _ & _ & k & o & Z & B & ->). apply (db_hdn tzo d _ V) in B. destruct Z as (_ & [[-> ->]|[-> ->]]); lia.
Qed.

(** ** The component *)
Definition bounded (sc : scale) (b : vfb) (busy : list (Z * period)) (x y : Z) : Prop :=
  (if bHasStart b then instant sc (bStart b) x else earliest sc busy x) /\ (if bHasEnd b then instant sc (bEnd b) y else latest sc busy y).
(** What the cache holds once it is filled. *)
Definition filled (sc : scale) (b : vfb) (busy : list (Z * period)) (x y : Z) : Prop :=
  bCached b = true /\ (exists p, bSpan b = Some p /\ spans sc p x y) /\ exists l, bTime b = Some (as_items l) /\ by_start sc busy l.
Lemma earliest_fun sc busy x y : earliest sc busy x -> earliest sc busy y -> x = y.
Proof. intros ((t & b & I & S) & M) ((t' & b' & I' & S') & M'). specialize (M t' y b' I' S'). specialize (M' t x b I S). lia. Qed.
Lemma latest_fun sc busy x y : latest sc busy x -> latest sc busy y -> x = y.
Proof. intros ((t & b & I & S) & M) ((t' & b' & I' & S') & M'). specialize (M t' b' y I' S'). specialize (M' t b x I S). lia. Qed.
Lemma cache_some sc ps b busy x y : lists_busy (getProperties (lit "FREEBUSY") ps) busy -> all_on sc busy -> busy <> [] -> bounded sc b busy x y ->
  exists b', cacheBusyTime tzo ps b = (b', Ok tt) /\ same_bounds b b' /\ filled sc b' busy x y.
Proof.
  intros L A N (Bx & By). unfold cacheBusyTime.
  destruct (add_all sc _ _ L [] (mkFound [] epoch epoch)) as (f & E & T & H); [split; [reflexivity|congruence]|exact A|].
  rewrite E. cbn [app] in *. destruct (H N) as (u & v & Eu & Ev & Iu & Iv).
  destruct (sort_all sc (fun t => moment sc (pStart (snd t))) busy) as (l & Es & Bs).
  { eapply Forall_impl; [|exact A]. intros t (_ & a & c & S & _). unfold on. rewrite (moment_ok _ _ _ S). exact S. }
  rewrite T. destruct (as_items busy) as [|i0 ir] eqn:EI; [destruct busy; [congruence|discriminate EI]|]. rewrite Es.
  eexists. split; [reflexivity|]. split; [repeat split|]. split; [reflexivity|]. split.
  - eexists. split; [reflexivity|]. split.
    + cbn [pStart newPeriodEnd]. destruct (bHasStart b); [exact Bx|]. rewrite (earliest_fun _ _ _ _ Bx Eu). exact Iu.
    + eexists. split; [reflexivity|]. destruct (bHasEnd b); [exact By|]. rewrite (latest_fun _ _ _ _ By Ev). exact Iv.
  - exists l. split; [reflexivity|exact Bs].
Qed.
Lemma cache_empty ps b : lists_busy (getProperties (lit "FREEBUSY") ps) [] ->
  exists b', cacheBusyTime tzo ps b = (b', Ok tt) /\ same_bounds b b' /\ bCached b' = true /\ bTime b' = None.
Proof.
  intros L. unfold cacheBusyTime.
  destruct (add_all Dates _ _ L [] (mkFound [] epoch epoch)) as (f & E & T & _); [split; [reflexivity|congruence]|constructor|].
  rewrite E, T. eexists. split; [reflexivity|]. repeat split.
Qed.
Lemma expand_filled sc i ps window b busy x y w v : filled sc b busy x y -> spans sc window w v ->
  expandPeriodComp tzo i ps window b = (b, Ok (if in_view w v x y then [i] else [])).
Proof.
  intros (C & (p & E & Sx & e & Ee & Sy) & l & T & _) (Sw & e' & Ew & Sv). unfold expandPeriodComp, with_cache. rewrite C. unfold meets. rewrite T, E.
  rewrite (overlap_spec tzo sc window p e' e w v x y Ew Ee Sw Sv Sx Sy). cbn [rbind]. unfold in_view. reflexivity.
Qed.
Lemma expand_fresh sc i ps window b busy x y w v : bCached b = false -> lists_busy (getProperties (lit "FREEBUSY") ps) busy -> all_on sc busy -> busy <> [] ->
  bounded sc b busy x y -> spans sc window w v ->
  exists b', expandPeriodComp tzo i ps window b = (b', Ok (if in_view w v x y then [i] else [])) /\ same_bounds b b' /\ filled sc b' busy x y.
Proof.
  intros C L A N B S. destruct (cache_some sc ps b busy x y L A N B) as (b' & E & K & F). exists b'. split; [|split; assumption].
  unfold expandPeriodComp, with_cache. rewrite C, E. assert (X := expand_filled sc i ps window b' busy x y w v F S). unfold expandPeriodComp, with_cache in X.
  destruct F as (C' & _). rewrite C' in X. exact X.
Qed.

(** ** What is read *)
Lemma load_first name ps p r d : getProperties name ps = p :: r -> pValue p = Some (Single (VDateTime d)) -> loadDateTime name ps = Some d.
Proof. intros E V. unfold loadDateTime, load, findFirstProperty. rewrite E. cbn [hd_error]. rewrite V. reflexivity. Qed.
Lemma read_bounded sc ps busy x y : bound sc (lit "DTSTART") ps (earliest sc busy) x -> bound sc (lit "DTEND") ps (latest sc busy) y ->
  bounded sc (vfb_finalise ps new_vfb) busy x y.
Proof.
  intros X Y. unfold bounded, vfb_finalise.
  assert (S : exists o, loadDateTime (lit "DTSTART") ps = o /\ match o with Some d => instant sc d x | None => earliest sc busy x end).
  { destruct X as [(p & r & d & E & V & I)|[E I]]; [exists (Some d); split; [eapply load_first; eassumption|exact I]|exists None; split; [apply load_none; exact E|exact I]]. }
  assert (T : exists o, loadDateTime (lit "DTEND") ps = o /\ match o with Some d => instant sc d y | None => latest sc busy y end).
  { destruct Y as [(p & r & d & E & V & I)|[E I]]; [exists (Some d); split; [eapply load_first; eassumption|exact I]|exists None; split; [apply load_none; exact E|exact I]]. }
  destruct S as (os & -> & S), T as (ot & -> & T).
  destruct ot as [e|]; [|destruct (loadDuration _ _)]; destruct os; cbn; split; assumption.
Qed.
Lemma read_fresh ps : bCached (vfb_finalise ps new_vfb) = false.
Proof. unfold vfb_finalise. destruct (loadDateTime (lit "DTEND") ps); [reflexivity|]. destruct (loadDuration _ _); reflexivity. Qed.
Lemma bounded_same sc b b' busy x y : same_bounds b b' -> bounded sc b busy x y -> bounded sc b' busy x y.
Proof. intros (A & B & C & D & _). unfold bounded. rewrite A, B, C, D. tauto. Qed.
Lemma dup_same b : same_bounds b (vfb_duplicate b).
Proof. repeat split. Qed.
Lemma same_trans a b c : same_bounds a b -> same_bounds b c -> same_bounds a c.
Proof. unfold same_bounds. intuition congruence. Qed.

(** ** Editing *)
Lemma get_bounds name ps : tidy_props ps ->
  getProperties name (strip_bounds ps) = if existsb (fun n => beq n name) [lit "DTSTART"; lit "DTEND"; lit "DURATION"] then [] else getProperties name ps.
Proof.
  intro T. unfold strip_bounds. rewrite !get_remove by (repeat apply tidy_remove; exact T). cbn [existsb].
  repeat match goal with |- context [beq ?a name] => let b := fresh in set (b := beq a name); clearbody b; destruct b; cbn [orb]; try reflexivity end.
Qed.
Lemma vfb_fix_fine sc b x y : instant sc (bStart b) x -> instant sc (bEnd b) y -> x < y -> vfb_fixStartEnd tzo b = Ok b.
Proof.
  intros I J L. unfold vfb_fixStartEnd. destruct (bHasStart b); [|reflexivity]. destruct (instant_ops tzo sc _ _ _ _ J I) as (_ & E & _). rewrite E. cbn [rbind].
  replace (0 <=? x - y) with false by lia. reflexivity.
Qed.
Lemma not_bound name : ~ In name [lit "DTSTART"; lit "DTEND"; lit "DURATION"] ->
  existsb (fun n => beq n name) [lit "DTSTART"; lit "DTEND"; lit "DURATION"] = false /\ beq (lit "DTSTART") name = false /\ beq (lit "DTEND") name = false /\ beq (lit "DURATION") name = false.
Proof.
  intro N. assert (F : forall n, In n [lit "DTSTART"; lit "DTEND"; lit "DURATION"] -> beq n name = false).
  { intros n I. destruct (beq_case n name) as [[-> _]|[_ ->]]; [contradiction|reflexivity]. }
  cbn [existsb]. rewrite !F by (cbn; tauto). auto.
Qed.
Lemma vfb_start_end_ok sc start e x y ps b : tidy_props ps -> instant sc start x -> instant sc e y -> x < y ->
  exists ps', vfb_editTimingStartEnd tzo start e (ps, b) = ((ps', set_bounds b true start true e false), Ok tt) /\
    (forall name, ~ In name [lit "DTSTART"; lit "DTEND"; lit "DURATION"] -> getProperties name ps' = getProperties name ps) /\
    one_date (lit "DTSTART") ps' start /\ absent (lit "DURATION") ps' /\
    (if one_day sc x y then absent (lit "DTEND") ps' else one_date (lit "DTEND") ps' e) /\
    forall b0, let b1 := vfb_finalise ps' b0 in bHasStart b1 = true /\ bStart b1 = start /\
      if one_day sc x y then bEnd b1 = start else bHasEnd b1 = true /\ bEnd b1 = e /\ bDuration b1 = false.
Proof.
  intros T I J L. unfold vfb_editTimingStartEnd. set (b' := set_bounds b true start true e false). rewrite (vfb_fix_fine sc b' x y I J L).
  set (qs := addProperty (date_prop (lit "DTSTART") start) (strip_bounds ps)).
  assert (DO : mDateOnly start = match sc with Dates => true | _ => false end) by (destruct sc; destruct I as [_ I]; destruct I; assumption).
  assert (Q : forall name, getProperties name qs = (if existsb (fun n => beq n name) [lit "DTSTART"; lit "DTEND"; lit "DURATION"] then [] else getProperties name ps) ++ if beq (lit "DTSTART") name then [date_prop (lit "DTSTART") start] else []).
  { intro name. unfold qs. rewrite get_date', get_bounds by (assumption || (cbn; tauto)). reflexivity. }
  set (rs := addProperty (date_prop (lit "DTEND") e) qs).
  assert (R : forall name, getProperties name rs = getProperties name qs ++ if beq (lit "DTEND") name then [date_prop (lit "DTEND") e] else []).
  { intro name. unfold rs. apply get_date'. cbn; tauto. }
  assert (C : (if negb (mDateOnly start) then ((rs, b'), Ok tt) else match dt_ne tzo e (offsetDay start 1) with Raise x => ((qs, b'), Raise x) | Ok true => ((rs, b'), Ok tt) | Ok false => ((qs, b'), Ok tt) end)
              = ((if one_day sc x y then qs else rs, b'), Ok tt)).
  { rewrite DO. unfold one_day. destruct sc; try reflexivity. cbn [negb]. destruct (instant_ops tzo Dates _ _ _ _ J (day_after _ _ I)) as (_ & _ & _ & _ & _ & E). rewrite E.
    replace (x + 1 - y =? 0) with (y =? x + 1) by lia. destruct (y =? x + 1); reflexivity. }
  exists (if one_day sc x y then qs else rs). split; [exact C|].
  assert (SD : getProperties (lit "DTSTART") (if one_day sc x y then qs else rs) = [date_prop (lit "DTSTART") start]) by (destruct (one_day sc x y); rewrite ?R, ?Q; reflexivity).
  assert (AD : absent (lit "DURATION") (if one_day sc x y then qs else rs)) by (unfold absent; destruct (one_day sc x y); rewrite ?R, ?Q; reflexivity).
  split; [|split; [apply one_in; [cbn; tauto|exact SD]|split; [exact AD|split]]].
  - intros name N. destruct (not_bound name N) as (F1 & F2 & F3 & F4). destruct (one_day sc x y); rewrite ?R, ?Q, F1, F2, ?F3, ?app_nil_r; reflexivity.
  - destruct (one_day sc x y); [unfold absent; rewrite Q; reflexivity|]. apply one_in; [cbn; tauto|]. rewrite R, Q. reflexivity.
  - intros b0. cbv zeta. unfold vfb_finalise. rewrite (start_loaded _ _ SD).
    assert (LD : loadDuration (lit "DURATION") (if one_day sc x y then qs else rs) = None) by (apply load_none; exact AD). rewrite LD.
    destruct (one_day sc x y) eqn:OD.
    + assert (LE : loadDateTime (lit "DTEND") qs = None) by (apply load_none; rewrite Q; reflexivity). rewrite LE. repeat split.
    + assert (LE : loadDateTime (lit "DTEND") rs = Some e) by (unfold loadDateTime; rewrite (load_one datetime_of (lit "DTEND") rs (date_prop (lit "DTEND") e)) by (rewrite R, Q; reflexivity); reflexivity).
      rewrite LE. repeat split.
Qed.
End S.
Lemma vfb_start_duration_ok start du ps b : tidy_props ps ->
  exists ps' e, vfb_editTimingStartDuration start du (ps, b) = ((ps', set_bounds b true start false e true), Ok tt) /\ after start (getTotalSeconds du) e /\
    others_kept ps ps' /\ one_date (lit "DTSTART") ps' start /\ absent (lit "DTEND") ps' /\ absent (lit "DUE") ps' /\
    (if negb (mDateOnly start) || negb (dWeeks du =? 0) || (1 <? dDays du) then one_duration (lit "DURATION") ps' du else absent (lit "DURATION") ps') /\
    forall b0, let b1 := vfb_finalise ps' b0 in bHasStart b1 = true /\ bStart b1 = start /\ bHasEnd b1 = bHasEnd b0 /\
      if negb (mDateOnly start) || negb (dWeeks du =? 0) || (1 <? dDays du) then bEnd b1 = e /\ bDuration b1 = true else bEnd b1 = start.
Proof.
  intros T. unfold vfb_editTimingStartDuration. set (w := negb (mDateOnly start) || negb (dWeeks du =? 0) || (1 <? dDays du)).
  set (qs := addProperty (date_prop (lit "DTSTART") start) _).
  assert (Q : forall name, getProperties name qs = (if existsb (fun n => beq n name) time_names then [] else getProperties name ps) ++ if beq (lit "DTSTART") name then [date_prop (lit "DTSTART") start] else []).
  { intro name. unfold qs. rewrite get_date' by (cbn; tauto). change (removeProperties (lit "DUE") (strip_bounds ps)) with (strip_times ps). rewrite get_strip by exact T. reflexivity. }
  set (rs := addProperty (duration_prop (lit "DURATION") du) qs).
  assert (R : forall name, getProperties name rs = getProperties name qs ++ if beq (lit "DURATION") name then [duration_prop (lit "DURATION") du] else []).
  { intro name. unfold rs. apply get_dur. cbn; tauto. }
  exists (if w then rs else qs), (addSeconds start (getTotalSeconds du)). split; [destruct w; reflexivity|]. split; [apply (add_after (fun _ _ _ _ _ _ _ _ _ => 0))|].
  assert (SD : getProperties (lit "DTSTART") (if w then rs else qs) = [date_prop (lit "DTSTART") start]) by (destruct w; rewrite ?R, ?Q; reflexivity).
  assert (AE : absent (lit "DTEND") (if w then rs else qs)) by (unfold absent; destruct w; rewrite ?R, ?Q; reflexivity).
  assert (AU : absent (lit "DUE") (if w then rs else qs)) by (unfold absent; destruct w; rewrite ?R, ?Q; reflexivity).
  split; [destruct w; [apply kept_3|apply kept_1]; cbn; tauto || exact T|]. split; [apply one_in; [cbn; tauto|exact SD]|]. split; [exact AE|]. split; [exact AU|]. split.
  - destruct w; [unfold one_duration; rewrite R, Q; reflexivity|unfold absent; rewrite Q; reflexivity].
  - intros b0. cbv zeta. unfold vfb_finalise. rewrite (start_loaded _ _ SD).
    assert (LE : loadDateTime (lit "DTEND") (if w then rs else qs) = None) by (apply load_none; exact AE). rewrite LE. destruct w.
    + unfold loadDuration. rewrite (load_one duration_of (lit "DURATION") rs (duration_prop (lit "DURATION") du)) by (rewrite R, Q; reflexivity). cbn. repeat split.
    + unfold loadDuration. rewrite (load_none duration_of (lit "DURATION") qs) by (rewrite Q; reflexivity). cbn. repeat split.
Qed.
