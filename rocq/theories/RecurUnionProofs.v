(** Proofs about recurrence sets. *)
From Coq Require Import Lia ZifyBool ZifyNat Sorting.Permutation Sorting.Sorted.
From Verif Require Import PyBase PyProofs CalModel CalSpec DateTimeModel DateTimeSpec DateTimeSpec2 DateTimeOps CalProofs DateTimeProofs
  DateTimeOpsProofs PeriodModel PeriodSpec PeriodProofs RecurModel RecurTextProofs2 RecurExpand RecurExpandSpec RecurSetSpec RecurSortProofs
  RecurSimpleProofs RecurCacheProofs RecurMiscProofs RecurByPartsSpec RecurByPartsProofs3 RecurKeepProofs RecurSetModel RecurUnionSpec RecurAgainProofs.
Ltac Zify.zify_post_hook ::= Z.div_mod_to_equations.

Section WithTz.
Variable tzo : tzid -> Z -> Z -> Z -> Z -> Z -> Z -> bool -> bool -> Z.

Lemma honest_coherent d : honest tzo d -> coherent tzo d.
Proof.
  intros [A B]. split.
  - intros U o O. rewrite (A U o O). unfold timeZoneSecondsOffset. cbn. rewrite U. reflexivity.
  - intros P F. rewrite (B P F), getPosixTime_fresh by apply coh_rebuilt. apply visible_fresh. reflexivity.
Qed.

Lemma visible_instant d d1 sc x : sc <> Offsets -> visible d = visible d1 -> instant sc d x -> instant sc d1 x.
Proof.
  unfold visible, ymd. intros NO Vi. injection Vi as Y M D h m s DO U T. unfold instant, valid_dt, ymd, secs_of_day.
  destruct sc; try congruence; rewrite Y, M, D, h, m, s, DO, ?U, ?T; auto.
Qed.
Lemma norm_norm d : valid_dt d -> normalise (normalise d) = normalise d.
Proof.
  intro V. assert (V' : valid_dt (normalise d)) by (apply (normalise_inmonth d); apply valid_month; exact V).
  pose proof (normalise_valid _ V') as E.
  assert (C : forall x, mTZOffset (normalise x) = None /\ mPosixTimeCached (normalise x) = false /\ mPosixTime (normalise x) = mPosixTime x).
  { intro x. unfold normalise. destruct (if mDateOnly x then _ else _) as [[? ?] ?]. destruct (norm_days _ _ _) as [[? ?] ?]. auto. }
  pose proof (C (normalise d)) as (C1 & C2 & C3). pose proof (C d) as (C4 & C5 & C6).
  destruct (normalise (normalise d)), (normalise d). unfold visible, ymd in E. cbn in *. congruence.
Qed.

Section OneScale.
Variables (sc : scale) (start : dt).
Hypothesis NO : sc <> Offsets.

Notation good := (RecurAgainProofs.good tzo sc start).

Lemma good_visible d e x : good d x -> good e x -> visible d = visible e.
Proof.
  intros (I & [Z1 Z2] & _) (I' & [Z1' Z2'] & _). destruct (instant_same sc d e x NO I I') as [E1 E2].
  apply instant_iff in I as (_ & S & _); [|exact NO]. apply instant_iff in I' as (_ & S' & _); [|exact NO].
  unfold visible. rewrite E1, E2. replace (mDateOnly e) with (mDateOnly d); [congruence|]. destruct sc; cbn in S, S'; intuition congruence.
Qed.
Lemma good_key d x : good d x -> exists p d1, posix_key tzo d = Ok (p, d1) /\ good d1 x /\ keyed tzo (p, d1) /\ fresh_posix tzo d = Ok p.
Proof.
  intros (I & Z & C). assert (V : valid_dt d) by apply I. destruct (posix_key_ok tzo d) as [[p d1] K]; [apply valid_month, V|].
  exists p, d1. split; [exact K|]. pose proof (posix_key_spec tzo d p d1 K) as (Vi & P & _ & K'). split; [|split; [exact K'|]].
  - split; [|split].
    + apply (visible_instant d); [exact NO|symmetry; exact Vi|exact I].
    + unfold visible in Vi. injection Vi as _ _ _ _ _ _ _ U T. destruct Z. split; congruence.
    + unfold posix_key in K. destruct (getPosixTime tzo d) as [d2 rr] eqn:G. destruct rr as [q|]; [|discriminate]. cbn in K. injection K as <- <-.
      pose proof (coh_posix tzo d q C) as Q. rewrite G in Q. apply Q. reflexivity.
  - rewrite <- getPosixTime_fresh by exact C. exact P.
Qed.

(** A key with its instant. *)
Definition kgood (k : Z * dt) (x : Z) : Prop := good (snd k) x /\ keyed tzo k.
Lemma kgood_same k k' x : kgood k x -> kgood k' x -> fst k = fst k'.
Proof.
  intros [G K] [G' K']. pose proof (good_visible _ _ x G G') as V. apply keyed_posix in K, K'.
  rewrite getPosixTime_fresh in K, K' by (apply G || apply G'). rewrite (visible_fresh tzo _ _ V) in K. congruence.
Qed.
Lemma good_eq d e x y : good d x -> good e y -> dt_eq tzo d e = Ok (x =? y).
Proof. intros (I & _) (I' & _). destruct (instant_ops tzo sc d e x y I I') as (_ & _ & _ & _ & E & _). rewrite E. f_equal. lia. Qed.

Lemma has_key_spec ks ys k x : Forall2 kgood ks ys -> kgood k x -> has_key tzo ks k = Ok (existsb (Z.eqb x) ys).
Proof.
  intros F K. induction F as [|k' y ks ys K' F IH]; [reflexivity|]. cbn [has_key existsb]. rewrite IH.
  destruct (Z.eqb_spec x y) as [<-|N].
  - rewrite (kgood_same k' k x K' K), Z.eqb_refl. rewrite (good_eq _ _ x x (proj1 K') (proj1 K)), Z.eqb_refl. reflexivity.
  - destruct (fst k' =? fst k); [|reflexivity]. rewrite (good_eq _ _ y x (proj1 K') (proj1 K)).
    cbn [rbind orb]. destruct (Z.eqb_spec y x); [congruence|reflexivity].
Qed.
Lemma existsb_in x ys : existsb (Z.eqb x) ys = true <-> In x ys.
Proof. rewrite existsb_exists. split; [intros (y & I & E); apply Z.eqb_eq in E; subst; exact I|]. intro I. exists x. split; [exact I|apply Z.eqb_refl]. Qed.

Lemma add_all_spec l xs : Forall2 kgood l xs -> forall acc ys, Forall2 kgood acc ys -> NoDup ys ->
  exists ks zs, add_all tzo acc l = Ok ks /\ Forall2 kgood ks zs /\ NoDup zs /\ (forall x, In x zs <-> In x ys \/ In x xs).
Proof.
  induction 1 as [|k x l xs K F IH]; intros acc ys A N; cbn [add_all].
  - exists acc, ys. split; [reflexivity|]. split; [exact A|]. split; [exact N|]. cbn. tauto.
  - rewrite (has_key_spec acc ys k x A K). cbn [rbind]. destruct (existsb (Z.eqb x) ys) eqn:E.
    + apply existsb_in in E. destruct (IH acc ys A N) as (ks & zs & H & G & N' & M). exists ks, zs. split; [exact H|]. split; [exact G|].
      split; [exact N'|]. intro z. rewrite M. cbn. intuition congruence.
    + destruct (IH (acc ++ [k]) (ys ++ [x])) as (ks & zs & H & G & N' & M).
      * apply Forall2_app; [exact A|]. constructor; [exact K|constructor].
      * apply (Permutation_NoDup (l := x :: ys)); [apply Permutation_cons_append|]. constructor; [|exact N].
        intro I. apply existsb_in in I. congruence.
      * exists ks, zs. split; [exact H|]. split; [exact G|]. split; [exact N'|]. intro z. rewrite M, in_app_iff. cbn. tauto.
Qed.
Lemma keys_good l xs : Forall2 good l xs -> exists ks, mapr (posix_key tzo) l = Ok ks /\ Forall2 kgood ks xs.
Proof.
  induction 1 as [|d x l xs G F (ks & E & IH)]; [exists []; split; [reflexivity|constructor]|].
  destruct (good_key d x G) as (p & d1 & K & G1 & Kd & _). exists ((p, d1) :: ks). cbn [mapr]. rewrite K. cbn [rbind]. rewrite E.
  split; [reflexivity|]. constructor; [|exact IH]. split; assumption.
Qed.
Lemma kgood_good ks xs : Forall2 kgood ks xs -> Forall2 good (map snd ks) xs.
Proof. induction 1 as [|k x ks xs [G _] F IH]; constructor; assumption. Qed.
Lemma set_keys_spec l xs : Forall2 good l xs -> exists ks zs, set_keys tzo l = Ok ks /\ Forall2 kgood ks zs /\ NoDup zs /\ (forall x, In x zs <-> In x xs).
Proof.
  intro F. destruct (keys_good l xs F) as (ks & E & K). unfold set_keys. rewrite E. cbn [rbind].
  destruct (add_all_spec ks xs K [] [] (Forall2_nil _) (NoDup_nil _)) as (ks' & zs & H & G & N & M). exists ks', zs.
  split; [exact H|]. split; [exact G|]. split; [exact N|]. intro x. rewrite M. cbn. tauto.
Qed.

(** The list holds exactly the instants with Q, each once. *)
Definition uniq (l : list dt) (Q : Z -> Prop) : Prop := exists xs, Forall2 good l xs /\ NoDup xs /\ forall x, In x xs <-> Q x.
Definition cover (l : list dt) (Q : Z -> Prop) : Prop := exists xs, Forall2 good l xs /\ forall x, In x xs <-> Q x.

Lemma uniq_perm l l' Q : Permutation l l' -> uniq l Q -> uniq l' Q.
Proof.
  intros P (xs & F & N & M). destruct (Permutation_Forall2 P F) as (ys & Py & Fy). exists ys. split; [exact Fy|]. split.
  - apply (Permutation_NoDup Py N).
  - intro x. rewrite <- M. split; apply Permutation_in; [apply Permutation_sym|]; exact Py.
Qed.

Variable order : list dt -> list dt.
Hypothesis Ord : permutes order.

Lemma unique_spec l Q : cover l Q -> exists u, unique tzo order l = Ok u /\ uniq u Q.
Proof.
  intros (xs & F & M). destruct (set_keys_spec l xs F) as (ks & zs & E & K & N & Mz). unfold unique. rewrite E. cbn [rbind].
  eexists. split; [reflexivity|]. apply (uniq_perm (map snd ks)); [apply Ord|]. exists zs. split; [apply kgood_good, K|]. split; [exact N|].
  intro x. rewrite Mz. apply M.
Qed.
Lemma sort_uniq l Q : uniq l Q -> exists u, sort_posix tzo l = Ok u /\ uniq u Q /\ in_order tzo u.
Proof.
  intros (xs & F & N & M). destruct (keys_good l xs F) as (ks & E & K). unfold sort_posix. rewrite E. cbn [rbind]. eexists. split; [reflexivity|].
  split.
  - apply (uniq_perm (map snd ks)); [apply Permutation_map, isort_perm|]. exists xs. split; [apply kgood_good, K|]. auto.
  - apply keys_sorted; [|apply k_sorted]. eapply Permutation_Forall; [apply isort_perm|]. clear - K. induction K as [|k x ks xs [_ H] F IH]; constructor; assumption.
Qed.
Lemma without_spec s2 ys ks xs : Forall2 kgood s2 ys -> Forall2 kgood ks xs -> exists l, without tzo s2 ks = Ok l /\
  Forall2 good l (filter (fun x => negb (existsb (Z.eqb x) ys)) xs).
Proof.
  intros F2 F. induction F as [|k x ks xs K F (l & E & IH)]; [exists []; split; [reflexivity|constructor]|].
  cbn [without]. rewrite (has_key_spec s2 ys k x F2 K). cbn [rbind]. rewrite E. cbn [rbind filter].
  eexists. split; [reflexivity|]. destruct (existsb (Z.eqb x) ys); cbn [negb]; [exact IH|]. constructor; [apply K|exact IH].
Qed.
Lemma diff_spec v1 v2 Q1 Q2 : uniq v1 Q1 -> uniq v2 Q2 -> exists l, set_difference tzo order v1 v2 = Ok l /\
  uniq l (fun x => Q1 x /\ ~ Q2 x) /\ ((forall x, ~ Q2 x) -> l = v1).
Proof.
  intros U1 U2. pose proof U1 as (xs & F & N & M). pose proof U2 as (ys & F' & N' & M').
  assert (T : v1 = [] \/ v2 = [] -> uniq v1 (fun x => Q1 x /\ ~ Q2 x)).
  { intro D. exists xs. split; [exact F|]. split; [exact N|]. intro x. rewrite M. split; [|tauto]. intro H. split; [exact H|].
    destruct D as [-> | ->]; [inversion F; subst; apply M in H; destruct H|]. inversion F'; subst. rewrite <- M'. auto. }
  destruct v1 as [|d1 v1]; [exists []; cbn; auto|]. destruct v2 as [|d2 v2]; [exists (d1 :: v1); cbn; auto|].
  assert (NE : ~ forall x, ~ Q2 x).
  { intro H. inversion F' as [|? y ? ? G]; subst. apply (H y). apply M'. left. reflexivity. }
  unfold set_difference.
  destruct (set_keys_spec _ _ F) as (s1 & zs & -> & K1 & Nz & Mz). destruct (set_keys_spec _ _ F') as (s2 & zs' & -> & K2 & Nz' & Mz').
  cbn [rbind]. assert (U : uniq (order (map snd s1)) Q1).
  { apply (uniq_perm (map snd s1)); [apply Ord|]. exists zs. split; [apply kgood_good, K1|]. split; [exact Nz|]. intro x. rewrite Mz. apply M. }
  destruct U as (xs1 & F1 & N1 & M1). destruct (keys_good _ _ F1) as (k1 & -> & Kk1). cbn [rbind].
  destruct (without_spec s2 zs' k1 xs1 K2 Kk1) as (l & -> & Fl). cbn [rbind]. eexists. split; [reflexivity|]. split; [|intro H; destruct (NE H)].
  apply (uniq_perm l); [apply Ord|]. eexists. split; [exact Fl|]. split; [apply NoDup_filter, N1|].
  intro x. rewrite filter_In, M1, negb_true_iff, <- not_true_iff_false, existsb_in, Mz', M'. reflexivity.
Qed.

(** ** The parts of the set *)
Variables (off : Z) (range : period) (a w b : Z) (e : dt).
Hypothesis Ia : instant sc start a.
Hypothesis Ew : instant sc (pStart range) w.
Hypothesis Ee : snd (getEnd range) = Ok e.
Hypothesis Eb : instant sc e b.

Lemma cover_ext l Q Q' : (forall x, Q x <-> Q' x) -> cover l Q -> cover l Q'.
Proof. intros H (xs & F & M). exists xs. split; [exact F|]. intro x. rewrite M. apply H. Qed.
Lemma cover_app l l' Q Q' : cover l Q -> cover l' Q' -> cover (l ++ l') (fun x => Q x \/ Q' x).
Proof.
  intros (xs & F & M) (ys & F' & M'). exists (xs ++ ys). split; [apply Forall2_app; assumption|]. intro x. rewrite in_app_iff, M, M'. reflexivity.
Qed.
Lemma cover_one d x : good d x -> cover [d] (fun y => y = x).
Proof. intro G. exists [x]. split; [constructor; [exact G|constructor]|]. intro y. cbn. intuition. Qed.

Lemma date_good d : date_ok tzo sc start d -> exists x, good d x.
Proof. intros ((x & I) & Z & H). exists x. split; [exact I|]. split; [exact Z|apply honest_coherent, H]. Qed.
Lemma dates_spec ds : Forall (date_ok tzo sc start) ds -> forall include Q limited, cover include Q -> exists l lim,
  add_dates tzo ds range None include limited = Ok (l, lim) /\ cover l (fun x => Q x \/ w <= x < b /\ date_gives sc ds x) /\
  (lim = false <-> limited = false /\ forall x, date_gives sc ds x -> w <= x < b).
Proof.
  induction 1 as [|d ds D F IH]; intros include Q limited C; cbn [add_dates].
  - exists include, limited. split; [reflexivity|]. split; [|].
    + eapply cover_ext; [|exact C]. intro x. split; [tauto|]. intros [H|(_ & d & [] & _)]. exact H.
    + split; [|tauto]. intro H. split; [exact H|]. intros x (d & [] & _).
  - destruct (date_good d D) as (x & G).
    destruct (within_spec tzo sc range d e w b x Ee Ew Eb (proj1 G)) as (-> & _). cbn [rbind].
    assert (Dg : forall y, date_gives sc (d :: ds) y <-> y = x \/ date_gives sc ds y).
    { intro y. unfold date_gives. split.
      - intros (d' & [<-|Hd] & I); [left; eapply instant_fun; [exact NO|exact I|apply G]|]. right. eauto.
      - intros [->|(d' & Hd & I)]; [exists d; split; [left; reflexivity|apply G]|]. exists d'. split; [right; exact Hd|exact I]. }
    destruct ((w <=? x) && (x <? b)) eqn:W.
    + cbv zeta. cbn [over]. destruct (IH (include ++ [d]) (fun y => Q y \/ y = x) limited) as (l & lim & E & Cl & L).
      { apply cover_app; [exact C|apply cover_one, G]. }
      exists l, lim. split; [exact E|]. split.
      * eapply cover_ext; [|exact Cl]. intro y. rewrite Dg. intuition (subst; auto; lia).
      * rewrite L. split; intros [L1 L2]; (split; [exact L1|]); intros y Hy; [apply Dg in Hy as [->|Hy]; [lia|auto]|]. apply L2, Dg. auto.
    + destruct (IH include Q true C) as (l & lim & E & Cl & L). exists l, lim. split; [exact E|]. split.
      * eapply cover_ext; [|exact Cl]. intro y. rewrite Dg. split; [tauto|]. intros [H|(H & [->|H'])]; auto. lia.
      * rewrite L. split; [intros [? _]; discriminate|]. intros [_ H]. specialize (H x (proj2 (Dg x) (or_introl eq_refl))). lia.
Qed.

Definition periods_all (ps : list period) : Prop := forall p x e' y, In p ps -> instant sc (pStart p) x -> snd (getEnd p) = Ok e' -> instant sc e' y -> x < b /\ w < y.
Lemma periods_spec ps : Forall (period_ok tzo sc start) ps -> forall include Q limited, cover include Q -> exists l lim,
  add_periods tzo ps range None include limited = Ok (l, lim) /\ cover l (fun x => Q x \/ period_gives sc ps w b x) /\
  (lim = false <-> limited = false /\ periods_all ps).
Proof.
  induction 1 as [|p ps (D & e' & y & Ep & Iy) F IH]; intros include Q limited C; cbn [add_periods].
  - exists include, limited. split; [reflexivity|]. split.
    + eapply cover_ext; [|exact C]. intro x. split; [tauto|]. intros [H|(p & e' & y & [] & _)]. exact H.
    + split; [|tauto]. intro H. split; [exact H|]. intros p x e' y [].
  - destruct (date_good (pStart p) D) as (x & G).
    rewrite (overlap_spec tzo sc range p e e' w b x y Ee Ep Ew Eb (proj1 G) Iy). cbn [rbind].
    assert (Dg : forall z, period_gives sc (p :: ps) w b z <-> (z = x /\ x < b /\ w < y) \/ period_gives sc ps w b z).
    { intro z. unfold period_gives. split.
      - intros (q & e2 & y2 & [<-|Hq] & I1 & E2 & I2 & H); [left|right; eauto 10].
        assert (e2 = e') by congruence. subst e2. pose proof (instant_fun sc _ _ _ NO I1 (proj1 G)). pose proof (instant_fun sc _ _ _ NO I2 Iy). subst. auto.
      - intros [(-> & H)|(q & e2 & y2 & Hq & H)]; [exists p, e', y; split; [left; reflexivity|]; split; [apply G|]; auto|].
        exists q, e2, y2. split; [right; exact Hq|exact H]. }
    assert (Pa : periods_all (p :: ps) <-> (x < b /\ w < y) /\ periods_all ps).
    { unfold periods_all. split.
      - intro H. split; [apply (H p x e' y); auto; [left; reflexivity|apply G]|]. intros q x2 e2 y2 Hq. apply H. right. exact Hq.
      - intros [H1 H2] q x2 e2 y2 [<-|Hq] I1 E2 I2; [|eapply H2; eauto].
        assert (e2 = e') by congruence. subst e2. pose proof (instant_fun sc _ _ _ NO I1 (proj1 G)). pose proof (instant_fun sc _ _ _ NO I2 Iy). subst. auto. }
    destruct ((w <? y) && (x <? b)) eqn:W.
    + cbv zeta. cbn [over]. destruct (IH (include ++ [pStart p]) (fun z => Q z \/ z = x) limited) as (l & lim & E & Cl & L).
      { apply cover_app; [exact C|apply cover_one, G]. }
      exists l, lim. split; [exact E|]. split.
      * eapply cover_ext; [|exact Cl]. intro z. rewrite Dg. intuition (subst; auto; lia).
      * rewrite L, Pa. intuition lia.
    + destruct (IH include Q true C) as (l & lim & E & Cl & L). exists l, lim. split; [exact E|]. split.
      * eapply cover_ext; [|exact Cl]. intro z. rewrite Dg. intuition lia.
      * rewrite L, Pa. split; [intros [? _]; discriminate|]. intros [_ [H _]]. lia.
Qed.

(** The start may be normalised. *)
Variable start' : dt.
Hypothesis St : start' = start \/ start' = normalise start.

Lemma expand_start fuel r c max : expand tzo fuel r c start' range off max = expand tzo fuel r c start range off max.
Proof. destruct St as [-> | ->]; [reflexivity|]. unfold expand. rewrite norm_norm by apply Ia. reflexivity. Qed.

Notation given_by := (rule_gives sc off start a).
Notation known := (RecurAgainProofs.known tzo sc off Z.le start a).
Definition known_from (z : dt) (r : rule) (c : rcache) : Prop :=
  cCached c = true -> exists start0 a0, instant sc start0 a0 /\ same_zone start0 z /\ RecurAgainProofs.known tzo sc off Z.le start0 a0 r c.
Definition all_known (rules : list (rule * rcache)) : Prop := Forall (fun rc => known_from start (fst rc) (snd rc)) rules.
Lemma rule_spec r c0 : known_from start r c0 -> rule_call tzo sc off start range a w b r -> exists N, forall fuel, (N <= fuel)%nat -> exists c items limited,
  expand tzo fuel r c0 start' range off None = Some (c, (items, Ok limited)) /\
  cover items (fun x => w <= x < b /\ given_by r x) /\
  (limited = false -> forall x, given_by r x -> w <= x < b) /\ known_from start r c.
Proof.
  intros G0 H. assert (G : exists start0 a0, instant sc start0 a0 /\ same_zone start0 start /\ RecurAgainProofs.known tzo sc off Z.le start0 a0 r c0).
  { unfold known_from in G0. destruct (cCached c0) eqn:Ec; [apply G0; reflexivity|]. exists start, a. split; [exact Ia|]. split; [split; reflexivity|].
    intro. congruence. }
  destruct G as (start0 & a0 & I0 & Z0 & G).
  destruct (again tzo sc off NO start0 a0 start range a w b r c0 I0 Ia Z0) as (N & HN); auto.
  { exists e. auto. }
  exists N. intros fuel Hf. destruct (HN fuel Hf) as (c & items & limited & zs & E & F & _ & M & L & K). exists c, items, limited.
  rewrite expand_start. split; [exact E|]. split; [|split; [exact L|intros _; exists start, a; split; [exact Ia|split; [split; reflexivity|exact K]]]]. exists zs. split; [exact F|]. intro x. rewrite M. tauto.
Qed.
Lemma rules_spec rules : all_known rules -> Forall (rule_call tzo sc off start range a w b) (map fst rules) -> exists N, forall fuel, (N <= fuel)%nat ->
  forall include Q limited, cover include Q -> exists rr l lim,
  expand_rules tzo fuel rules start' range off None include limited = Some (rr, (l, Ok lim)) /\
  cover l (fun x => Q x \/ w <= x < b /\ exists r c, In (r, c) rules /\ given_by r x) /\
  (lim = false -> limited = false /\ forall r c x, In (r, c) rules -> given_by r x -> w <= x < b) /\
  all_known rr /\ map fst rr = map fst rules.
Proof.
  induction rules as [|[r c] rules IHr]; intros K F.
  - exists O. intros fuel _ include Q limited C. exists [], include, limited. split; [reflexivity|]. split; [|split; [|split; [constructor|reflexivity]]].
    + eapply cover_ext; [|exact C]. intro x. split; [tauto|]. intros [H|(_ & r & c & [] & _)]. exact H.
    + intro H. split; [exact H|]. intros r c x [].
  - inversion K as [|? ? K1 K2]; subst. inversion F as [|? ? R F2]; subst. cbn [fst snd] in K1, R.
    destruct (IHr K2 F2) as (N & IH).
    destruct (rule_spec r c K1 R) as (M & HM). exists (Nat.max N M). intros fuel Hf include Q limited C.
    destruct (HM fuel ltac:(lia)) as (c' & items & l1 & E & C1 & L1 & Kc). cbn [expand_rules]. rewrite E.
    destruct (IH fuel ltac:(lia) (include ++ items) _ (l1 || limited) (cover_app _ _ _ _ C C1)) as (rr & l & lim & E2 & C2 & L2 & Kr & Mr). rewrite E2.
    exists ((r, c') :: rr), l, lim. split; [reflexivity|]. split; [|split; [|split; [constructor; [exact Kc|exact Kr]|cbn; f_equal; exact Mr]]].
    + eapply cover_ext; [|exact C2]. intro x. cbn [In]. split.
      * intros [[H|(H1 & H2)]|(H1 & r2 & c2 & H2 & H3)]; [left; exact H| |]; right; (split; [exact H1|]); [exists r, c|exists r2, c2]; auto.
      * intros [H|(H1 & r2 & c2 & [H2|H2] & H3)]; [auto| |right; eauto 6]. injection H2 as <- <-. auto.
    + intro Hl. destruct (L2 Hl) as [A B]. apply orb_false_iff in A as [A1 A2]. split; [exact A2|].
      intros r2 c2 x [H2|H2] H3; [injection H2 as <- <-; apply L1; assumption|]. eapply B; eauto.
Qed.
End OneScale.

(** Nothing was left out. *)
Definition set_known sc off start (s : rset) : Prop := all_known sc start off (sRrules s) /\ all_known sc start off (sExrules s).
Definition same_parts (s s' : rset) : Prop :=
  map fst (sRrules s) = map fst (sRrules s') /\ map fst (sExrules s) = map fst (sExrules s') /\
  sRdates s = sRdates s' /\ sExdates s = sExdates s' /\ sRperiods s = sRperiods s' /\ sExperiods s = sExperiods s'.
Lemma set_again sc off s start range a w b order : permutes order -> set_known sc off start s -> set_call tzo sc off s start range a w b ->
  exists N, forall fuel, (N <= fuel)%nat -> exists s' items limited,
    rset_expand tzo order fuel s start range off None = Some (s', (items, Ok limited)) /\
    uniq sc start items (fun x => included sc off start a w b s x /\ ~ excluded sc off start a w b s x) /\
    (limited = false -> w <= a < b /\ (forall r c x, In (r, c) (sRrules s) -> rule_gives sc off start a r x -> w <= x < b) /\
       (forall x, date_gives sc (sRdates s) x -> w <= x < b) /\
       (forall p x e y, In p (sRperiods s) -> instant sc (pStart p) x -> snd (getEnd p) = Ok e -> instant sc e y -> x < b /\ w < y)) /\
    ((forall x, ~ excluded sc off start a w b s x) -> in_order tzo items) /\
    set_known sc off start s' /\ same_parts s s'.
Proof.
  intros Ord [Kr Kx] (NO & Ia & Ho & Iw & (e & Ee & Ie) & Rs & Ds & Ps). rewrite map_app in Rs.
  apply Forall_app in Rs as [Rr Rx]. apply Forall_app in Ds as [Dr Dx]. apply Forall_app in Ps as [Pr Px].
  set (start' := match sRrules s with [] => start | _ => normalise start end).
  assert (St : start' = start \/ start' = normalise start) by (unfold start'; destruct (sRrules s); auto).
  assert (G0 : RecurAgainProofs.good tzo sc start start' a).
  { destruct St as [-> | ->]; [split; [exact Ia|]; split; [split; reflexivity|apply honest_coherent, Ho]|].
    split; [apply norm_same; assumption|]. split; [|apply coh_norm]. pose proof (zn_norm start) as S. unfold zn in S. injection S as S1 S2.
    split; congruence. }
  destruct (rules_spec sc start NO off range a w b e Ia Iw Ee Ie start' St _ Kr Rr) as (N1 & H1).
  destruct (rules_spec sc start NO off range a w b e Ia Iw Ee Ie start' St _ Kx Rx) as (N2 & H2).
  exists (Nat.max N1 N2). intros fuel Hf. unfold rset_expand. fold start'.
  destruct (within_spec tzo sc range start e w b a Ee Iw Ie Ia) as (-> & _).
  set (wi := (w <=? a) && (a <? b)).
  assert (C0 : cover sc start (if wi then [start'] else []) (fun x => x = a /\ w <= x < b)).
  { unfold wi. destruct ((w <=? a) && (a <? b)) eqn:W.
    - eapply cover_ext; [|apply cover_one, G0]. intro x. cbv beta. lia.
    - exists []. split; [constructor|]. intro x. cbn. lia. }
  destruct (H1 fuel ltac:(lia) _ _ (negb wi) C0) as (rr & l & lim & -> & C1 & L1 & Kr' & Mr).
  destruct (dates_spec sc start NO range w b e Iw Ee Ie _ Dr _ _ lim C1) as (l2 & lim2 & E2 & C2 & L2).
  destruct (periods_spec sc start NO range w b e Iw Ee Ie _ Pr _ _ lim2 C2) as (l3 & lim3 & E3 & C3 & L3).
  destruct (unique_spec sc start NO order Ord _ _ C3) as (l4 & E4 & C4).
  destruct (sort_uniq sc start NO _ _ C4) as (l5 & E5 & C5 & O5).
  unfold finish_include. rewrite E2. cbn [rbind fst snd]. rewrite E3. cbn [rbind fst snd]. rewrite E4. cbn [rbind]. rewrite E5. cbn [rbind].
  destruct (H2 fuel ltac:(lia) [] (fun _ => False) false) as (xr & m & lim' & -> & D1 & _ & Kx' & Mx).
  { exists []. split; [constructor|]. intro x. cbn. tauto. }
  destruct (dates_spec sc start NO range w b e Iw Ee Ie _ Dx _ _ false D1) as (m2 & lm2 & F2 & D2 & _).
  destruct (periods_spec sc start NO range w b e Iw Ee Ie _ Px _ _ false D2) as (m3 & lm3 & F3 & D3 & _).
  destruct (unique_spec sc start NO order Ord _ _ D3) as (m4 & F4 & D4).
  destruct (sort_uniq sc start NO _ _ D4) as (m5 & F5 & D5 & _).
  unfold finish_exclude. rewrite F2. cbn [rbind fst snd]. rewrite F3. cbn [rbind fst snd]. rewrite F4. cbn [rbind]. rewrite F5. cbn [rbind].
  destruct (diff_spec sc start NO order Ord _ _ _ _ C5 D5) as (items & -> & U & Nx).
  eexists. exists items, lim3. split; [reflexivity|]. split; [|split; [|split; [|split]]].
  - destruct U as (xs & F & Nd & M). exists xs. split; [exact F|]. split; [exact Nd|].
    intro x. rewrite M. unfold included, excluded, gives. tauto.
  - intros ->. destruct (proj1 L3 eq_refl) as [A P]. destruct (proj1 L2 A) as [A2 D]. destruct (L1 A2) as [A3 R].
    split; [unfold wi in A3; lia|]. split; [exact R|]. split; [exact D|]. exact P.
  - intro Hx. rewrite Nx; [exact O5|]. intros x Hq. apply (Hx x). unfold excluded, gives. tauto.
  - split; assumption.
  - unfold same_parts. cbn [sRrules sExrules sRdates sExdates sRperiods sExperiods]. rewrite Mr, Mx. auto 10.
Qed.

(** Fuel. *)
Lemma rules_more n m rules start range off max : (n <= m)%nat -> forall include limited x,
  expand_rules tzo n rules start range off max include limited = Some x -> expand_rules tzo m rules start range off max include limited = Some x.
Proof.
  intro L. induction rules as [|[r c] t IH]; intros include limited x H; [exact H|]. cbn [expand_rules] in *.
  destruct (expand tzo n r c start range off max) as [[c' [items rr]]|] eqn:E; [|discriminate].
  rewrite (expand_more _ _ _ _ _ _ _ _ m _ E) by exact L. destruct rr as [l|]; [|exact H].
  destruct (expand_rules tzo n t start range off max (include ++ items) (l || limited)) as [[t' o]|] eqn:E2; [|discriminate].
  rewrite (IH _ _ _ E2). exact H.
Qed.
Lemma rset_more order n m s start range off max x : (n <= m)%nat -> rset_expand tzo order n s start range off max = Some x ->
  rset_expand tzo order m s start range off max = Some x.
Proof.
  unfold rset_expand. intros L H. destruct (isDateWithinPeriod tzo range start) as [w|]; [|exact H]. cbv zeta in *.
  destruct (expand_rules tzo n (sRrules s) _ range off max _ _) as [[rr [inc [lim|]]]|] eqn:E; [| |discriminate];
    rewrite (rules_more n m _ _ _ _ _ L _ _ _ E); [|exact H].
  destruct (finish_include tzo order s range max inc lim) as [[inc' lim']|]; [|exact H].
  destruct (expand_rules tzo n (sExrules s) _ range off None _ _) as [[xr [exc lx]]|] eqn:E2; [|discriminate].
  rewrite (rules_more n m _ _ _ _ _ L _ _ _ E2). exact H.
Qed.

Lemma new_known sc off start s : Forall (fun rc => snd rc = cache_init) (sRrules s ++ sExrules s) -> set_known sc off start s.
Proof.
  intro H. apply Forall_app in H as [H1 H2]. split; [clear H2|clear H1]; (eapply Forall_impl; [|eassumption]); intros [r c] E; cbn in *; subst; intro; discriminate.
Qed.
Lemma known_zone sc off z z' s : same_zone z z' -> set_known sc off z s -> set_known sc off z' s.
Proof.
  intros Zz [K1 K2]. assert (Q : forall r c, known_from sc off z r c -> known_from sc off z' r c).
  { intros r c K H. destruct (K H) as (s0 & a0 & I0 & Z0 & K0). exists s0, a0. split; [exact I0|]. split; [|exact K0].
    eapply RecurAgainProofs.zone_trans; eassumption. }
  split; (eapply Forall_impl; [|eassumption]); intros rc; apply Q.
Qed.
Lemma reachable_known sc off z order s : permutes order -> set_reachable tzo order sc off z s -> set_known sc off z s.
Proof.
  intros Ord H. induction H as [sc off z s H|sc off z s start range a w b fuel s' o R IH Zz C E|sc off z s s' R IH E|sc0 off0 z0 sc off z s R IH].
  - apply new_known, H.
  - destruct (set_again sc off s start range a w b order Ord (known_zone _ _ _ _ _ Zz IH) C) as (N & HN).
    destruct (HN (fuel + N)%nat ltac:(lia)) as (s2 & items & limited & E2 & _ & _ & _ & K & _).
    rewrite (rset_more order fuel (fuel + N)%nat _ _ _ _ _ _ ltac:(lia) E) in E2. injection E2 as <- _.
    eapply known_zone; [apply RecurAgainProofs.zone_sym, Zz|exact K].
  - destruct IH as [I1 I2]. assert (Q : forall rc, snd rc = cache_init \/ In rc (sRrules s ++ sExrules s) -> known_from sc off z (fst rc) (snd rc)).
    { intros [r c] [H|H]; [cbn in *; subst; intro; discriminate|]. unfold all_known in I1, I2. rewrite Forall_forall in I1, I2.
      apply in_app_or in H as [H|H]; [exact (I1 _ H)|exact (I2 _ H)]. }
    apply Forall_app in E as [E1 E2]. split; (eapply Forall_impl; [|eassumption]); exact Q.
  - split; unfold all_known, rset_changed; cbn [sRrules sExrules]; rewrite Forall_map; apply Forall_forall; intros [r c] _; intro; discriminate.
Qed.
Lemma set_expand sc off s start range a w b order : permutes order -> set_reachable tzo order sc off start s -> set_call tzo sc off s start range a w b ->
  exists N, forall fuel, (N <= fuel)%nat -> exists s' items limited,
    rset_expand tzo order fuel s start range off None = Some (s', (items, Ok limited)) /\
    holds_exactly sc items (fun x => included sc off start a w b s x /\ ~ excluded sc off start a w b s x) /\
    (limited = false -> w <= a < b /\ (forall r c x, In (r, c) (sRrules s) -> rule_gives sc off start a r x -> w <= x < b) /\
       (forall x, date_gives sc (sRdates s) x -> w <= x < b) /\
       (forall p x e y, In p (sRperiods s) -> instant sc (pStart p) x -> snd (getEnd p) = Ok e -> instant sc e y -> x < b /\ w < y)) /\
    ((forall x, ~ excluded sc off start a w b s x) -> in_order tzo items).
Proof.
  intros Ord R C. destruct (set_again sc off s start range a w b order Ord (reachable_known _ _ _ _ _ Ord R) C) as (N & HN).
  exists N. intros fuel Hf. destruct (HN fuel Hf) as (s' & items & limited & E & (xs & F & Nd & M) & L & O & _). exists s', items, limited.
  split; [exact E|]. split; [|auto]. exists xs. split; [|auto]. clear -F. induction F as [|d x l xs G F IH]; constructor; [apply G|exact IH].
Qed.
End WithTz.
