(** Rules with or without BY parts that are expanded again: what their caches hold. *)
From Coq Require Import Lia ZifyBool ZifyNat Sorting.Sorted.
From Verif Require Import PyBase PyProofs CalModel CalSpec DateTimeModel DateTimeSpec DateTimeSpec2 DateTimeOps CalProofs DateTimeProofs
  DateTimeOpsProofs PeriodModel PeriodSpec PeriodProofs RecurModel RecurTextProofs2 RecurExpand RecurExpandSpec RecurSetSpec RecurSortProofs
  RecurSimpleProofs RecurCacheProofs RecurMiscProofs RecurByPartsSpec RecurByPartsProofs3 RecurKeepProofs RecurSetModel RecurUnionSpec.
Ltac Zify.zify_post_hook ::= Z.div_mod_to_equations.

Section WithTz.
Variable tzo : tzid -> Z -> Z -> Z -> Z -> Z -> Z -> bool -> bool -> Z.
Variables (sc : scale) (off : Z).
Hypothesis NO : sc <> Offsets.

(** On the scale, in the zone of start and with coherent caches. *)
Definition good (start d : dt) (x : Z) : Prop := instant sc d x /\ same_zone start d /\ coherent tzo d.

Lemma zone_trans d e f : same_zone d e -> same_zone e f -> same_zone d f.
Proof. intros [A B] [C D]. split; congruence. Qed.
Lemma zone_sym d e : same_zone d e -> same_zone e d.
Proof. intros [A B]. split; congruence. Qed.
Lemma start_visible d e x : instant sc d x -> instant sc e x -> same_zone d e -> visible d = visible e.
Proof.
  intros I I' [Z1 Z2]. destruct (instant_same sc d e x NO I I') as [E1 E2].
  apply instant_iff in I as (_ & S & _); [|exact NO]. apply instant_iff in I' as (_ & S' & _); [|exact NO].
  unfold visible. rewrite E1, E2. replace (mDateOnly e) with (mDateOnly d); [congruence|]. destruct sc; cbn in S, S'; intuition congruence.
Qed.
Lemma gives_visible s s' a r x : visible s = visible s' -> rule_gives sc off s a r x -> rule_gives sc off s' a r x.
Proof.
  intro V. destruct s, s'. unfold visible, ymd in V. cbn in V. injection V as -> -> -> -> -> -> -> -> ->.
  destruct sc; [intro H; exact H|intro H; exact H|congruence].
Qed.
Lemma good_zip start l xs : Forall2 (instant sc) l xs -> Forall (fun d => coherent tzo d /\ same_zone start d) l -> Forall2 (good start) l xs.
Proof. induction 1 as [|d x l xs I F IH]; intro H; [constructor|]. inversion H as [|? ? [C Z] H']; subst. constructor; [split; [exact I|split; [exact Z|exact C]]|auto]. Qed.
Lemma good_instants start l xs : Forall2 (good start) l xs -> Forall2 (instant sc) l xs /\ Forall (fun d => coherent tzo d /\ same_zone start d) l.
Proof. induction 1 as [|d x l xs (I & Z & C) F [IH1 IH2]]; split; constructor; auto. Qed.
Lemma good_start s s' l xs : same_zone s s' -> Forall2 (good s) l xs -> Forall2 (good s') l xs.
Proof.
  intros Z F. induction F as [|d x l xs (I & Z' & C) F IH]; constructor; auto. split; [exact I|]. split; [|exact C].
  eapply zone_trans; [apply zone_sym, Z|exact Z'].
Qed.

(** What the cache of the rule r may hold, when it was last expanded from start (instant a). *)
Definition known (R : Z -> Z -> Prop) (start : dt) (a : Z) (r : rule) (c : rcache) : Prop :=
  cCached c = true -> exists st e b zs,
    cStart c = Some st /\ instant sc st a /\ cUpto c = Some e /\ instant sc e b /\
    Forall2 (good start) (cRecs c) zs /\ StronglySorted R zs /\
    (forall x, In x zs <-> rule_gives sc off start a r x /\ x < b) /\
    (cFully c = true -> forall x, rule_gives sc off start a r x -> x < b).

Lemma known_init R start a r : known R start a r cache_init.
Proof. intro H. discriminate. Qed.

(** The instances of a call. *)
Lemma call_computes start range a w b r : rule_call tzo sc off start range a w b r -> instant sc start a ->
  exists N, forall fuel, (N <= fuel)%nat -> exists recs full zs,
  compute tzo fuel r (normalise start) range off None = Some (recs, Ok full) /\
  Forall2 (good start) recs zs /\ StronglySorted Z.le zs /\
  (forall x, In x zs <-> rule_gives sc off start a r x /\ x < b) /\
  (full = true -> forall x, rule_gives sc off start a r x -> x < b).
Proof.
  intros (lim & H) Ia.
  assert (Gv : forall lim', until_at sc start off r lim' -> lim' = lim).
  { intros lim' U. eapply (lim_fun sc off r start start); [exact NO|reflexivity|exact U|].
    destruct H as [H|[H _]]; unfold call_ok, by_call in H; tauto. }
  assert (U : until_at sc start off r lim) by (destruct H as [H|[H _]]; unfold call_ok, by_call in H; tauto).
  destruct H as [H|[H CO]].
  - assert (HB : hasBy r = false) by apply H.
    assert (Eq : forall x, rule_gives sc off start a r x <-> instances sc r lim start x).
    { intro x. unfold rule_gives. rewrite HB. split; [intros (l & Ul & Hx); rewrite (Gv l Ul) in Hx; exact Hx|]. intro Hx. exists lim. auto. }
    destruct H as (_ & _ & Ad & _ & (e & E & Ie) & Iw & _).
    destruct (norm_same sc start a NO Ia) as [In Fn].
    assert (Un : until_at sc (normalise start) off r lim) by (eapply until_norm; eauto).
    assert (An : advances sc r (normalise start)) by (apply (advances_same sc r start (normalise start) a); auto).
    destruct (simple_spec tzo sc r (normalise start) range e off a b lim NO An In E Ie Un) as (recs & full & N & (xs & F & S & M) & F1 & _ & R & _).
    assert (Inst : forall x, instances sc r lim (normalise start) x <-> instances sc r lim start x) by (intro x; split; apply instances_same with (a := a); auto).
    exists N. intros fuel Hf. exists recs, full, xs.
    assert (C : compute tzo fuel r (normalise start) range off None = Some (recs, Ok full)).
    { unfold compute. rewrite HB. cbn [negb]. apply R; [exact Hf|exact I]. }
    split; [exact C|]. split; [apply good_zip; [exact F|]; eapply compute_zone; [|exact C]; congruence|]. split.
    + clear - S. induction S as [|x xs S IH F]; constructor; [exact IH|]. eapply Forall_impl; [|exact F]. intros; lia.
    + split; [intro x; rewrite M, Inst, Eq; reflexivity|]. intros L x Hx. apply F1; [exact L|]. apply Inst, Eq, Hx.
  - assert (HB : hasBy r = true) by apply H.
    assert (Eq : forall x, rule_gives sc off start a r x <-> by_instances sc r lim start a x).
    { intro x. unfold rule_gives. rewrite HB. split; [intros (l & Ul & Hx); rewrite (Gv l Ul) in Hx; exact Hx|]. intro Hx. exists lim. auto. }
    destruct (computes_le tzo sc off r start range lim a w b H CO) as (N & HN). exists N. intros fuel Hf.
    destruct (HN fuel Hf) as (recs & full & zs & C & F & S & M & L). exists recs, full, zs.
    split; [exact C|]. split; [apply good_zip; [exact F|]; eapply compute_zone; [|exact C]; intros _; destruct H as (_ & _ & H & _); apply H|].
    split; [exact S|]. split; [intro x; rewrite M, Eq; reflexivity|]. intros Lf x Hx. apply L; [exact Lf|]. apply Eq, Hx.
Qed.

Lemma in_range_good start range e w b b' recs xs R (P : Z -> Prop) full :
  snd (getEnd range) = Ok e -> instant sc (pStart range) w -> instant sc e b ->
  Forall2 (good start) recs xs -> StronglySorted R xs -> (forall x, In x xs <-> P x /\ x < b') ->
  (full = true -> forall x, P x -> x < b') -> full = true \/ b <= b' ->
  exists sel limited ys, in_range tzo range recs (negb full) [] = (sel, Ok limited) /\
  Forall2 (good start) sel ys /\ StronglySorted R ys /\ (forall x, In x ys <-> P x /\ w <= x < b) /\
  (limited = false -> forall x, P x -> w <= x < b).
Proof.
  intros E Iw Ie F S M Full Hb. apply good_instants in F as [F Z].
  destruct (in_range_by tzo sc range e w b b' recs xs R P full E Iw Ie F S M Full Hb) as (sel & limited & ys & X & H1 & H2 & H3 & H4).
  exists sel, limited, ys. split; [exact X|]. split; [|auto]. apply good_zip; [exact H1|].
  pose proof (in_range_keep tzo (fun d => coherent tzo d /\ same_zone start d) range recs (negb full) [] Z (Forall_nil _)) as K.
  rewrite X in K. exact K.
Qed.

(** Expansion of a rule whose cache was filled from start0. *)
Lemma again start0 a0 start range a w b r c : instant sc start0 a0 -> instant sc start a -> same_zone start0 start ->
  (exists e, snd (getEnd range) = Ok e /\ instant sc e b) -> instant sc (pStart range) w ->
  known Z.le start0 a0 r c -> rule_call tzo sc off start range a w b r ->
  exists N, forall fuel, (N <= fuel)%nat -> exists c' items limited zs,
  expand tzo fuel r c start range off None = Some (c', (items, Ok limited)) /\
  Forall2 (good start) items zs /\ StronglySorted Z.le zs /\
  (forall x, In x zs <-> rule_gives sc off start a r x /\ w <= x < b) /\
  (limited = false -> forall x, rule_gives sc off start a r x -> w <= x < b) /\ known Z.le start a r c'.
Proof.
  intros I0 Ia Z0 (e & E & Ie) Iw G H.
  destruct (norm_same sc start a NO Ia) as [In Fn]. set (st := normalise start) in *.
  destruct (call_computes start range a w b r H Ia) as (N & HN). fold st in HN.
  assert (Fresh : forall fuel, (N <= fuel)%nat -> forall c0, exists c' sel limited zs,
    (match compute tzo fuel r st range off None with
      | None => None
      | Some (recs, Raise e) => Some (mkCache (cCached c0) (cStart c0) (cUpto c0) (cFully c0) recs, ([], Raise e))
      | Some (recs, Ok full) =>
        match snd (getEnd range) with
        | Raise e => Some (mkCache true (Some st) (cUpto c0) full recs, ([], Raise e))
        | Ok e =>
          let c := mkCache true (Some st) (Some e) full recs in
          Some (c, in_range tzo range recs (negb full) [])
        end
      end) = Some (c', (sel, Ok limited)) /\
    Forall2 (good start) sel zs /\ StronglySorted Z.le zs /\
    (forall x, List.In x zs <-> rule_gives sc off start a r x /\ w <= x < b) /\
    (limited = false -> forall x, rule_gives sc off start a r x -> w <= x < b) /\ known Z.le start a r c').
  { intros fuel Hf c0. destruct (HN fuel Hf) as (recs & full & zs & -> & F & S & M & Full). rewrite E. cbv zeta.
    destruct (in_range_good start range e w b b recs zs Z.le _ full E Iw Ie F S M Full ltac:(lia)) as (sel & limited & ys & -> & H1 & H2 & H3 & H4).
    eexists; exists sel, limited, ys; split; [reflexivity|]. do 4 (split; [assumption|]).
    intros _. exists st, e, b, zs. cbn [cStart cUpto cRecs cFully].
    exact (conj eq_refl (conj In (conj eq_refl (conj Ie (conj F (conj S (conj M Full))))))). }
  exists N. intros fuel Hf. unfold expand. fold st.
  assert (Cc : cCached c = true \/ cCached c = false) by (destruct (cCached c); auto).
  destruct Cc as [Cc|Cc].
  2: { assert (CS : check_start tzo c st = Ok c) by (unfold check_start; rewrite Cc; reflexivity). rewrite CS.
       assert (MC : must_compute tzo c range = Ok true) by (unfold must_compute; rewrite Cc; reflexivity). rewrite MC. exact (Fresh fuel Hf c). }
  unfold check_start at 1. rewrite Cc.
  destruct (G Cc) as (st' & e' & b' & zs & Es & Is & Eu & Iu & Fc & Sc & Mc & Full). rewrite Es.
  pose proof (instant_ops tzo _ _ _ _ _ In Is) as O. destruct O as (_ & _ & _ & _ & _ & ->). cbn [rbind].
  destruct (a0 - a =? 0) eqn:Ea; cbn [negb].
  2: { unfold must_compute. cbn [cCached negb]. match goal with |- context [mkCache false ?a ?b ?c ?d] => exact (Fresh fuel Hf (mkCache false a b c d)) end. }
  assert (a0 = a) by lia. subst a0.
  pose proof (start_visible start0 start a I0 Ia Z0) as V.
  assert (Gi : forall x, rule_gives sc off start0 a r x <-> rule_gives sc off start a r x).
  { intro x. split; apply gives_visible; [exact V|symmetry; exact V]. }
  assert (MC : must_compute tzo c range = if cFully c then Ok false else dt_lt tzo e' e).
  { unfold must_compute. rewrite Cc, Eu, E. reflexivity. }
  rewrite MC.
  pose proof (instant_ops tzo _ _ _ _ _ Iu Ie) as O. destruct O as (-> & _).
  pose proof (good_start _ _ _ _ Z0 Fc) as Fg.
  assert (Mg : forall x, List.In x zs <-> rule_gives sc off start a r x /\ x < b') by (intro x; rewrite Mc, Gi; reflexivity).
  assert (Fullg : cFully c = true -> forall x, rule_gives sc off start a r x -> x < b') by (intros L x Hx; apply Full; [exact L|apply Gi, Hx]).
  assert (Hit : cFully c = true \/ b <= b' -> exists c' sel limited zs,
     Some (c, in_range tzo range (cRecs c) (negb (cFully c)) []) = Some (c', (sel, Ok limited)) /\
    Forall2 (good start) sel zs /\ StronglySorted Z.le zs /\
    (forall x, List.In x zs <-> rule_gives sc off start a r x /\ w <= x < b) /\
    (limited = false -> forall x, rule_gives sc off start a r x -> w <= x < b) /\ known Z.le start a r c').
  { intro Hb. destruct (in_range_good start range e w b b' (cRecs c) zs Z.le _ (cFully c) E Iw Ie Fg Sc Mg Fullg Hb) as (sel & limited & ys & -> & H1 & H2 & H3 & H4).
    exists c, sel, limited, ys. split; [reflexivity|]. do 4 (split; [assumption|]). intros _. exists st', e', b', zs. auto 10. }
  assert (Fc' : cFully c = true \/ cFully c = false) by (destruct (cFully c); auto).
  destruct Fc' as [Fc'|Fc']; [assert (X : (if cFully c then Ok false else Ok (0 <? b - b')) = Ok false) by (rewrite Fc'; reflexivity); rewrite X; apply Hit; left; exact Fc'|].
  assert (X : (if cFully c then Ok false else Ok (0 <? b - b')) = Ok (0 <? b - b')) by (rewrite Fc'; reflexivity). rewrite X.
  destruct (0 <? b - b') eqn:Eb; [exact (Fresh fuel Hf c)|]. apply Hit. right. lia.
Qed.

(** Reachable caches. *)
Lemma call_window start range a w b r : rule_call tzo sc off start range a w b r ->
  (exists e, snd (getEnd range) = Ok e /\ instant sc e b) /\ instant sc (pStart range) w.
Proof. intros (lim & [H|[H _]]); [unfold call_ok in H; tauto|]. eapply call_end, H. Qed.
Lemma reachable_known z r c : rule_reachable tzo sc off z r c ->
  cCached c = true -> exists start a, instant sc start a /\ same_zone z start /\ known Z.le start a r c.
Proof.
  induction 1 as [r|r c start range a w b fuel c' o R IH C Ia Z X|r c s r' c' R IH X]; intro Hc.
  - discriminate.
  - destruct (call_window _ _ _ _ _ _ C) as [Ee Iw].
    assert (K : exists start0 a0, instant sc start0 a0 /\ same_zone z start0 /\ known Z.le start0 a0 r c).
    { destruct (cCached c) eqn:E; [apply IH; reflexivity|]. exists start, a. split; [exact Ia|]. split; [exact Z|]. intro. congruence. }
    destruct K as (start0 & a0 & I0 & Z0 & K). assert (Z1 : same_zone start0 start) by (eapply zone_trans; [apply zone_sym, Z0|exact Z]).
    destruct (again start0 a0 start range a w b r c I0 Ia Z1 Ee Iw K C) as (N & HN).
    destruct (HN (fuel + N)%nat ltac:(lia)) as (c2 & items & limited & zs & E2 & _ & _ & _ & _ & K2).
    rewrite (expand_more _ _ _ _ _ _ _ fuel (fuel + N)%nat _ X) in E2 by lia. injection E2 as <- _. exists start, a. auto.
  - unfold setAndClear in X. cbn [fst snd] in X. destruct (setter_differs tzo s r) as [[|]|]; cbn [rbind] in X; try discriminate; injection X as <- <-.
    + discriminate.
    + apply IH, Hc.
Qed.
Lemma expand_reached z r c start range a w b : rule_reachable tzo sc off z r c -> same_zone z start -> instant sc start a ->
  rule_call tzo sc off start range a w b r ->
  exists N, forall fuel, (N <= fuel)%nat -> exists c' items limited,
  expand tzo fuel r c start range off None = Some (c', (items, Ok limited)) /\
  lists_in_order sc items (fun x => rule_gives sc off start a r x /\ w <= x < b) /\
  (limited = false -> forall x, rule_gives sc off start a r x -> w <= x < b).
Proof.
  intros R Z Ia C. destruct (call_window _ _ _ _ _ _ C) as [Ee Iw].
  assert (K : exists start0 a0, instant sc start0 a0 /\ same_zone z start0 /\ known Z.le start0 a0 r c).
  { pose proof (reachable_known z r c R) as K. destruct (cCached c) eqn:E; [apply K; reflexivity|].
    exists start, a. split; [exact Ia|]. split; [exact Z|]. intro. congruence. }
  destruct K as (start0 & a0 & I0 & Z0 & K). assert (Z1 : same_zone start0 start) by (eapply zone_trans; [apply zone_sym, Z0|exact Z]).
  destruct (again start0 a0 start range a w b r c I0 Ia Z1 Ee Iw K C) as (N & HN). exists N. intros fuel Hf.
  destruct (HN fuel Hf) as (c' & items & limited & zs & E & F & S & M & L & _). exists c', items, limited. split; [exact E|]. split; [|exact L].
  exists zs. split; [apply (good_instants start), F|]. auto.
Qed.
End WithTz.
