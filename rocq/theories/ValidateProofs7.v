(** Proofs about validation: trees, the second run, and what a repair of UNTIL gives. *)
From Coq Require Import Lia ZifyBool ZifyNat.
From Verif Require Import CalSpec DateTimeSpec DateTimeSpec2 DateTimeProofs PyProofs LineProofs PropertyProofs ComponentProofs2 ComponentProofs3 ValidateModel ValidateSpec
  ValidateProofs ValidateProofs2 ValidateProofs3 ValidateProofs4 ValidateProofs5 ValidateProofs6.

Lemma forall2_in {A B : Type} (R : A -> B -> Prop) L l l' : incl l L -> Forall2 R l l' -> Forall2 (fun x x' => In x L /\ R x x') l l'.
Proof.
  intros I F. induction F as [|x y l l' Q F IH]; constructor; [split; [apply I; left; reflexivity|assumption]|].
  apply IH. intros z J. apply I. right. assumption.
Qed.

Section Tree.
Variable tzo : tzid -> Z -> Z -> Z -> Z -> Z -> Z -> bool -> bool -> Z.
Variable order : list (list prop) -> list (list prop).

Lemma readonly c : forall parent, fst (validate tzo order false parent c) = c.
Proof.
  induction c as [k s ps subs IH] using comp_tree_ind. intro parent. cbn [validate].
  pose proof (cardinality_readonly k s ps) as E1. destruct (check_cardinality k s false ps) as [ps1 [[f1 u1]|e]]; cbn [fst] in E1; subst ps1; [|reflexivity].
  destruct (check_values _ _) as [u2|e]; [|reflexivity].
  assert (E3 : fst (each (validate tzo order false (Some ps)) subs) = subs).
  { apply each_id. eapply Forall_impl; [|exact IH]. intros c H. apply H. }
  destruct (each _ subs) as [subs' [[f3 u3]|e]]; cbn [fst] in E3; subst subs'; [|reflexivity].
  pose proof (until_readonly tzo k s ps) as E4. destruct (check_until tzo k s false ps) as [ps2 [[f4 u4]|e]]; cbn [fst] in E4; subst ps2; [|reflexivity].
  pose proof (extra_readonly k parent subs ps) as E5. destruct (extra k false parent subs ps) as [ps3 [f5 u5]]. cbn [fst] in E5. subst ps3. reflexivity.
Qed.
Lemma no_fix doFix c : forall parent c' u, validate tzo order doFix parent c = (c', Ok ([], u)) -> c' = c.
Proof.
  induction c as [k s ps subs IH] using comp_tree_ind. intros parent c' u H. cbn [validate] in H.
  destruct (check_cardinality k s doFix ps) as [ps1 [[f1 u1]|e]] eqn:E1; [|discriminate].
  destruct (check_values _ _) as [u2|e]; [|discriminate].
  destruct (each _ subs) as [subs' [[f3 u3]|e]] eqn:E3; [|discriminate].
  destruct (check_until tzo k s doFix ps1) as [ps2 [[f4 u4]|e]] eqn:E4; [|discriminate].
  destruct (extra k doFix parent subs' ps2) as [ps3 [f5 u5]] eqn:E5. apply triple in H as (<- & H & _).
  apply app_eq_nil in H as [-> H]. apply app_eq_nil in H as [-> H]. apply app_eq_nil in H as [-> ->].
  apply cardinality_none in E1. apply until_none in E4. apply extra_none in E5. apply each_none in E3; [congruence|].
  intros c I c'' ui E. rewrite Forall_forall in IH. eapply IH; eassumption.
Qed.

Hypothesis any_order : forall l, Permutation (order l) l.
Definition ok_parent (parent : option props) : Prop := forall pp, parent = Some pp -> tidy_props pp.
Lemma ok_some ps : tidy_props ps -> ok_parent (Some ps).
Proof. intros T pp E. assert (ps = pp) by congruence. subst. exact T. Qed.

Lemma reports doFix c : forall parent c' f u, tidy c -> ok_parent parent ->
  validate tzo order doFix parent c = (c', Ok (f, u)) ->
  tidy c' /\ (doFix = true -> repaired (moved tzo) c c') /\
  (forall m, In m f <-> doFix = true /\ tree_problem parent c Repaired m) /\
  (forall m, In m u <-> if doFix then tree_problem parent c Stays m \/ tree_problem parent c GoneReported m else exists o, tree_problem parent c o m).
Proof.
  induction c as [k s ps subs IH] using comp_tree_ind. intros parent c' f u T TP H. inversion T as [? ? ? ? TK TS]; subst. clear T.
  destruct (one tzo order any_order _ _ _ _ _ _ _ _ _ TK TP H) as (ps1 & ps' & subs' & fs & us & -> & E & T1 & M & T' & R & F & U).
  destruct (each_ok _ _ _ _ _ E) as (E1 & E2 & E3). rewrite Forall_forall in IH, TS.
  assert (PM : meth (Some ps) (Some ps1)) by (cbv beta iota delta [meth]; congruence).
  assert (IH' : forall c c'' fi ui, In c subs -> validate tzo order doFix (Some ps1) c = (c'', Ok (fi, ui)) ->
    tidy c'' /\ (doFix = true -> repaired (moved tzo) c c'') /\
    (forall m, In m fi <-> doFix = true /\ tree_problem (Some ps) c Repaired m) /\
    (forall m, In m ui <-> if doFix then tree_problem (Some ps) c Stays m \/ tree_problem (Some ps) c GoneReported m else exists o, tree_problem (Some ps) c o m)).
  { intros c c'' fi ui I V. destruct (IH c I _ _ _ _ (TS c I) (ok_some _ T1) V) as (A & B & C & D). split; [assumption|]. split; [assumption|]. split.
    - intro m. rewrite C, (tree_parent _ _ c Repaired m PM). tauto.
    - intro m. rewrite D. destruct doFix.
      + rewrite !(tree_parent _ _ c _ m PM). tauto.
      + split; intros [o Q]; exists o; apply (tree_parent _ _ c o m PM); exact Q. }
  assert (TOT : forall c, In c subs -> exists c'' fi ui, validate tzo order doFix (Some ps1) c = (c'', Ok (fi, ui))).
  { intros c I. clear - E1 I. induction E1 as [|x y l l' (fi & ui & Q) E1 IHE]; [destruct I|]. destruct I as [<-|I]; [eauto|apply IHE; assumption]. }
  split; [|split; [|split]].
  - constructor; [assumption|]. clear - E1 IH'.
    assert (G : Forall2 (fun x x' => In x subs /\ exists fi ui, validate tzo order doFix (Some ps1) x = (x', Ok (fi, ui))) subs subs').
    { apply forall2_in; [apply incl_refl|exact E1]. }
    clear E1. set (L := subs) in G at 1, IH'. clearbody L. induction G as [|x y l l' (I & fi & ui & Q) G IHG]; constructor; [|assumption]. destruct (IH' _ _ _ _ I Q) as [A _]. exact A.
  - intros ->. constructor.
    + clear - E1 IH'.
      assert (G : Forall2 (fun x x' => In x subs /\ exists fi ui, validate tzo order true (Some ps1) x = (x', Ok (fi, ui))) subs subs').
      { apply forall2_in; [apply incl_refl|exact E1]. }
      clear E1. set (L := subs) in G at 1, IH'. clearbody L. induction G as [|x y l l' (I & fi & ui & Q) G IHG]; constructor; [|assumption]. destruct (IH' _ _ _ _ I Q) as (_ & A & _). apply A. reflexivity.
    + intro n. rewrite (named_get n ps') by assumption. apply R. reflexivity.
  - intro m. rewrite F, E2, tree_inv. split.
    + intros [[D P]|(x & x' & fi & ui & I & V & J)]; [auto|]. destruct (IH' _ _ _ _ I V) as (_ & _ & C & _). apply C in J as [D J]. split; [assumption|].
      right. exists x. auto.
    + intros [D [P|(x & I & J)]]; [auto|]. right. destruct (TOT x I) as (x' & fi & ui & V). destruct (IH' _ _ _ _ I V) as (_ & _ & C & _).
      exists x, x', fi, ui. rewrite C. auto.
  - intro m. rewrite U, E3. destruct doFix.
    + rewrite !tree_inv. split.
      * intros [[P|P]|(x & x' & fi & ui & I & V & J)]; [auto|auto|]. destruct (IH' _ _ _ _ I V) as (_ & _ & _ & C). apply C in J as [J|J]; [left|right]; right; exists x; auto.
      * intros [[P|(x & I & J)]|[P|(x & I & J)]]; [auto| |auto|]; right; destruct (TOT x I) as (x' & fi & ui & V); destruct (IH' _ _ _ _ I V) as (_ & _ & _ & C);
          exists x, x', fi, ui; rewrite C; auto.
    + split.
      * intros [[o P]|(x & x' & fi & ui & I & V & J)]; [exists o; apply tree_inv; auto|]. destruct (IH' _ _ _ _ I V) as (_ & _ & _ & C).
        apply C in J as [o J]. exists o. apply tree_inv. right. exists x. auto.
      * intros [o P]. apply tree_inv in P as [P|(x & I & J)]; [left; exists o; assumption|]. right. destruct (TOT x I) as (x' & fi & ui & V).
        destruct (IH' _ _ _ _ I V) as (_ & _ & _ & C). exists x, x', fi, ui. rewrite C. eauto.
Qed.

(** ** The second run. *)
Section Change.
Variable change : dt -> dt -> dt -> Prop.
Hypothesis matches : forall start u u', change start u u' -> mDateOnly u' = mDateOnly start.
Lemma repaired_kind c c' : repaired change c c' -> cKind c' = cKind c.
Proof. intro R. destruct R. reflexivity. Qed.
Lemma repaired_kinds l l' : Forall2 (repaired change) l l' -> map cKind l' = map cKind l.
Proof. induction 1 as [|x y l l' R F IH]; [reflexivity|]. cbn [map]. rewrite IH, (repaired_kind _ _ R). reflexivity. Qed.
Lemma tree_settles c : forall c', repaired change c c' -> forall parent parent' o m, meth parent parent' ->
  tree_problem parent' c' o m <-> o = Stays /\ tree_problem parent c Stays m.
Proof.
  induction c as [k s ps subs IH] using comp_tree_ind. intros c' R parent parent' o m M.
  inversion R as [? ? ? ? ps' subs' F P E1 E2]; subst. rewrite !tree_inv, (settles change matches k s ps ps' P parent' subs subs' o m (repaired_kinds _ _ F)).
  rewrite <- (problem_parent _ _ k s ps subs Stays m M).
  assert (ME : meth (Some ps) (Some ps')).
  { cbv beta iota delta [meth]. symmetry. apply (plain_same change k s ps ps' P). intro Q. repeat (destruct Q as [Q|Q]; [discriminate Q|]). contradiction. }
  assert (B : (exists c, In c subs' /\ tree_problem (Some ps') c o m) <-> o = Stays /\ exists c, In c subs /\ tree_problem (Some ps) c Stays m).
  { clear R P. induction F as [|x y l l' R F IHF].
    - split; [intros (c & [] & _)|intros (_ & c & [] & _)].
    - inversion IH as [|? ? IH1 IH2]; subst. specialize (IHF IH2). pose proof (IH1 y R _ _ o m ME) as Q. split.
      + intros (c & [<-|I] & J); [apply Q in J as [-> J]; split; [reflexivity|]; exists x; split; [left; reflexivity|assumption]|].
        destruct (proj1 IHF (ex_intro _ c (conj I J))) as (-> & d & I' & J'). split; [reflexivity|]. exists d. split; [right; assumption|assumption].
      + intros (-> & c & [<-|I] & J).
        * exists y. split; [left; reflexivity|]. apply Q. auto.
        * destruct (proj2 IHF (conj eq_refl (ex_intro _ c (conj I J)))) as (d & I' & J'). exists d. split; [right; assumption|assumption]. }
  rewrite B. tauto.
Qed.
Lemma ready_after k s ps ps' : (forall n, props_repaired change (family_of k s) s ps n (named n ps')) -> ready_props ps -> ready_props ps'.
Proof.
  intros P [A B]. split.
  - intros n p E I. apply (A n); [assumption|]. rewrite (plain_same change k s ps ps' P n) in I; [assumption|].
    destruct E as [->| ->]; intro Q; repeat (destruct Q as [Q|Q]; [discriminate Q|]); exact Q.
  - intros p r I V W. destruct (P (lit "RRULE")) as [L Z|Q R' M' C'|X|start l Q R' S' F|Q1 Q2 Q3 Q4].
    + not_text L.
    + discriminate Q.
    + destruct I.
    + clear - F B I V W. assert (B' : forall q r, In q (named (lit "RRULE") ps) -> pValue q = Some (Single (VRecur r)) -> rUseUntil r = true -> rUntil r <> None) by exact B.
      clear B. revert B'. induction F as [|q q' l l' RR F IH]; intro B'; [destruct I|]. destruct I as [->|I].
      * destruct RR as [[_ ->]|(r1 & r' & v & v' & M & C & _ & _ & V' & E & _)]; [apply (B' q); [left; reflexivity|assumption|assumption]|].
        rewrite V in V'. assert (r' = r) by congruence. subst r'. rewrite E. discriminate.
      * apply IH; [assumption|]. intros q1 r1 J. apply B'. right. assumption.
    + apply (B p); assumption.
Qed.
Lemma status_after k s ps ps' : (forall n, props_repaired change (family_of k s) s ps n (named n ps')) -> status_props ps -> status_props ps'.
Proof.
  intros P A M. unfold many in M. revert M. destruct (P (lit "STATUS")) as [L Z|Q R' M' C'|X|start l Q R' S' F|Q1 Q2 Q3 Q4]; intros M.
  - not_text L.
  - cbn in M. lia.
  - cbn in M. lia.
  - discriminate Q.
  - apply A. exact M.
Qed.
Lemma everywhere_after (P : props -> Prop) :
  (forall k s ps ps', (forall n, props_repaired change (family_of k s) s ps n (named n ps')) -> P ps -> P ps') ->
  forall c c', repaired change c c' -> everywhere P c -> everywhere P c'.
Proof.
  intro A. induction c as [k s ps subs IH] using comp_tree_ind. intros c' R E. inversion R as [? ? ? ? ps' subs' F Q E1 E2]; subst.
  inversion E as [? ? ? ? B C]; subst. constructor; [eapply A; eassumption|]. clear - IH F C.
  induction F as [|x y l l' R F IHF]; [constructor|]. inversion IH; subst. inversion C; subst. constructor; auto.
Qed.
End Change.

(** ** When nothing raises. *)
Lemma total doFix c : forall parent, tidy c -> ok_parent parent -> everywhere ready_props c -> (doFix = true -> everywhere status_props c) ->
  exists c' f u, validate tzo order doFix parent c = (c', Ok (f, u)).
Proof.
  induction c as [k s ps subs IH] using comp_tree_ind. intros parent T TP R S. inversion T as [? ? ? ? TK TS]; subst. clear T.
  inversion R as [? ? ? ? [RV RU] RS]; subst. clear R. cbn [validate].
  destruct (cardinality_total k s doFix ps TK) as (ps1 & f1 & u1 & E1).
  { intro D. specialize (S D). inversion S; subst. assumption. }
  rewrite E1. destruct (cardinality_ok _ _ _ _ _ _ _ TK E1) as (T1 & _ & _ & SAME & _).
  assert (SN : forall n, ~ listed exactly_once_text n (family_of k s) -> n <> lit "STATUS" -> getProperties n ps1 = getProperties n ps).
  { intros n Q1 Q2. apply SAME; [intros (_ & Q & _)|intros (_ & Q & _)]; contradiction. }
  destruct (values_total k (List.concat (order (map snd ps1)))) as (u2 & ->).
  { intros p I N. apply (RV (upper (pName p))); [assumption|]. rewrite (order_in order any_order) in I.
    assert (J : In p (getProperties (upper (pName p)) ps1)) by (apply in_get; [assumption|split; [assumption|reflexivity]]).
    rewrite named_get, <- SN; [assumption| | |assumption].
    - intro L. apply no_text_name in L. destruct N as [N|N]; rewrite N in L; destruct L as [L|L]; discriminate L.
    - intro L. destruct N as [N|N]; rewrite N in L; discriminate L. }
  assert (E3 : Forall (fun x => exists x' fi ui, validate tzo order doFix (Some ps1) x = (x', Ok (fi, ui))) subs).
  { rewrite Forall_forall in *. intros c I. apply IH; auto using ok_some. intro D. specialize (S D). inversion S as [? ? ? ? _ S']; subst. rewrite Forall_forall in S'. auto. }
  destruct (each_total _ _ E3) as (subs' & f3 & u3 & ->).
  destruct (until_total tzo k s doFix ps1) as (ps2 & f4 & u4 & ->).
  { rewrite SN by ((intro L; not_text L) || discriminate). rewrite <- named_get by assumption. assumption. }
  destruct (extra k doFix parent subs' ps2) as [ps3 [f5 u5]]. eauto.
Qed.

(** ** What becomes of UNTIL. *)
Lemma moved_matches start u u' : moved tzo start u u' -> mDateOnly u' = mDateOnly start.
Proof.
  unfold moved, fix_until. intros ->. destruct (mDateOnly start) eqn:E; [reflexivity|]. cbv zeta.
  unfold setTimezone, setHHMMSS. cbn. destruct (_ || _); reflexivity.
Qed.
Lemma adjust_clock d : mDateOnly d = false -> valid_time (mHours d) (mMinutes d) (mSeconds d) ->
  (mTZOffset d = None \/ mTZOffset d = Some (zone_offset tzo (mTZUTC d, mTZID d) d)) ->
  valid_time (mHours (adjustToUTC tzo d)) (mMinutes (adjustToUTC tzo d)) (mSeconds (adjustToUTC tzo d)) /\
  3600 * mHours (adjustToUTC tzo d) + 60 * mMinutes (adjustToUTC tzo d) + mSeconds (adjustToUTC tzo d) = utc_seconds tzo d.
Proof.
  intros D V C. unfold adjustToUTC, utc_seconds. rewrite D. destruct (local d) eqn:L; cbn [andb negb].
  - assert (FL : floating d = false) by (unfold local, floating in *; destruct (mTZUTC d), (tz_true (mTZID d)); cbn in *; congruence). rewrite FL.
    assert (OFF : exists o, timeZoneSecondsOffset tzo d false = (with_tzoff d o, zone_offset tzo (mTZUTC d, mTZID d) d)).
    { unfold timeZoneSecondsOffset, zone_offset, tz_lookup in *. cbn [fst snd] in *. unfold local in L. destruct (mTZUTC d) eqn:U; [discriminate L|].
      destruct C as [C|C]; rewrite C; [eexists; reflexivity|]. exists (Some (match mTZID d with
       | TzInt n => n | t => tzo t (mYear d) (mMonth d) (mDay d) (mHours d) (mMinutes d) (mSeconds d) (mDateOnly d) false end)).
      rewrite <- C. destruct d; reflexivity. }
    destruct OFF as [o ->]. set (z := zone_offset _ _ _).
    pose proof (normalise_spec (with_hms (setTimezone (with_tzoff d o) true TzNone) (mHours d) (mMinutes d) (mSeconds d + - z))) as N. cbv zeta in N.
    destruct N as ((_ & VT & _) & _ & SE & _).
    change (offsetSeconds (setTimezone (with_tzoff d o) true TzNone) (- z)) with (normalise (with_hms (setTimezone (with_tzoff d o) true TzNone) (mHours d) (mMinutes d) (mSeconds d + - z))).
    set (r := normalise _) in *. assert (Q : forall c p t, mHours (with_tzoff (if mPosixTimeCached d then with_posix r c p else r) t) = mHours r /\
      mMinutes (with_tzoff (if mPosixTimeCached d then with_posix r c p else r) t) = mMinutes r /\ mSeconds (with_tzoff (if mPosixTimeCached d then with_posix r c p else r) t) = mSeconds r).
    { intros. destruct (mPosixTimeCached d); auto. }
    destruct (Q true (mPosixTime d) (Some 0)) as (-> & -> & ->). split; [assumption|].
    assert (SE' : secs_of_day r = (mHours d * 60 * 60 + mMinutes d * 60 + mSeconds d - z) mod 86400).
    { rewrite SE. replace (mDateOnly (with_hms _ _ _ _)) with false by (cbn; auto). unfold secs_of_day. cbn. f_equal. lia. }
    unfold secs_of_day in SE'. replace (3600 * mHours d + 60 * mMinutes d + mSeconds d - z) with (mHours d * 60 * 60 + mMinutes d * 60 + mSeconds d - z) by lia. rewrite <- SE'. lia.
  - split; [assumption|]. assert (Z0 : (if floating d then 0 else zone_offset tzo (mTZUTC d, mTZID d) d) = 0).
    { unfold local, floating, zone_offset in *. cbn [fst snd]. destruct (mTZUTC d); [reflexivity|]. destruct (tz_true (mTZID d)); [discriminate L|reflexivity]. }
    rewrite Z0, Z.sub_0_r. rewrite Z.mod_small; [reflexivity|]. destruct V as (V1 & V2 & V3). lia.
Qed.
Lemma moved_repaired start u u' : valid_time (mHours start) (mMinutes start) (mSeconds start) ->
  (mTZOffset start = None \/ mTZOffset start = Some (zone_offset tzo (mTZUTC start, mTZID start) start)) ->
  moved tzo start u u' -> until_repaired tzo start u u'.
Proof.
  intros V C M. split; [|split; [eapply moved_matches; exact M|]].
  - unfold moved, fix_until in M. subst u'. destruct (mDateOnly start); [reflexivity|]. cbv zeta. unfold setTimezone, setHHMMSS. cbn. destruct (_ || _); reflexivity.
  - intro D. destruct (adjust_clock start D V C) as [A B]. unfold moved, fix_until in M. rewrite D in M. cbv zeta in M.
    set (t := adjustToUTC tzo start) in *. assert (Q : mHours u' = mHours t /\ mMinutes u' = mMinutes t /\ mSeconds u' = mSeconds t /\ mTZUTC u' = true).
    { subst u'. unfold setTimezone, setHHMMSS. cbn. destruct (negb (mHours u =? mHours t) || negb (mMinutes u =? mMinutes t) || negb (mSeconds u =? mSeconds t)) eqn:E; cbn; [auto|].
      apply Bool.orb_false_iff in E as [E E3]. apply Bool.orb_false_iff in E as [E1 E2]. rewrite Bool.negb_false_iff, Z.eqb_eq in *. auto. }
    destruct Q as (-> & -> & -> & ->). auto.
Qed.
Lemma repaired_moved c : forall c', starts_ok tzo c -> repaired (moved tzo) c c' -> repaired (until_repaired tzo) c c'.
Proof.
  induction c as [k s ps subs IH] using comp_tree_ind. intros c' S R. inversion R as [? ? ? ? ps' subs' F P E1 E2]; subst. inversion S as [? ? ? ? SD SS]; subst. clear R S.
  constructor.
  - clear P. induction F as [|x y l l' R F IHF]; [constructor|]. inversion IH; subst. inversion SS; subst. constructor; auto.
  - intro n. destruct (P n) as [L Z|Q R' M' C'|X|start l Q R' S' G|Q1 Q2 Q3 Q4].
    + apply r_text; assumption.
    + apply r_status; assumption.
    + apply r_gone; assumption.
    + apply (r_until _ _ _ _ _ start); try assumption. destruct (SD _ S') as [V C]. clear - G V C.
      induction G as [|p p' l l' R G IHG]; constructor; [|assumption]. destruct R as [R|(r & r' & v & v' & M & Q & R)]; [left; exact R|right].
      exists r, r', v, v'. split; [assumption|]. split; [apply moved_repaired; assumption|assumption].
    + apply r_same; assumption.
Qed.
End Tree.
