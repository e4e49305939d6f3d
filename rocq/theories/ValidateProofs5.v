(** Proofs about validation: the whole report. *)
From Coq Require Import Lia ZifyBool ZifyNat.
From Verif Require Import PyProofs LineProofs PropertyProofs ComponentProofs2 ComponentProofs3 ValidateModel ValidateSpec
  ValidateProofs ValidateProofs2 ValidateProofs3 ValidateProofs4.

Lemma no_text_name k s n : listed exactly_once_text n (family_of k s) -> n = lit "DESCRIPTION" \/ n = lit "SUMMARY".
Proof. intros (fs & [H|[H|[]]] & _); pose proof (f_equal fst H) as E; cbn [fst] in E; [left|right]; congruence. Qed.
Ltac not_text H := let Q := fresh in pose proof (no_text_name _ _ _ H) as Q; destruct Q as [Q|Q]; discriminate Q.

Definition c_required k s ps m := exists n, listed exactly_once n (family_of k s) /\ many n ps <> 1%nat /\ m = says k (lit "Missing or too many required property") n.
Definition c_text_many k s ps m := exists n, listed exactly_once_text n (family_of k s) /\ (1 < many n ps)%nat /\ m = says k (lit "Too many required property") n.
Definition c_text_none k s ps m := exists n, listed exactly_once_text n (family_of k s) /\ many n ps = 0%nat /\ m = says k (lit "Missing required property") n.
Definition c_too_many k s ps m := exists n, listed at_most_once n (family_of k s) /\ (1 < many n ps)%nat /\ m = says k (lit "Too many properties present") n.
Definition c_none k s ps m := exists n, listed at_least_once n (family_of k s) /\ many n ps = 0%nat /\ m = says k (lit "Missing required property") n.
Definition c_status k s ps m := In (family_of k s) recurring /\ (1 < many (lit "STATUS") ps)%nat /\ m = says k (lit "Too many properties") (lit "STATUS").

Definition texted (doFix : bool) k s ps n : Prop := doFix = true /\ listed exactly_once_text n (family_of k s) /\ named n ps = [].
Definition statused (doFix : bool) k s ps n : Prop :=
  doFix = true /\ n = lit "STATUS" /\ In (family_of k s) recurring /\ (1 < many (lit "STATUS") ps)%nat /\ cancelled ps.

Lemma zero_named n ps : many n ps = 0%nat <-> named n ps = [].
Proof. unfold many. destruct (named n ps); cbn; split; congruence. Qed.

Lemma cardinality_ok k s doFix ps ps' f u : tidy_props ps -> check_cardinality k s doFix ps = (ps', Ok (f, u)) ->
  tidy_props ps' /\
  (forall n, texted doFix k s ps n -> getProperties n ps' = [text_property n []]) /\
  (forall n, statused doFix k s ps n -> getProperties n ps' = [text_property n (lit "CANCELLED")]) /\
  (forall n, ~ texted doFix k s ps n -> ~ statused doFix k s ps n -> getProperties n ps' = getProperties n ps) /\
  (forall m, In m f <-> doFix = true /\ (c_text_none k s ps m \/ (c_status k s ps m /\ cancelled ps))) /\
  (forall m, In m u <-> c_required k s ps m \/ c_text_many k s ps m \/ (doFix = false /\ c_text_none k s ps m) \/ c_too_many k s ps m \/
                        c_none k s ps m \/ (c_status k s ps m /\ ~ (doFix = true /\ cancelled ps))).
Proof.
  intros T H. unfold check_cardinality in H. destruct (text_table_ok k s) as [N U].
  destruct (fill_empty k doFix _ N U ps T) as (ps1 & f2 & u2 & E & T1 & G1 & _ & F2 & U2). rewrite E in H. clear E N U.
  assert (TX : forall n, texted doFix k s ps n -> getProperties n ps1 = [text_property n []]).
  { intros n (-> & L & Z). rewrite G1. unfold filled, countProperty. rewrite named_get in Z by assumption. rewrite Z. apply table_text in L.
    replace (existsb (beq n) (cardinality_1_Fix_Empty k s)) with true by (symmetry; apply existsb_beq; assumption). reflexivity. }
  assert (TN : forall n, ~ texted doFix k s ps n -> getProperties n ps1 = getProperties n ps).
  { intros n Q. rewrite G1. unfold filled. destruct (doFix && existsb (beq n) (cardinality_1_Fix_Empty k s) && (countProperty n ps =? 0)%nat) eqn:B; [|apply app_nil_r].
    exfalso. apply Q. apply Bool.andb_true_iff in B as [B B3]. apply Bool.andb_true_iff in B as [B1 B2]. apply existsb_beq, table_text in B2.
    split; [assumption|]. split; [assumption|]. rewrite named_get by assumption. apply Nat.eqb_eq in B3. unfold countProperty in B3. destruct (getProperties n ps); [reflexivity|discriminate]. }
  assert (M1 : forall n, (1 < many n ps1)%nat <-> (1 < many n ps)%nat).
  { intro n. rewrite !many_count by assumption. unfold countProperty. rewrite G1. unfold filled.
    destruct (doFix && existsb (beq n) (cardinality_1_Fix_Empty k s) && (countProperty n ps =? 0)%nat) eqn:B; [|rewrite app_nil_r; tauto].
    apply Bool.andb_true_iff in B as [_ B]. apply Nat.eqb_eq in B. unfold countProperty in B. rewrite app_length, B. cbn. lia. }
  assert (M0 : forall n, listed at_least_once n (family_of k s) -> many n ps1 = many n ps).
  { intros n L. rewrite !many_count by assumption. unfold countProperty. rewrite TN; [reflexivity|]. intros (_ & L2 & _).
    destruct L as (fs & [L|[]] & _). pose proof (f_equal fst L) as Q. cbn [fst] in Q. subst n. not_text L2. }
  assert (SN : getProperties (lit "STATUS") ps1 = getProperties (lit "STATUS") ps) by (apply TN; intros (_ & L & _); not_text L).
  assert (SM : many (lit "STATUS") ps1 = many (lit "STATUS") ps) by (rewrite !many_count by assumption; unfold countProperty; rewrite SN; reflexivity).
  assert (SC : cancelled ps1 <-> cancelled ps) by (unfold cancelled; rewrite !named_get, SN by assumption; tauto).
  assert (F2' : forall m, In m f2 <-> doFix = true /\ c_text_none k s ps m).
  { intro m. rewrite F2. split; intros (-> & n & I & J); (split; [reflexivity|]); exists n; rewrite table_text in *; split; assumption. }
  assert (U2' : forall m, In m u2 <-> c_text_many k s ps m \/ (doFix = false /\ c_text_none k s ps m)).
  { intro m. rewrite U2. split; (intros [(n & I & J)|(D & n & I & J)]; [left; exists n|right; split; [assumption|]; exists n]; rewrite table_text in *; split; assumption). }
  assert (U3 : forall m, In m (check_0_1 k s ps1) <-> c_too_many k s ps m).
  { intro m. rewrite in_check_0_1 by assumption. split; intros (n & I & J & K); exists n; rewrite M1 in *; repeat split; assumption. }
  assert (U4 : forall m, In m (check_1_More k s ps1) <-> c_none k s ps m).
  { intro m. rewrite in_check_1_More by assumption. split; intros (n & I & J & K); exists n; pose proof (M0 n I); repeat split; congruence. }
  pose proof (in_check_1 k s ps) as U1. clear F2 U2 G1.
  assert (B4 : forall m, In m (check_1 k s ps ++ u2 ++ check_0_1 k s ps1 ++ check_1_More k s ps1) <->
    c_required k s ps m \/ c_text_many k s ps m \/ (doFix = false /\ c_text_none k s ps m) \/ c_too_many k s ps m \/ c_none k s ps m).
  { intro m. rewrite !in_app_iff, U1, U2', U3, U4 by assumption. unfold c_required. clear. tauto. }
  destruct (is_recur k) eqn:R.
  - pose proof (proj1 (table_recur k s) R) as R'.
    destruct (check_STATUS k doFix ps1) as [ps2 [[f5 u5]|e]] eqn:E; [|discriminate]. apply triple in H as (<- & <- & <-).
    destruct (status_ok _ _ _ _ _ _ T1 E) as (T2 & S1 & S2 & S3 & F5 & U5). rewrite SM in *.
    assert (NS : forall n, texted doFix k s ps n -> n <> lit "STATUS") by (intros n (_ & L & _) ->; not_text L).
    split; [assumption|]. split; [|split; [|split; [|split]]].
    + intros n Q. rewrite S1 by (eapply NS; exact Q). apply TX. assumption.
    + intros n (-> & -> & _ & Q1 & Q2). apply S2; try reflexivity; try assumption; apply SC; assumption.
    + intros n Q1 Q2. destruct (name_dec n (lit "STATUS")) as [->|Q]; [|rewrite S1 by assumption; apply TN; assumption].
      rewrite S3; [exact SN|]. intros (-> & Q3 & Q4). apply Q2. repeat split; try assumption; apply SC; assumption.
    + intro m. rewrite in_app_iff, F2', F5, SC. unfold c_status. clear - R'. tauto.
    + intro m. rewrite in_app_iff, B4, U5, SC. unfold c_status. clear - R'. tauto.
  - apply triple in H as (<- & <- & <-). assert (R' : ~ In (family_of k s) recurring) by (rewrite <- table_recur; congruence).
    split; [assumption|]. split; [assumption|]. split; [intros n (_ & _ & Q & _); contradiction|]. split; [intros n Q _; apply TN; assumption|].
    split; intro m; [rewrite F2'|rewrite B4]; unfold c_status; clear - R'; tauto.
Qed.
Lemma cardinality_total k s doFix ps : tidy_props ps -> (doFix = true -> status_props ps) -> exists ps' f u, check_cardinality k s doFix ps = (ps', Ok (f, u)).
Proof.
  intros T H. unfold check_cardinality. destruct (text_table_ok k s) as [N U].
  destruct (fill_empty k doFix _ N U ps T) as (ps1 & f2 & u2 & -> & T1 & G1 & _).
  assert (SN : getProperties (lit "STATUS") ps1 = getProperties (lit "STATUS") ps).
  { rewrite G1. unfold filled. replace (existsb (beq (lit "STATUS")) (cardinality_1_Fix_Empty k s)) with false.
    - rewrite Bool.andb_false_r. apply app_nil_r.
    - symmetry. apply Bool.not_true_iff_false. rewrite existsb_beq, table_text. intro L. not_text L. }
  destruct (is_recur k); [|eauto]. destruct (status_total k doFix ps1 T1) as (ps2 & f5 & u5 & ->); [|eauto].
  intro D. specialize (H D). unfold status_props, many in *. rewrite !named_get in * by assumption. rewrite SN. exact H.
Qed.
Lemma fill_readonly k names ps : fst (check_1_Fix_Empty k false names ps) = ps.
Proof.
  induction names as [|n names IH]; [reflexivity|]. cbn [check_1_Fix_Empty].
  destruct (check_1_Fix_Empty k false names ps) as [ps' [f u]]. cbn in IH. subst ps'. destruct (1 <? _)%nat; [reflexivity|]. destruct (_ =? 0)%nat; reflexivity.
Qed.
Lemma fill_none k doFix names : forall ps ps' u, check_1_Fix_Empty k doFix names ps = (ps', ([], u)) -> ps' = ps.
Proof.
  induction names as [|n names IH]; intros ps ps' u H; cbn [check_1_Fix_Empty] in H; [congruence|].
  destruct (1 <? _)%nat; [|destruct (_ =? 0)%nat; [destruct doFix|]].
  - destruct (check_1_Fix_Empty k doFix names ps) as [ps1 [f1 u1]] eqn:E. apply pair_report in H as (-> & -> & _). eapply IH. exact E.
  - destruct (check_1_Fix_Empty k true names _) as [ps1 [f1 u1]]. apply pair_report in H as (_ & H & _). discriminate.
  - destruct (check_1_Fix_Empty k false names ps) as [ps1 [f1 u1]] eqn:E. apply pair_report in H as (-> & -> & _). eapply IH. exact E.
  - eapply IH. exact H.
Qed.
Lemma cardinality_readonly k s ps : fst (check_cardinality k s false ps) = ps.
Proof.
  unfold check_cardinality. pose proof (fill_readonly k (cardinality_1_Fix_Empty k s) ps) as E. destruct (check_1_Fix_Empty _ _ _ _) as [ps1 [f u]]. cbn in E. subst ps1.
  destruct (is_recur k); [|reflexivity]. pose proof (status_readonly k ps) as E. destruct (check_STATUS _ _ _) as [ps2 [[f5 u5]|e]]; exact E.
Qed.
Lemma cardinality_none k s doFix ps ps' u : check_cardinality k s doFix ps = (ps', Ok ([], u)) -> ps' = ps.
Proof.
  unfold check_cardinality. destruct (check_1_Fix_Empty _ _ _ _) as [ps1 [f1 u1]] eqn:E. destruct (is_recur k).
  - destruct (check_STATUS _ _ _) as [ps2 [[f5 u5]|e]] eqn:S; [|discriminate]. intro H. apply triple in H as (<- & H & _).
    apply app_eq_nil in H as [-> ->]. apply fill_none in E. apply status_none in S. congruence.
  - intro H. apply triple in H as (<- & -> & _). eapply fill_none. exact E.
Qed.

Section WithTz.
Variable tzo : tzid -> Z -> Z -> Z -> Z -> Z -> Z -> bool -> bool -> Z.
Variable order : list (list prop) -> list (list prop).
Hypothesis any_order : forall l, Permutation (order l) l.

Lemma order_in p (ps : props) : In p (List.concat (order (map snd ps))) <-> In p (List.concat (map snd ps)).
Proof.
  pose proof (any_order (map snd ps)) as P. rewrite !in_concat. split; intros (l & I & J); exists l; (split; [|assumption]);
    eapply Permutation_in; try eassumption. apply Permutation_sym. assumption.
Qed.
Definition checked_names : list bytes := map fst value_checks.
Lemma right_checked n v R : right_value n v = Some R -> In n checked_names.
Proof.
  intro H. pose proof (value_right n v) as V. destruct (assoc n value_checks) as [f|] eqn:E; [|congruence].
  apply assoc_some in E. unfold checked_names. apply in_map_iff. exists (n, f). split; [reflexivity|assumption].
Qed.
Lemma checked_other k s n : In n checked_names -> n <> lit "STATUS" /\ n <> lit "RRULE" /\ ~ listed exactly_once_text n (family_of k s) /\
  n <> lit "DTEND" /\ n <> lit "DURATION".
Proof.
  intro I. assert (Q : n <> lit "STATUS" /\ n <> lit "RRULE" /\ (n <> lit "DESCRIPTION" /\ n <> lit "SUMMARY") /\ n <> lit "DTEND" /\ n <> lit "DURATION").
  { vm_compute in I. repeat (destruct I as [<-|I]; [vm_compute; repeat split; discriminate|]). contradiction. }
  destruct Q as (Q1 & Q2 & [Q3 Q4] & Q5 & Q6). repeat split; try assumption. intro L. apply no_text_name in L as [L|L]; contradiction.
Qed.
Definition c_value k ps m := exists n p R, In p (named n ps) /\ right_value n (pValue p) = Some R /\ ~ R /\ m = says k (lit "Property value incorrect") n.
Definition c_until k s ps m := exists start p r v, In (family_of k s) recurring /\ sStart s = Some start /\ In p (named (lit "RRULE") ps) /\
  mismatch start p r v /\ m = until_msg k.

Lemma validate_kind doFix parent c : cKind (fst (validate tzo order doFix parent c)) = cKind c.
Proof.
  destruct c as [k s ps subs]. cbn [validate]. destruct (check_cardinality k s doFix ps) as [ps1 [[f1 u1]|e]]; [|reflexivity].
  destruct (check_values _ _); [|reflexivity]. destruct (each _ subs) as [subs' [[f3 u3]|e]]; [|reflexivity].
  destruct (check_until _ _ _ _ _) as [ps2 [[f4 u4]|e]]; [|reflexivity]. destruct (extra _ _ _ _ _) as [ps3 [f5 u5]]. reflexivity.
Qed.

Lemma one k s doFix parent ps subs c' f u : tidy_props ps -> (forall pp, parent = Some pp -> tidy_props pp) ->
  validate tzo order doFix parent (Comp k s ps subs) = (c', Ok (f, u)) ->
  exists ps1 ps' subs' fs us,
    c' = Comp k s ps' subs' /\ each (validate tzo order doFix (Some ps1)) subs = (subs', Ok (fs, us)) /\
    tidy_props ps1 /\ named (lit "METHOD") ps1 = named (lit "METHOD") ps /\ tidy_props ps' /\
    (doFix = true -> forall n, props_repaired (moved tzo) (family_of k s) s ps n (getProperties n ps')) /\
    (forall m, In m f <-> (doFix = true /\ problem parent k s ps subs Repaired m) \/ In m fs) /\
    (forall m, In m u <-> (if doFix then problem parent k s ps subs Stays m \/ problem parent k s ps subs GoneReported m
                           else exists o, problem parent k s ps subs o m) \/ In m us).
Proof.
  intros T TP H. cbn [validate] in H. destruct (check_cardinality k s doFix ps) as [ps1 [[f1 u1]|e]] eqn:E1; [|discriminate].
  destruct (check_values k (List.concat (order (map snd ps1)))) as [u2|e] eqn:E2; [|discriminate].
  destruct (each (validate tzo order doFix (Some ps1)) subs) as [subs' [[f3 u3]|e]] eqn:E3; [|discriminate].
  destruct (check_until tzo k s doFix ps1) as [ps2 [[f4 u4]|e]] eqn:E4; [|discriminate].
  destruct (extra k doFix parent subs' ps2) as [ps3 [f5 u5]] eqn:E5. apply triple in H as (<- & <- & <-).
  destruct (cardinality_ok _ _ _ _ _ _ _ T E1) as (T1 & A1 & A2 & A3 & A4 & A5).
  pose proof (values_ok _ _ _ E2) as B1. destruct (until_ok _ _ _ _ _ _ _ _ T1 E4) as (T2 & D1 & D2 & D3 & D4 & D5 & D6).
  destruct (extra_ok k s _ _ _ _ _ _ _ T2 TP E5) as (T3 & X1 & X2 & X3 & X4).
  assert (SAME1 : forall n, ~ listed exactly_once_text n (family_of k s) -> n <> lit "STATUS" -> getProperties n ps1 = getProperties n ps).
  { intros n Q1 Q2. apply A3; [intros (_ & Q & _)|intros (_ & Q & _)]; contradiction. }
  assert (RR : getProperties (lit "RRULE") ps1 = getProperties (lit "RRULE") ps) by (apply SAME1; [intro L; not_text L|discriminate]).
  assert (SAME2 : forall n, ~ listed exactly_once_text n (family_of k s) -> n <> lit "STATUS" -> n <> lit "RRULE" -> getProperties n ps2 = getProperties n ps).
  { intros n Q1 Q2 Q3. rewrite D1 by assumption. apply SAME1; assumption. }
  assert (N2 : forall n, ~ listed exactly_once_text n (family_of k s) -> n <> lit "STATUS" -> n <> lit "RRULE" -> named n ps2 = named n ps).
  { intros n Q1 Q2 Q3. rewrite !named_get by assumption. apply SAME2; assumption. }
  assert (END2 : named (lit "DTEND") ps2 = named (lit "DTEND") ps) by (apply N2; [intro L; not_text L|discriminate|discriminate]).
  assert (DUR2 : named (lit "DURATION") ps2 = named (lit "DURATION") ps) by (apply N2; [intro L; not_text L|discriminate|discriminate]).
  assert (DUE2 : named (lit "DUE") ps2 = named (lit "DUE") ps) by (apply N2; [intro L; not_text L|discriminate|discriminate]).
  assert (STA2 : named (lit "DTSTART") ps2 = named (lit "DTSTART") ps) by (apply N2; [intro L; not_text L|discriminate|discriminate]).
  assert (REP2 : named (lit "REPEAT") ps2 = named (lit "REPEAT") ps) by (apply N2; [intro L; not_text L|discriminate|discriminate]).
  assert (GW : forall n, gives_way (family_of k s) ps2 n <-> gives_way (family_of k s) ps n) by (intro n; rewrite !gives_way_kind, END2, DUR2, DUE2; tauto).
  assert (EX : forall n m, excluded k s ps2 n m <-> excluded k s ps n m).
  { intros n m. unfold excluded. split; intros (a & b & fs & I & J & K & L & M); exists a, b, fs; (split; [assumption|]); (split; [assumption|]);
      destruct I as [I|[I|[]]]; symmetry in I; pose proof (f_equal (fun x => fst (fst (fst x))) I) as I1; pose proof (f_equal (fun x => snd (fst (fst x))) I) as I2; cbn [fst snd] in I1, I2; subst a b; rewrite ?END2, ?DUR2, ?DUE2 in *; repeat split; assumption. }
  assert (KINDS : map cKind subs' = map cKind subs).
  { destruct (each_ok _ _ _ _ _ E3) as (Q & _ & _). clear - Q. induction Q as [|x y l l' (fi & ui & E) Q IH]; [reflexivity|]. cbn [map]. f_equal; [|exact IH].
    pose proof (validate_kind doFix (Some ps1) x) as K. rewrite E in K. exact K. }
  assert (NOB : forall m, no_observance k subs' m <-> no_observance k subs m).
  { intro m. unfold no_observance. assert (Q : forall P : kind -> Prop, (forall c, In c subs' -> P (cKind c)) <-> (forall c, In c subs -> P (cKind c))).
    { intro P. split; intros Q c I.
      - assert (J : In (cKind c) (map cKind subs')) by (rewrite KINDS; apply in_map; assumption). apply in_map_iff in J as (d & J & K). rewrite <- J. apply Q; assumption.
      - assert (J : In (cKind c) (map cKind subs)) by (rewrite <- KINDS; apply in_map; assumption). apply in_map_iff in J as (d & J & K). rewrite <- J. apply Q; assumption. }
    rewrite (Q (fun k => getType k <> lit "STANDARD" /\ getType k <> lit "DAYLIGHT")). tauto. }
  exists ps1, ps3, subs', f3, u3. split; [reflexivity|]. split; [exact E3|]. split; [assumption|].
  split; [rewrite !named_get by assumption; apply SAME1; [intro L; not_text L|discriminate]|]. split; [assumption|]. split; [|split].
  - (* repaired *)
    intros -> n. assert (GWN : ~ gives_way (family_of k s) ps n -> getProperties n ps3 = getProperties n ps2).
    { intro Q. apply X2. rewrite GW. intros [_ Q']. contradiction. }
    destruct (gives_way_dec k s ps n) as [W|W].
    { rewrite X1 by (try reflexivity; apply GW; assumption). apply r_gone. assumption. }
    rewrite GWN by assumption. clear GWN.
    assert (LD : listed exactly_once_text n (family_of k s) \/ ~ listed exactly_once_text n (family_of k s)).
    { rewrite listed_names. destruct (in_dec (list_eq_dec ascii_dec) n (names_for exactly_once_text (family_of k s))); [left|right]; assumption. }
    destruct (and_dec _ _ LD (match empty_dec (named n ps) with left H => or_introl H | right H => or_intror H end)) as [[L Z]|NT].
    { rewrite D1 by (intros ->; not_text L). rewrite A1 by (repeat split; assumption). apply r_text; assumption. }
    assert (RD : In (family_of k s) recurring \/ ~ In (family_of k s) recurring).
    { rewrite <- table_recur. destruct (is_recur k); [left; reflexivity|right; discriminate]. }
    destruct (name_dec n (lit "STATUS")) as [->|NS].
    { rewrite D1 by discriminate.
      destruct (and_dec _ _ RD (and_dec (1 < many (lit "STATUS") ps)%nat (cancelled ps) ltac:(lia) (cancelled_dec ps))) as [(Q1 & Q2 & Q3)|Q].
      - rewrite A2 by (repeat split; assumption). apply r_status; auto.
      - rewrite A3; [|intros (_ & Q1 & Q2); apply NT; split; assumption|intros (_ & _ & Q1); contradiction]. rewrite <- named_get by assumption.
        apply r_same; [assumption|intros (_ & Q1); contradiction|assumption|intros [Q1 _]; discriminate]. }
    assert (P1 : getProperties n ps1 = getProperties n ps).
    { apply A3; [intros (_ & Q1 & Q2); apply NT; split; assumption|intros (_ & Q & _); contradiction]. }
    destruct (name_dec n (lit "RRULE")) as [->|NR].
    { destruct RD as [R|R]; [destruct (sStart s) as [start|] eqn:S|].
      - apply (r_until _ _ _ _ _ start); auto. rewrite named_get by assumption. rewrite <- RR. apply D4; auto.
      - rewrite D3, P1, <- named_get by (assumption || (intros [_ Q]; apply Q; reflexivity)). apply r_same; [assumption|intros [Q _]; discriminate|assumption|].
        intros (_ & _ & Q). rewrite S in Q. apply Q. reflexivity.
      - rewrite D3, P1, <- named_get by (assumption || (intros [Q _]; contradiction)). apply r_same; [assumption|intros [Q _]; discriminate|assumption|].
        intros (_ & Q & _). contradiction. }
    rewrite D1, P1, <- named_get by assumption. apply r_same; [assumption|intros [Q _]; contradiction|assumption|intros [Q _]; contradiction].
  - (* fixed *)
    intro m. rewrite !in_app_iff, A4, D5, X3.
    assert (Q : problem parent k s ps subs Repaired m <-> c_text_none k s ps m \/ (c_status k s ps m /\ cancelled ps) \/ c_until k s ps m \/ exists n, excluded k s ps n m).
    { split.
      - intro P. inversion P; subst.
        + left. eexists. repeat split; eassumption.
        + right. left. repeat split; assumption.
        + right. right. left. do 4 eexists. repeat split; try eassumption; match goal with M : mismatch _ _ _ _ |- _ => apply M end.
        + right. right. right. do 4 eexists. repeat split; eassumption.
      - intros [(n & I & J & ->)|[((I & J & ->) & K)|[(start & p & r & v & I & J & K & L & ->)|(n & a & b & fs & I & J & K & L & ->)]]].
        + apply p_text_none; assumption.
        + apply p_status_cancelled; assumption.
        + eapply p_until; eassumption.
        + eapply p_exclusive; eassumption. }
    assert (CU : (exists start p r v, In (family_of k s) recurring /\ sStart s = Some start /\ In p (named (lit "RRULE") ps1) /\ mismatch start p r v /\ m = until_msg k) <-> c_until k s ps m).
    { unfold c_until. rewrite !named_get, RR by assumption. tauto. }
    assert (CX : (exists n, excluded k s ps2 n m) <-> exists n, excluded k s ps n m) by (split; intros [n I]; exists n; apply EX; exact I).
    rewrite Q, CU, CX. clear. tauto.
  - (* unfixed *)
    intro m. rewrite !in_app_iff, A5, D6, X4.
    assert (CV : In m u2 <-> c_value k ps m).
    { rewrite B1. split.
      - intros (p & R & I & J & K & ->). exists (upper (pName p)), p, R. rewrite order_in in I.
        destruct (checked_other k s _ (right_checked _ _ _ J)) as (Q1 & Q2 & Q3 & _).
        split; [|repeat split; assumption]. rewrite named_get, <- SAME1 by assumption. apply in_get; [assumption|]. split; [assumption|reflexivity].
      - intros (n & p & R & I & J & K & ->). destruct (checked_other k s _ (right_checked _ _ _ J)) as (Q1 & Q2 & Q3 & _).
        rewrite named_get, <- SAME1 in I by assumption. apply in_get in I as [I <-]; [|assumption]. exists p, R. rewrite order_in. repeat split; assumption. }
    assert (CU : (exists start p r v, In (family_of k s) recurring /\ sStart s = Some start /\ In p (named (lit "RRULE") ps1) /\ mismatch start p r v /\ m = until_msg k) <-> c_until k s ps m).
    { unfold c_until. rewrite !named_get, RR by assumption. tauto. }
    assert (CX : (exists n, excluded k s ps2 n m) <-> exists n, excluded k s ps n m) by (split; intros [n I]; exists n; apply EX; exact I).
    assert (CS : lacks_start parent k s ps2 m <-> lacks_start parent k s ps m) by (unfold lacks_start; rewrite STA2; tauto).
    assert (CT : forall b, todo_lacks b k s ps2 m <-> todo_lacks b k s ps m) by (intro b; unfold todo_lacks; rewrite STA2, DUR2, DUE2; tauto).
    assert (CA : apart k ps2 m <-> apart k ps m) by (unfold apart; rewrite DUR2, REP2; tauto).
    rewrite CV, CU, CX, CS, CT, CA, NOB. clear - T.
    assert (ST : problem parent k s ps subs Stays m <->
      c_required k s ps m \/ c_text_many k s ps m \/ (exists n, listed at_most_once n (family_of k s) /\ (1 < many n ps)%nat /\ ~ gives_way (family_of k s) ps n /\
        m = says k (lit "Too many properties present") n) \/ c_none k s ps m \/ (c_status k s ps m /\ ~ cancelled ps) \/ c_value k ps m \/
      lacks_start parent k s ps m \/ todo_lacks false k s ps m \/ apart k ps m \/ no_observance k subs m).
    { split.
      - intro P. inversion P; subst.
        + left. eexists. repeat split; eassumption.
        + right. left. eexists. repeat split; eassumption.
        + right. right. left. eexists. repeat split; eassumption.
        + do 3 right. left. eexists. repeat split; eassumption.
        + do 4 right. left. repeat split; assumption.
        + do 5 right. left. do 3 eexists. repeat split; eassumption.
        + do 6 right. left. eexists. repeat split; eassumption.
        + do 7 right. left. repeat split; auto.
        + do 8 right. left. repeat split; try assumption; match goal with M : _ <-> _ |- _ => apply M end.
        + do 9 right. repeat split; try assumption; match goal with M : forall c, In c subs -> _ |- _ => apply M; assumption end.
      - intros [(n & I & J & ->)|[(n & I & J & ->)|[(n & I & J & K & ->)|[(n & I & J & ->)|[((I & J & ->) & K)|[(n & p & R & I & J & K & ->)|[(pp & I & J & K & L & ->)|
          [(I & J & K & L & ->)|[(I & J & ->)|(I & J & ->)]]]]]]]]].
        + apply p_required; assumption.
        + apply p_text_many; assumption.
        + apply p_too_many; assumption.
        + apply p_none; assumption.
        + apply p_status; assumption.
        + eapply p_value; eassumption.
        + eapply p_start; eassumption.
        + apply p_todo_start; auto.
        + apply p_together; assumption.
        + apply p_no_observance; assumption. }
    assert (GR : problem parent k s ps subs GoneReported m <-> exists n, listed at_most_once n (family_of k s) /\ (1 < many n ps)%nat /\ gives_way (family_of k s) ps n /\
        m = says k (lit "Too many properties present") n).
    { split; [intro P; inversion P; subst; eexists; repeat split; eassumption|]. intros (n & I & J & K & ->). apply p_too_many_gone; assumption. }
    assert (GS : problem parent k s ps subs GoneSilently m <-> todo_lacks true k s ps m /\ named (lit "DUE") ps <> []).
    { split; [intro P; inversion P; subst; repeat split; try assumption; discriminate|]. intros ((I & J & K & _ & ->) & L). apply p_todo_start_gone; assumption. }
    assert (RE : problem parent k s ps subs Repaired m <-> c_text_none k s ps m \/ (c_status k s ps m /\ cancelled ps) \/ c_until k s ps m \/ exists n, excluded k s ps n m).
    { split.
      - intro P. inversion P; subst.
        + left. eexists. repeat split; eassumption.
        + right. left. repeat split; assumption.
        + right. right. left. do 4 eexists. repeat split; try eassumption; match goal with M : mismatch _ _ _ _ |- _ => apply M end.
        + right. right. right. do 4 eexists. repeat split; eassumption.
      - intros [(n & I & J & ->)|[((I & J & ->) & K)|[(start & p & r & v & I & J & K & L & ->)|(n & a & b & fs & I & J & K & L & ->)]]].
        + apply p_text_none; assumption.
        + apply p_status_cancelled; assumption.
        + eapply p_until; eassumption.
        + eapply p_exclusive; eassumption. }
    assert (TM : c_too_many k s ps m <-> (exists n, listed at_most_once n (family_of k s) /\ (1 < many n ps)%nat /\ ~ gives_way (family_of k s) ps n /\
        m = says k (lit "Too many properties present") n) \/ (exists n, listed at_most_once n (family_of k s) /\ (1 < many n ps)%nat /\ gives_way (family_of k s) ps n /\
        m = says k (lit "Too many properties present") n)).
    { split; [|intros [(n & I & J & K & L)|(n & I & J & K & L)]; exists n; repeat split; assumption].
      intros (n & I & J & L). destruct (gives_way_dec k s ps n) as [W|W]; [right|left]; exists n; repeat split; assumption. }
    destruct doFix; cbn [negb].
    + rewrite ST, GR, TM. assert (CC : c_status k s ps m /\ ~ (true = true /\ cancelled ps) <-> c_status k s ps m /\ ~ cancelled ps) by tauto.
      rewrite CC. assert (FF : true = false <-> False) by (split; [discriminate|tauto]). rewrite !FF. clear. tauto.
    + assert (AO : (exists o, problem parent k s ps subs o m) <-> problem parent k s ps subs Repaired m \/ problem parent k s ps subs Stays m \/
        problem parent k s ps subs GoneReported m \/ problem parent k s ps subs GoneSilently m).
      { split; [intros [[| | |] P]; tauto|]. intros [P|[P|[P|P]]]; eexists; exact P. }
      rewrite AO, ST, GR, GS, RE, TM.
      assert (CC : c_status k s ps m /\ ~ (false = true /\ cancelled ps) <-> (c_status k s ps m /\ cancelled ps) \/ (c_status k s ps m /\ ~ cancelled ps)).
      { destruct (cancelled_dec ps) as [C|C]; split; [intros [Q _]; left; split; assumption|intros [[Q _]|[Q _]]; (split; [assumption|intros [? _]; discriminate])
          |intros [Q _]; right; split; assumption|intros [[Q _]|[Q _]]; (split; [assumption|intros [? _]; discriminate])]. }
      rewrite CC. assert (TT : todo_lacks true k s ps m <-> todo_lacks false k s ps m \/ (todo_lacks true k s ps m /\ named (lit "DUE") ps <> [])).
      { unfold todo_lacks. destruct (empty_dec (named (lit "DUE") ps)) as [Z|Z]; split.
        - intros (I & J & K & _ & L). left. repeat split; auto.
        - intros [(I & J & K & _ & L)|[_ Q]]; [|contradiction]. repeat split; auto; discriminate.
        - intros (I & J & K & _ & L). right. repeat split; auto; discriminate.
        - intros [(I & J & K & _ & L)|[(I & J & K & _ & L) _]]; repeat split; auto; discriminate. }
      rewrite TT. assert (FF : false = false <-> True) by tauto. rewrite !FF. clear. tauto.
Qed.
End WithTz.
