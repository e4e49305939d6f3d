(** Proofs about validation: the report of one component. *)
From Coq Require Import Lia ZifyBool ZifyNat.
From Verif Require Import PyProofs LineProofs PropertyProofs ComponentProofs2 ComponentProofs3 ValidateModel ValidateSpec ValidateProofs ValidateProofs2.

Lemma ltb_spec a b : (a <? b)%nat = true <-> (a < b)%nat.
Proof. apply Nat.ltb_lt. Qed.

(** ** Values. *)
Lemma values_ok k l : forall u, check_values k l = Ok u -> forall m, In m u <->
  exists p R, In p l /\ right_value (upper (pName p)) (pValue p) = Some R /\ ~ R /\ m = says k (lit "Property value incorrect") (upper (pName p)).
Proof.
  induction l as [|p l IH]; intros u H m; cbn [check_values] in H.
  - injection H as <-. split; [intros []|intros (p & R & [] & _)].
  - pose proof (value_right (upper (pName p)) (pValue p)) as V. destruct (assoc (upper (pName p)) value_checks) as [f|].
    + destruct V as (R & V & W). destruct (f (pValue p)) as [b|e] eqn:E; cbn [rbind] in H; [|discriminate]. specialize (W b eq_refl).
      destruct (check_values k l) as [u0|e]; cbn [rbind] in H; [|discriminate]. specialize (IH _ eq_refl).
      assert (u = if b then u0 else msg k (lit "Property value incorrect") (upper (pName p)) :: u0) as -> by (clear - H; congruence).
      clear H. split.
      * intro I. destruct b; [|destruct I as [<-|I]].
        -- apply IH in I as (q & S & I & J). exists q, S. split; [right|]; assumption.
        -- exists p, R. split; [left; reflexivity|]. split; [assumption|]. split; [|reflexivity]. intro F. apply W in F. discriminate.
        -- apply IH in I as (q & S & I & J). exists q, S. split; [right|]; assumption.
      * intros (q & S & [<-|I] & J & K & ->).
        -- destruct b; [exfalso; apply K; assert (S = R) as -> by congruence; apply W; reflexivity|left; reflexivity].
        -- assert (X : In (says k (lit "Property value incorrect") (upper (pName q))) u0) by (apply IH; exists q, S; repeat split; assumption).
           destruct b; [assumption|right; assumption].
    + rewrite (IH _ H). split; intros (q & S & I & J); [exists q, S; split; [right|]; assumption|].
      exists q, S. split; [|assumption]. destruct I as [<-|I]; [|assumption]. destruct J as [J _]. congruence.
Qed.
Lemma values_total k l :
  (forall p, In p l -> upper (pName p) = lit "VERSION" \/ upper (pName p) = lit "CALSCALE" ->
     (forall c, pValue p <> Some (Single (VPlain c None))) /\ pValue p <> Some (Single (VUri None))) ->
  exists u, check_values k l = Ok u.
Proof.
  assert (STR : forall text v, (forall c, v <> Some (Single (VPlain c None))) -> v <> Some (Single (VUri None)) -> exists b, stringValue text v = Ok b).
  { intros text v A B. destruct v as [[i|l0]|]; [destruct i| |]; cbn [stringValue]; eauto; destruct s; eauto; exfalso; [eapply A; reflexivity|apply B; reflexivity]. }
  induction l as [|p l IH]; intro H; cbn [check_values]; [eauto|].
  destruct IH as [u IH]; [intros q I; apply H; right; assumption|]. rewrite IH. specialize (H p (or_introl eq_refl)).
  assert (V : forall f, assoc (upper (pName p)) value_checks = Some f -> exists b, f (pValue p) = Ok b).
  { unfold value_checks. cbn [assoc]. intro f.
    repeat match goal with |- context [beq ?a (upper (pName p))] => destruct (beq_case a (upper (pName p))) as [[EE ->]|[_ ->]];
      [let Q := fresh in intro Q; injection Q as <-; first [symmetry in EE; destruct H as [H1 H2]; [tauto|]; apply STR; assumption | eexists; reflexivity]|] end.
    discriminate. }
  destruct (assoc (upper (pName p)) value_checks) as [f|]; [|eauto].
  destruct (V f eq_refl) as [b ->]. cbn [rbind]. eauto.
Qed.

(** ** UNTIL. *)
Section WithTz.
Variable tzo : tzid -> Z -> Z -> Z -> Z -> Z -> Z -> bool -> bool -> Z.
Variable order : list (list prop) -> list (list prop).

Definition until_msg (k : kind) : bytes := says k (lit "Value types must match") (lit "DTSTART, UNTIL").
Lemma rule_ok k start doFix p p' f u : check_rule tzo k start doFix p = (p', Ok (f, u)) ->
  (forall r v, ~ mismatch start p r v) /\ p' = p /\ f = [] /\ u = [] \/
  exists r v, mismatch start p r v /\
    (if doFix then p' = mkProp (pName p) (pParams p) (Some (Single (VRecur (with_until r (fix_until tzo start v))))) /\ f = [until_msg k] /\ u = []
     else p' = p /\ f = [] /\ u = [until_msg k]).
Proof.
  unfold check_rule, mismatch. destruct (pValue p) as [[i|l]|] eqn:E; [destruct i eqn:EI| |]; intro H.
  all: try (left; apply triple in H as (<- & <- & <-); repeat split; auto; intros rr vv (Q & _); discriminate).
  destruct (rUseUntil r) eqn:U; [|left; apply triple in H as (<- & <- & <-); repeat split; auto; intros rr vv (Q & Q2 & _); injection Q as <-; congruence].
  destruct (rUntil r) as [v|] eqn:V; [|discriminate].
  destruct (Bool.bool_dec (mDateOnly v) (mDateOnly start)) as [X|X].
  - rewrite X, Bool.xorb_nilpotent in H. left. apply triple in H as (<- & <- & <-). repeat split; auto. intros rr vv (Q & Q2 & Q3 & Q4). injection Q as <-. congruence.
  - replace (xorb (mDateOnly v) (mDateOnly start)) with true in H by (clear - X; revert X; destruct (mDateOnly v), (mDateOnly start); intro X; try reflexivity; congruence).
    right. exists r, v. split; [repeat split; auto|]. destruct doFix; apply triple in H as (<- & <- & <-); repeat split; reflexivity.
Qed.
Lemma rule_total k start doFix p : (forall r, pValue p = Some (Single (VRecur r)) -> rUseUntil r = true -> rUntil r <> None) ->
  exists p' f u, check_rule tzo k start doFix p = (p', Ok (f, u)).
Proof.
  intro H. unfold check_rule. destruct (pValue p) as [[i|l]|]; [destruct i| |]; eauto.
  destruct (rUseUntil r) eqn:U; eauto. specialize (H r eq_refl U). destruct (rUntil r) as [v|]; [|congruence].
  destruct (xorb _ _); eauto. destruct doFix; eauto.
Qed.
(** Changed for UNTIL of the right sort, in that way. *)
Definition moved (start u u' : dt) : Prop := u' = fix_until tzo start u.
Lemma rule_moved k start p p' f u : check_rule tzo k start true p = (p', Ok (f, u)) -> rule_repaired moved start p p'.
Proof.
  intro H. apply rule_ok in H as [(N & -> & _)|(r & v & M & -> & _)]; [left; split; [assumption|reflexivity]|].
  right. exists r, (with_until r (fix_until tzo start v)), v, (fix_until tzo start v). split; [assumption|]. split; [reflexivity|].
  repeat split. destruct M as (_ & _ & M & _). destruct r; cbn in *. congruence.
Qed.
Lemma rule_name k start doFix p p' f u : check_rule tzo k start doFix p = (p', Ok (f, u)) -> pName p = pName p'.
Proof. intro H. apply rule_ok in H as [(_ & -> & _)|(r & v & _ & H)]; [reflexivity|]. destruct doFix; destruct H as (-> & _); reflexivity. Qed.

Lemma until_ok k s doFix ps ps' f u : tidy_props ps -> check_until tzo k s doFix ps = (ps', Ok (f, u)) ->
  tidy_props ps' /\
  (forall n, n <> lit "RRULE" -> getProperties n ps' = getProperties n ps) /\
  (doFix = false -> ps' = ps) /\ (~ (In (family_of k s) recurring /\ sStart s <> None) -> ps' = ps) /\
  (forall start, doFix = true -> In (family_of k s) recurring -> sStart s = Some start ->
     Forall2 (rule_repaired moved start) (getProperties (lit "RRULE") ps) (getProperties (lit "RRULE") ps')) /\
  (forall m, In m f <-> doFix = true /\ exists start p r v, In (family_of k s) recurring /\ sStart s = Some start /\
     In p (named (lit "RRULE") ps) /\ mismatch start p r v /\ m = until_msg k) /\
  (forall m, In m u <-> doFix = false /\ exists start p r v, In (family_of k s) recurring /\ sStart s = Some start /\
     In p (named (lit "RRULE") ps) /\ mismatch start p r v /\ m = until_msg k).
Proof.
  intros T H. unfold check_until in H. rewrite named_get by assumption. destruct (is_recur k) eqn:K.
  2:{ apply triple in H as (<- & <- & <-). assert (N : ~ In (family_of k s) recurring) by (rewrite <- table_recur; congruence).
      split; [assumption|]. split; [reflexivity|]. split; [reflexivity|]. split; [reflexivity|]. split; [intros ? ? Q; contradiction|].
      split; intro m; (split; [intros []|intros (_ & start & p & r & v & Q & _); contradiction]). }
  pose proof (proj1 (table_recur k s) K) as R.
  destruct (sStart s) as [start|] eqn:S.
  2:{ apply triple in H as (<- & <- & <-). split; [assumption|]. split; [reflexivity|]. split; [reflexivity|]. split; [reflexivity|]. split; [intros ? ? ? Q; discriminate|].
      split; intro m; (split; [intros []|intros (_ & start & p & r & v & _ & Q & _); discriminate]). }
  destruct (each (check_rule tzo k start doFix) (getProperties (lit "RRULE") ps)) as [l [[f0 u0]|e]] eqn:E; [|discriminate].
  apply triple in H as (<- & <- & <-). destruct (each_ok _ _ _ _ _ E) as (A & F & U).
  assert (G : forall name, getProperties name (replaceProperties (lit "RRULE") l ps) = if beq (lit "RRULE") name then l else getProperties name ps).
  { intro name. apply get_replace. intro Q. rewrite Q in A. inversion A. reflexivity. }
  split; [|split; [|split; [|split; [|split; [|split]]]]].
  - apply tidy_replace; [assumption|]. clear - A. induction A as [|x y la lb (fi & ui & Q) A IH]; constructor; [|exact IH]. eapply rule_name; exact Q.
  - intros n N. rewrite G. destruct (beq_case (lit "RRULE") n) as [[<- _]|[_ ->]]; congruence.
  - intros ->. assert (l = getProperties (lit "RRULE") ps) as ->; [|apply replace_same].
    clear - A. induction A as [|x y la lb (fi & ui & Q) A IH]; [reflexivity|]. f_equal; [|exact IH].
    apply rule_ok in Q as [(_ & -> & _)|(r & v & _ & -> & _)]; reflexivity.
  - intro N. exfalso. apply N. split; [assumption|discriminate].
  - intros start' -> _ Q. injection Q as <-. rewrite G, beq_refl.
    clear - A. induction A as [|x y la lb (fi & ui & Q) A IH]; constructor; [|exact IH]. eapply rule_moved; exact Q.
  - intro m. rewrite F. split.
    + intros (p & p' & fi & ui & I & Q & J). apply rule_ok in Q as [(_ & _ & -> & _)|(r & v & M & Q)]; [contradiction|].
      destruct doFix; [|destruct Q as (_ & -> & _); contradiction]. destruct Q as (_ & -> & _). destruct J as [<-|[]].
      split; [reflexivity|]. exists start, p, r, v. repeat split; auto; apply M.
    + intros (-> & start' & p & r & v & _ & Q & I & M & ->). injection Q as <-.
      assert (X : exists p' fi ui, check_rule tzo k start true p = (p', Ok (fi, ui))).
      { clear - A I. induction A as [|x y la lb (fi & ui & Q) A IH]; [contradiction|]. destruct I as [->|I]; [eauto|auto]. }
      destruct X as (p' & fi & ui & X). exists p, p', fi, ui. split; [assumption|]. split; [assumption|].
      apply rule_ok in X as [(N & _)|(r' & v' & _ & _ & -> & _)]; [exfalso; exact (N _ _ M)|left; reflexivity].
  - intro m. rewrite U. split.
    + intros (p & p' & fi & ui & I & Q & J). apply rule_ok in Q as [(_ & _ & _ & ->)|(r & v & M & Q)]; [contradiction|].
      destruct doFix; [destruct Q as (_ & _ & ->); contradiction|]. destruct Q as (_ & _ & ->). destruct J as [<-|[]].
      split; [reflexivity|]. exists start, p, r, v. repeat split; auto; apply M.
    + intros (-> & start' & p & r & v & _ & Q & I & M & ->). injection Q as <-.
      assert (X : exists p' fi ui, check_rule tzo k start false p = (p', Ok (fi, ui))).
      { clear - A I. induction A as [|x y la lb (fi & ui & Q) A IH]; [contradiction|]. destruct I as [->|I]; [eauto|auto]. }
      destruct X as (p' & fi & ui & X). exists p, p', fi, ui. split; [assumption|]. split; [assumption|].
      apply rule_ok in X as [(N & _)|(r' & v' & _ & _ & _ & ->)]; [exfalso; exact (N _ _ M)|left; reflexivity].
Qed.
Lemma until_total k s doFix ps :
  (forall p r, In p (getProperties (lit "RRULE") ps) -> pValue p = Some (Single (VRecur r)) -> rUseUntil r = true -> rUntil r <> None) ->
  exists ps' f u, check_until tzo k s doFix ps = (ps', Ok (f, u)).
Proof.
  intro H. unfold check_until. destruct (is_recur k); eauto. destruct (sStart s) as [start|]; eauto.
  destruct (each_total (check_rule tzo k start doFix) (getProperties (lit "RRULE") ps)) as (l & f & u & ->).
  - apply Forall_forall. intros p I. apply rule_total. intros r. apply H. assumption.
  - eauto.
Qed.
Lemma until_readonly k s ps : fst (check_until tzo k s false ps) = ps.
Proof.
  unfold check_until. destruct (is_recur k); [|reflexivity]. destruct (sStart s) as [start|]; [|reflexivity].
  assert (E : fst (each (check_rule tzo k start false) (getProperties (lit "RRULE") ps)) = getProperties (lit "RRULE") ps).
  { apply each_id. apply Forall_forall. intros p _. unfold check_rule. destruct (pValue p) as [[i|l]|]; [destruct i| |]; try reflexivity.
    destruct (rUseUntil r); [|reflexivity]. destruct (rUntil r); [|reflexivity]. destruct (xorb _ _); reflexivity. }
  destruct (each _ _) as [l r]. cbn in *. subst l. apply replace_same.
Qed.
Lemma until_none k s doFix ps ps' u : check_until tzo k s doFix ps = (ps', Ok ([], u)) -> ps' = ps.
Proof.
  unfold check_until. destruct (is_recur k); [|congruence]. destruct (sStart s) as [start|]; [|congruence].
  destruct (each (check_rule tzo k start doFix) (getProperties (lit "RRULE") ps)) as [l [[f0 u0]|e]] eqn:E; [|discriminate].
  intro H. apply triple in H as (<- & -> & _). apply each_none in E; [subst l; apply replace_same|].
  intros p _ p' ui Q. apply rule_ok in Q as [(_ & -> & _)|(r & v & _ & Q)]; [reflexivity|].
  destruct doFix; [destruct Q as (_ & Q & _); discriminate|destruct Q as (-> & _); reflexivity].
Qed.
End WithTz.
