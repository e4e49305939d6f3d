(** Proofs for C65. *)
From Coq Require Import Lia.
From Verif Require Import PyBase PyProofs DateTimeModel DateTimeText DateTimeSpec2 DurationModel PeriodModel PropertyModel LineProofs RecurModel RecurTextProofs
  PropertyProofs PropertyProofs3 DeriveModel MakeModel MakeSpec.

Lemma cin_in c s : cin c s = false -> ~ In c s.
Proof. apply LineProofs.cin_false. Qed.
Lemma fmt0_comma w n : 0 <= n -> ~ In ","%char (fmt0 w n).
Proof. intro H. apply cin_in, fmt0_cin; [exact H|reflexivity]. Qed.
Lemma not_in_app {A} (x : A) a b : ~ In x a -> ~ In x b -> ~ In x (a ++ b).
Proof. intros H K. rewrite in_app_iff. tauto. Qed.
Ltac no_comma := repeat apply not_in_app; first [apply fmt0_comma; lia | apply cin_in; reflexivity].
Lemma comma_text z d : printable d -> in_zone z d -> ~ In ","%char (getText d).
Proof.
  intros P Z. unfold printable in P. unfold getText. cbv zeta. destruct (mDateOnly d) eqn:D; [no_comma|]. destruct Z as [Z|Z]; [congruence|].
  destruct (mTZUTC d); [no_comma|]. destruct z; [destruct Z as [_ ->]|rewrite Z]; no_comma.
Qed.
Lemma comma_dur d : ~ In ","%char (dur_generate d).
Proof.
  assert (P : forall n, ~ In ","%char (pystr n)) by (intro n; apply cin_in, pystr_cin; [reflexivity|discriminate]).
  unfold dur_generate. repeat apply not_in_app; repeat match goal with |- context [if ?b then _ else _] => destruct b end;
    repeat apply not_in_app; first [apply P | apply cin_in; reflexivity].
Qed.
Lemma comma_period p : period_wf p -> ~ In ","%char (period_generate p).
Proof.
  intros (P & Z & E). unfold period_generate. rewrite in_app_iff. intros [H|[H|H]]; [revert H; eapply comma_text; eassumption|discriminate H|]. revert H.
  destruct (pUse p); [destruct (pDur p); [|destruct E]; apply comma_dur|]. destruct (pEnd p); [|destruct E]. destruct E. eapply comma_text; eassumption.
Qed.

Lemma params_none : params_ok [].
Proof. split; constructor. Qed.
Lemma kept_single name i : ~ listed name -> ~ structured_name name -> item_type i <> T_GEO -> item_type i <> T_REQUEST_STATUS ->
  (known_name name -> item_type i <> T_UNKNOWN) -> (~ known_name name -> item_type i <> T_TEXT) -> type_kept name (Single i).
Proof.
  intros L S G R U T. unfold structured_name in S. split; [exact L|]. split; [split; intro H; [tauto|contradiction]|]. split; [split; intro H; [tauto|contradiction]|]. split; [exact U|].
  intro H. apply T. intros [t X]. eapply H, X.
Qed.
Lemma kept_multi name t l : listed name -> t <> T_GEO -> t <> T_REQUEST_STATUS -> t <> T_UNKNOWN -> t <> T_TEXT -> type_kept name (Multi t l).
Proof.
  intros L G R U T. split; [exact L|]. cbn [value_type]. unfold listed, list_names in L.
  split; [split; intro H; [exfalso|contradiction]|].
  { rewrite H in L. cbn in L. intuition discriminate. }
  split; [split; intro H; [exfalso|contradiction]|].
  { rewrite H in L. cbn in L. intuition discriminate. }
  split; intros _; assumption.
Qed.
Lemma tzid_value name v : tzid_of (setupValueParameter name [] (Some v)) None.
Proof. constructor. rewrite lookup_setup by discriminate. reflexivity. Qed.
Lemma with_ok ctx fl name v : name_ok name -> type_kept name v -> prop_value_ok ctx fl None v -> prop_ok ctx fl (with_value name v).
Proof.
  intros N K V. split; [exact N|]. split; [apply setup_params_ok, params_none|]. exists v, None. split; [reflexivity|]. split; [apply tzid_value|]. split; assumption.
Qed.

(** The parameter of a zone. *)
Definition zone_params (name : bytes) (v : value) (d : dt) : params :=
  let ps := setupValueParameter name [] (Some v) in
  if negb (mDateOnly d) && local d then add_param (lit "TZID") (lit "TZID", [match mTZID d with TzName n => n | _ => [] end]) ps else ps.
Lemma zone_case name v d : placed d ->
  (zone_of d = None /\ zone_params name v d = setupValueParameter name [] (Some v)) \/
  (exists z, zone_of d = Some z /\ value_ok z /\ zone_params name v d = setupValueParameter name [] (Some v) ++ [(lit "TZID", [(lit "TZID", [z])])]).
Proof.
  intros (P & Z & W). unfold zone_params, zone_of in *. destruct (mDateOnly d) eqn:D; [left; split; reflexivity|]. cbn [negb andb]. destruct Z as [Z|Z]; [congruence|].
  unfold local. destruct (mTZID d) as [|z|n] eqn:E.
  - left. split; [reflexivity|]. rewrite Bool.andb_false_r. reflexivity.
  - right. exists z. destruct Z as [U _]. destruct W as [NE W]. split; [reflexivity|]. split; [exact W|]. rewrite U. cbn [negb andb]. destruct z; [congruence|].
    cbn [tz_true]. apply add_absent. pose proof (lookup_setup name [] v (lit "TZID") ltac:(discriminate)) as L. rewrite setup_eq in *. cbn [del_param app] in *.
    destruct (vname name v); reflexivity.
  - discriminate.
Qed.
Lemma zone_ok name v d : placed d -> params_ok (zone_params name v d) /\ tzid_of (zone_params name v d) (zone_of d).
Proof.
  intro P. destruct (zone_case name v d P) as [[-> ->]|(z & -> & W & ->)].
  - split; [apply setup_params_ok, params_none|apply tzid_value].
  - rewrite setup_eq. cbn [del_param app]. pose proof (setup_params_ok name [] v params_none) as [N F]. rewrite setup_eq in N, F. cbn [del_param app] in N, F. split.
    + destruct (vname name v); cbn [app map fst] in *.
      * split; [repeat constructor; cbn; intuition discriminate|]. inversion F; subst. constructor; [assumption|]. constructor; [|constructor].
        split; [discriminate|]. constructor; [|constructor]. split; [reflexivity|]. split; [split; discriminate|]. split; [apply cin_in; reflexivity|]. split; [discriminate|]. constructor; [exact W|constructor].
      * split; [repeat constructor; cbn; tauto|]. constructor; [|constructor].
        split; [discriminate|]. constructor; [|constructor]. split; [reflexivity|]. split; [split; discriminate|]. split; [apply cin_in; reflexivity|]. split; [discriminate|]. constructor; [exact W|constructor].
    + apply (tz_some _ (lit "TZID") z []). destruct (vname name v); reflexivity.
Qed.

Lemma default_for name t : In (upper name) (names_with t) -> assoc (upper name) default_types = Some t.
Proof. apply default_spec. Qed.
Lemma default_no name : ~ known_name name -> assoc (upper name) default_types = None.
Proof. intro H. apply default_none. intros t X. apply H. exists t. exact X. Qed.

Lemma dates_given l m : Forall2 same_item (map VDateTime l) m -> Forall2 (fun d i => exists e, i = VDateTime e /\ same_when d e) l m.
Proof.
  revert m. induction l as [|x l IH]; intros m H; inversion H; subst; constructor; [|apply IH; assumption].
  match goal with H : same_item (VDateTime x) ?y |- _ => destruct y; cbn in H; try discriminate H; try contradiction end. eexists. split; [reflexivity|assumption].
Qed.
Lemma periods_given l m : Forall2 same_item (map VPeriod l) m -> Forall2 (fun p i => exists q, i = VPeriod q /\ same_period p q) l m.
Proof.
  revert m. induction l as [|x l IH]; intros m H; inversion H; subst; constructor; [|apply IH; assumption].
  match goal with H : same_item (VPeriod x) ?y |- _ => destruct y; cbn in H; try discriminate H; try contradiction end. eexists. split; [reflexivity|assumption].
Qed.

Section Make.
Variables (ctx : pctx) (fl : floats) (zero : pyfloat).

Lemma make_ok name v vt : suits ctx name v vt -> exists p w, make zero name v vt = Ok p /\ prop_ok ctx fl p /\ pName p = name /\ pValue p = Some w /\
  forall w', same_value w w' -> gives v w'.
Proof.
  intros [N S]. destruct v as [|s|d|d|r|p|n|l|l|l|n|]; try destruct S.
  - (* str *) destruct H0 as (SN & t & T & V).
    assert (E : text_prop zero name vt s = with_value name (Single (text_item zero t s))).
    { unfold text_prop. destruct vt as [t'|]; [subst; reflexivity|]. destruct V as [V| ->]; [rewrite (default_for _ _ V); reflexivity|].
      rewrite default_no by exact T. reflexivity. }
    cbn [make]. rewrite E. do 2 eexists. split; [reflexivity|]. split; [|split; [reflexivity|split; [reflexivity|]]].
    + apply with_ok; [exact N| |].
      * apply kept_single; try assumption; destruct t; cbn in *; try contradiction; try discriminate; try (intros ? ?; discriminate); intros; try discriminate; contradiction.
      * destruct t; cbn in *; try contradiction; try exact I; try discriminate. exact T.
    + intros [j|]; [|intros []]. destruct t; cbn [text_item] in *; try contradiction; cbn [same_value same_item]; intro X; rewrite <- X; reflexivity.
  - (* date *) destruct H0 as (SN & P). cbn [make]. do 2 eexists. split; [reflexivity|]. unfold date_prop.
    destruct (zone_ok name (Single (VDateTime d)) d P) as [PO TZ].
    split; [|split; [reflexivity|split; [reflexivity|]]].
    + split; [exact N|]. split; [exact PO|]. exists (Single (VDateTime d)), (zone_of d). split; [reflexivity|]. split; [exact TZ|]. split.
      * apply kept_single; try assumption; cbn; destruct (mDateOnly d); intros; discriminate.
      * split; apply P.
    + intros [[]|]; cbn; try discriminate; try tauto.
  - (* duration *) destruct H0 as (SN & P). cbn [make]. do 2 eexists. split; [reflexivity|]. unfold duration_prop. cbv zeta. fold (with_value name (Single (VDuration d))).
    split; [|split; [reflexivity|split; [reflexivity|]]].
    + apply with_ok; [exact N| |exact P]. apply kept_single; try assumption; cbn; intros; discriminate.
    + intros [[]|]; cbn; try discriminate; try tauto.
  - (* rule *) destruct H0 as (SN & P). cbn [make]. do 2 eexists. split; [reflexivity|]. unfold recur_prop. cbv zeta. fold (with_value name (Single (VRecur r))).
    split; [|split; [reflexivity|split; [reflexivity|]]].
    + apply with_ok; [exact N| |exact P]. apply kept_single; try assumption; cbn; intros; discriminate.
    + intros [[]|]; cbn; try discriminate; try tauto.
  - (* period *) destruct H0 as (SN & P). cbn [make]. do 2 eexists. split; [reflexivity|].
    split; [|split; [reflexivity|split; [reflexivity|]]].
    + apply with_ok; [exact N| |exact P]. apply kept_single; try assumption; cbn; intros; discriminate.
    + intros [[]|]; cbn; try discriminate; try tauto.
  - (* int *) cbn [make]. do 2 eexists. split; [reflexivity|].
    split; [|split; [reflexivity|split; [reflexivity|]]].
    + apply with_ok; [exact N| |exact I]. apply kept_single; try assumption; cbn; intros; discriminate.
    + intros [[]|]; cbn; try discriminate; try tauto. congruence.
  - (* texts *)
    assert (R : upper name = lit "REQUEST-STATUS" /\ item_ok ctx fl None (VStatus l)) by (destruct l as [|a [|b [|c [|]]]]; try contradiction; split; first [exact (proj1 S)|exact (proj2 S)]).
    destruct R as [R O]. cbn [make]. rewrite R. cbn [beq]. replace (beq (lit "REQUEST-STATUS") (lit "REQUEST-STATUS")) with true by reflexivity.
    do 2 eexists. split; [reflexivity|]. split; [|split; [reflexivity|split; [reflexivity|]]].
    + apply with_ok; [exact N| |exact O]. split; [intro X; rewrite R in X; cbn in X; intuition discriminate|]. cbn [value_type item_type]. rewrite R.
      split; [split; intro X; discriminate X|]. split; [split; reflexivity|]. split; intros _; discriminate.
    + intros [j|]; [|intros []]. cbn. intro X. subst. reflexivity.
  - (* dates *)
    destruct l as [|d l]; [destruct S|]. destruct S as (L & P & F). cbn [make]. do 2 eexists. split; [reflexivity|]. unfold dates_prop. cbv zeta.
    set (t := if mDateOnly d then T_DATE else T_DATETIME). set (w := Multi t (map VDateTime (d :: l))).
    destruct (zone_ok name w d P) as [PO TZ].
    split; [|split; [reflexivity|split; [reflexivity|]]].
    + split; [exact N|]. split; [exact PO|]. exists w, (zone_of d). split; [reflexivity|]. split; [exact TZ|]. split.
      * unfold w, t. destruct (mDateOnly d); apply kept_multi; (assumption || discriminate).
      * split; [discriminate|]. apply Forall_map. 
        assert (G : forall e, printable e -> mDateOnly e = mDateOnly d -> in_zone (zone_of d) e ->
          made_by t (VDateTime e) /\ item_ok ctx fl (match t with T_DATETIME => zone_of d | _ => None end) (VDateTime e) /\ exists s, item_generate fl (VDateTime e) = Ok s /\ ~ In ","%char s).
        { intros e A B C. split; [unfold t; destruct (mDateOnly d); exact I|]. split; [|eexists; split; [reflexivity|eapply comma_text; eassumption]].
          split; [exact A|]. unfold t. destruct (mDateOnly d) eqn:D; [left; exact B|exact C]. }
        constructor; [apply G; [apply P|reflexivity|apply P]|]. eapply Forall_impl; [|exact F]. intros e (A & B & C). apply G; assumption.
    + intros [|t' m]; [intros []|]. intros [_ F2]. apply dates_given. exact F2.
  - (* periods *)
    assert (S' : l <> [] /\ listed name /\ Forall period_wf l) by (destruct l; [destruct S|split; [discriminate|exact S]]).
    destruct S' as (NE & L & F). assert (E : make zero name (PyPeriods l) vt = Ok (with_value name (Multi T_PERIOD (map VPeriod l)))) by (destruct l; [congruence|reflexivity]).
    rewrite E. do 2 eexists. split; [reflexivity|]. split; [|split; [reflexivity|split; [reflexivity|]]].
    + apply with_ok; [exact N|apply kept_multi; (assumption || discriminate)|]. split; [destruct l; [congruence|discriminate]|]. apply Forall_map.
      eapply Forall_impl; [|exact F]. intros p W. split; [exact I|]. split; [exact W|]. eexists. split; [reflexivity|apply comma_period; exact W].
    + intros [|t' m]; [intros []|]. intros [_ F2]. apply periods_given. exact F2.
  - (* offset *) destruct H0 as (SN & P). cbn [make]. do 2 eexists. split; [reflexivity|].
    split; [|split; [reflexivity|split; [reflexivity|]]].
    + apply with_ok; [exact N| |exact P]. apply kept_single; try assumption; cbn; intros; discriminate.
    + intros [[]|]; cbn; try discriminate; try tauto. congruence.
Qed.
End Make.
