(** Lemmas about setting the value of properties with registered names; as SetValueProofs. *)
From Coq Require Import Lia.
From Verif Require Import PyBase PyProofs DateTimeModel DateTimeText DateTimeSpec2 DurationModel PeriodModel RecurModel RecurTextProofs TextProofs PropertyModel LineProofs
  PropertyProofs PropertyProofs2 PropertyProofs3 DeriveModel MakeModel MakeSpec MakeProofs SetValueModel SetValueSpec SetValueProofs
  RegisterModel RegisterSpec RegisterProofs RegisterProofs2 RegMakeModel RegMakeSpec RegMakeProofs RegSetModel RegSetSpec.

Lemma rs_typed calls name ps t : params_ok ps -> reg_typed calls name ps t -> t <> T_UNKNOWN -> rs_type (after_calls calls) name ps = Ok t.
Proof.
  intros P T U. unfold rs_type. cbv zeta.
  set (dflt := match assoc (upper name) (gTypes (after_calls calls)) with Some t => t | None => T_TEXT end).
  assert (D : default_of calls (upper name) t -> dflt = t) by (intro H; apply default_table in H; unfold dflt; rewrite H; reflexivity).
  destruct T as [n v l r t L V|t N H|N H]; [| |congruence].
  - apply lookup_first in L. destruct L as (M & -> & ->). cbn [rbind]. apply value_types_spec in V. rewrite V. reflexivity.
  - specialize (D H). destruct (assoc (lit "VALUE") ps) as [M|] eqn:E; [|congruence].
    pose proof (params_first _ _ _ P E) as NE. destruct M as [|[n [|v l]] r]; [congruence| |].
    + exfalso. eapply params_value; eauto.
    + cbn [first_value rbind]. destruct (assoc v value_types) as [t'|] eqn:W; [|congruence]. exfalso. apply value_types_spec in W.
      eapply N; [|exact W]. rewrite assoc_lookup, E. reflexivity.
Qed.

Section Set_.
Variables (calls : list registration) (ctx : pctx) (fl : floats).
Lemma reg_set_ok p v z : name_ok (pName p) -> params_ok (pParams p) -> tzid_of (pParams p) z -> reg_fits calls ctx z p v ->
  exists q w v', reg_setValue (after_calls calls) p v = SetTo q v' /\ pName q = pName p /\ pParams q = pParams p /\ pValue q = Some w /\ took z v w /\ reg_ok calls ctx fl q /\
    (z = None \/ ~ reg_typed calls (pName p) (pParams p) T_DATETIME -> v' = v).
Proof.
  intros N P Z (S & t & T & K & F). destruct p as [name ps old]. cbn [pName pParams] in *.
  assert (U : t <> T_UNKNOWN) by (intros ->; destruct F as [[_ F]|[_ F]]; exact F).
  unfold reg_setValue. cbn [pName pParams]. rewrite (rs_typed _ _ _ _ P T U). cbv zeta.
  destruct F as [[L F]|[L F]].
  - rewrite (multi_listed _ L). 
    destruct v; try (destruct t; contradiction); cbn [elements].
    + (* texts *) destruct t; try contradiction. destruct F as [NE F]. rewrite set_texts, (post_is _ _ z) by assumption. cbn [app_zone].
      rewrite map_id. do 3 eexists. split; [reflexivity|]. cbn [pName pParams pValue took]. do 3 (split; [reflexivity|]). split; [reflexivity|].
      split; [|reflexivity]. split; [exact N|]. split; [exact P|]. exists (Multi T_TEXT (map VText l)), z. split; [reflexivity|]. split; [exact Z|]. split.
      * split; [exact L|]. cbn [value_type]. specialize (K eq_refl). unfold structured_name in S.
        split; [tauto|]. split; [tauto|]. intros _. right. left. split; [exists (lit "TEXT"); constructor|left; exact K].
      * split; [destruct l; [congruence|discriminate]|]. apply Forall_map. eapply Forall_impl; [|exact F]. intros s C. split; [exact I|]. split; [exact I|].
        eexists. split; [reflexivity|apply comma_escaped; exact C].
    + (* dates *) assert (TT : t = T_DATE \/ t = T_DATETIME) by (destruct t; try contradiction; auto).
      assert (F' : l <> [] /\ Forall (fun d => SetValueSpec.fits_one ctx z t (PyDateTime d)) l) by (destruct TT; subst t; exact F). destruct F' as [NE F'].
      rewrite (set_dates _ _ TT), (post_is _ _ z) by assumption. destruct (dates_set ctx fl z t l TT F') as (m & -> & R & G & UU).
      do 3 eexists. split; [reflexivity|]. cbn [pName pParams pValue took left_with]. do 3 (split; [reflexivity|]). split; [|split].
      * clear - R. induction R; constructor; eauto.
      * split; [exact N|]. split; [exact P|]. exists (Multi t (map VDateTime m)), z. split; [reflexivity|]. split; [exact Z|]. split.
        -- destruct TT; subst t; (apply rkept_multi; [assumption|eexists; constructor|discriminate]).
        -- split; [destruct l; [congruence|inversion R; discriminate]|]. apply Forall_map. eapply Forall_impl; [|exact G]. intros e ((A & B) & D).
           split; [destruct TT; subst t; exact I|]. split; [|eexists; split; [reflexivity|eapply comma_text; eassumption]].
           destruct TT; subst t; [split; [exact A|left; apply D; reflexivity]|split; assumption].
      * intro H. rewrite dates_of, UU; [reflexivity|]. destruct H as [H|H]; [auto|]. left. intros ->. exact (H T).
    + (* periods *) destruct t; try contradiction. destruct F as [NE F]. rewrite set_periods, (post_is _ _ z) by assumption. cbn [app_zone].
      rewrite map_id. do 3 eexists. split; [reflexivity|]. cbn [pName pParams pValue took]. do 3 (split; [reflexivity|]). split; [reflexivity|].
      split; [|reflexivity]. split; [exact N|]. split; [exact P|]. exists (Multi T_PERIOD (map VPeriod l)), z. split; [reflexivity|]. split; [exact Z|]. split.
      * apply rkept_multi; [assumption|eexists; constructor|discriminate].
      * split; [destruct l; [congruence|discriminate]|]. apply Forall_map. eapply Forall_impl; [|exact F]. intros q W. split; [exact I|]. split; [exact W|]. eexists. split; [reflexivity|apply comma_period; exact W].
  - rewrite (multi_not _ L).
    assert (D : (exists d, v = PyDateTime d /\ (t = T_DATE \/ t = T_DATETIME)) \/
      exists i, set_item t v = Some i /\ (forall z, app_zone t z i = i) /\ took z v (Single i) /\ left_with v (Single i) = v /\ item_ok ctx fl z i /\ item_type i = t /\ nameable t).
    { destruct t, v; try contradiction; try (left; eexists; split; [reflexivity|auto; fail]);
        right; eexists; (split; [reflexivity|]); (split; [reflexivity|]); (split; [reflexivity|]); (split; [reflexivity|]); (split; [|split; [reflexivity|eexists; constructor]]); try exact I; try exact F; discriminate. }
    destruct D as [(d & -> & TT)|(i & -> & A & TK & LW & O & IT & G)].
    + assert (SI : set_item t (PyDateTime d) = Some (VDateTime d)) by (destruct TT; subst t; reflexivity). rewrite SI, (post_is _ _ z) by assumption.
      destruct (date_set ctx fl z t d TT F) as (e & -> & RZ & O & D & UU). do 3 eexists. split; [reflexivity|]. cbn [pName pParams pValue took left_with]. do 3 (split; [reflexivity|]).
      split; [exact RZ|]. split.
      * split; [exact N|]. split; [exact P|]. exists (Single (VDateTime e)), z. split; [reflexivity|]. split; [exact Z|]. split; [|exact O].
        apply rkept_single; [assumption..|]. destruct (mDateOnly e) eqn:DO; [apply (told_name _ _ _ (lit "DATE") T_DATE)|apply (told_name _ _ _ (lit "DATE-TIME") T_DATETIME)]; try discriminate; try constructor; cbn; rewrite DO; reflexivity.
      * intro H. rewrite UU; [reflexivity|]. destruct H as [H|H]; [auto|]. left. intros ->. exact (H T).
    + rewrite (post_is _ _ z), A by assumption. do 3 eexists. split; [reflexivity|]. cbn [pName pParams pValue]. do 3 (split; [reflexivity|]).
      split; [exact TK|]. split; [|intros _; exact LW]. split; [exact N|]. split; [exact P|]. exists (Single i), z. split; [reflexivity|]. split; [exact Z|]. split; [|exact O].
      apply rkept_single; [assumption..|]. right. left. cbn [value_type]. rewrite IT. split; [exact G|]. destruct (veqb t T_TEXT) eqn:X; [apply veqb_spec in X; left; apply K, X|].
      right. intros ->. discriminate X.
Qed.

End Set_.
Lemma reg_set_untouched calls p v : untouched calls (pName p) -> reg_setValue (after_calls calls) p v = setValue p v.
Proof. intro U. unfold reg_setValue, setValue, rs_type, set_type. rewrite (untouched_types calls _ U). reflexivity. Qed.
