(** Proofs for C84. *)
From Coq Require Import Lia.
From Verif Require Import PyBase PyProofs DateTimeModel DateTimeText DateTimeSpec2 DurationModel PeriodModel PropertyModel LineProofs RecurModel RecurTextProofs TextProofs
  PropertyProofs PropertyProofs2 PropertyProofs3 DeriveModel MakeModel MakeSpec MakeProofs SetValueModel SetValueSpec.

Lemma params_first k ps l : params_ok ps -> assoc k ps = Some l -> l <> [].
Proof.
  intros [_ F] H. apply assoc_some in H. rewrite Forall_forall in F. destruct (F _ H) as [N _]. exact N.
Qed.
Lemma params_value k ps n r : params_ok ps -> assoc k ps <> Some ((n, []) :: r).
Proof.
  intros [_ F] H. apply assoc_some in H. rewrite Forall_forall in F. destruct (F _ H) as [_ G]. inversion G as [|? ? (_ & _ & _ & N & _)]. apply N. reflexivity.
Qed.
Lemma names_one n t t' : In n (names_with t) -> In n (names_with t') -> t = t'.
Proof. intros H K. apply default_spec in H, K. congruence. Qed.
Lemma set_typed name ps t : params_ok ps -> typed name ps t -> t <> T_UNKNOWN -> set_type name ps = Ok t.
Proof.
  intros P T U. unfold set_type. cbv zeta.
  set (dflt := match assoc (upper name) default_types with Some t => t | None => T_TEXT end).
  assert (D : In (upper name) (names_with t) -> dflt = t) by (intro H; apply default_spec in H; unfold dflt; rewrite H; reflexivity).
  destruct T as [n v l r t L V|t N H|N H]; [| |congruence].
  - apply lookup_first in L. destruct L as (M & -> & ->). cbn [rbind]. apply value_types_spec in V. rewrite V. reflexivity.
  - specialize (D H). destruct (assoc (lit "VALUE") ps) as [M|] eqn:E; [|congruence].
    pose proof (params_first _ _ _ P E) as NE. destruct M as [|[n [|v l]] r]; [congruence| |].
    + exfalso. eapply params_value; eauto.
    + cbn [first_value rbind]. destruct (assoc v value_types) as [t'|] eqn:W; [|congruence]. exfalso. apply value_types_spec in W.
      eapply N; [|exact W]. rewrite assoc_lookup, E. reflexivity.
Qed.

Lemma post_is t ps z w : params_ok ps -> tzid_of ps z ->
  postCreateValue t ps w = Ok (match w with Single i => Single (app_zone t z i) | Multi m l => Multi m (map (app_zone t z) l) end).
Proof.
  intros P Z. unfold postCreateValue.
  assert (NZ : forall w, (match w with Single i => Single i | Multi m l => Multi m (map (fun i : item => i) l) end) = w)
    by (intros [i|m l]; [reflexivity|rewrite map_id; reflexivity]).
  destruct (veqb t T_TIME || veqb t T_DATETIME) eqn:E.
  - inversion Z as [L| n z' r L]; subst.
    + rewrite assoc_lookup in L. destruct (assoc (lit "TZID") ps) as [l|] eqn:A.
      * subst l. exfalso. eapply params_first; eauto.
      * destruct w as [i|m l]; destruct t; try discriminate; cbn [app_zone]; try reflexivity; rewrite map_id; reflexivity.
    + rewrite assoc_lookup in L. destruct (assoc (lit "TZID") ps) as [l|]; [|discriminate]. subst l. cbn [first_value rbind].
      destruct t; try discriminate; reflexivity.
  - destruct w as [i|m l]; destruct t; try discriminate; cbn [app_zone]; try reflexivity; rewrite map_id; reflexivity.
Qed.

Section Set_.
Variables (ctx : pctx) (fl : floats).

Lemma zone_rezoned z d : rezoned (Some z) d (setTimezoneID d (TzName z)).
Proof. split; [reflexivity|]. split; [reflexivity|]. intros _. split; [reflexivity|]. split; reflexivity. Qed.
Lemma none_rezoned d : rezoned None d d.
Proof. split; [reflexivity|]. split; [reflexivity|]. intros _. split; [reflexivity|]. split; reflexivity. Qed.
Lemma date_rezoned z d : mDateOnly d = true -> rezoned z d d.
Proof. intro H. split; [reflexivity|]. split; [reflexivity|]. congruence. Qed.

(** One date. *)
Lemma date_set z t d : t = T_DATE \/ t = T_DATETIME -> fits_one ctx z t (PyDateTime d) ->
  exists e, app_zone t z (VDateTime d) = VDateTime e /\ rezoned z d e /\ item_ok ctx fl z (VDateTime e) /\ (t = T_DATE -> mDateOnly e = true) /\
    (t <> T_DATETIME \/ z = None -> e = d).
Proof.
  intros [-> | ->]; cbn [fits_one app_zone]; intros [P H].
  - exists d. split; [reflexivity|]. split; [apply date_rezoned; exact H|]. split; [split; [exact P|left; exact H]|]. split; [intros _; exact H|reflexivity].
  - destruct z as [z|].
    + exists (setTimezoneID d (TzName z)). split; [reflexivity|]. split; [apply zone_rezoned|]. split; [split; [exact P|right; split; reflexivity]|].
      split; [discriminate|]. intros [N|N]; congruence.
    + exists d. split; [reflexivity|]. split; [apply none_rezoned|]. split; [split; [exact P|apply H; reflexivity]|]. split; [discriminate|reflexivity].
Qed.

Lemma dates_set z t l : t = T_DATE \/ t = T_DATETIME -> Forall (fun d => fits_one ctx z t (PyDateTime d)) l ->
  exists m, map (app_zone t z) (map VDateTime l) = map VDateTime m /\ Forall2 (rezoned z) l m /\
    Forall (fun e => item_ok ctx fl z (VDateTime e) /\ (t = T_DATE -> mDateOnly e = true)) m /\ (t <> T_DATETIME \/ z = None -> m = l).
Proof.
  intros T. induction 1 as [|d l H F IH]; [exists []; repeat constructor|]. destruct IH as (m & E & R & G & U).
  destruct (date_set z t d T H) as (e & E1 & R1 & G1 & D1 & U1). exists (e :: m). cbn [map]. rewrite E1, E. split; [reflexivity|].
  split; [constructor; assumption|]. split; [constructor; auto|]. intro K. rewrite U1, U by exact K. reflexivity.
Qed.

Lemma set_texts l : set_items T_TEXT (map PyStr l) = Some (map VText l).
Proof. induction l as [|s l IH]; [reflexivity|]. cbn [map set_items set_item]. rewrite IH. reflexivity. Qed.
Lemma set_dates t l : t = T_DATE \/ t = T_DATETIME -> set_items t (map PyDateTime l) = Some (map VDateTime l).
Proof. intros [-> | ->]; (induction l as [|s l IH]; [reflexivity|]; cbn [map set_items set_item]; rewrite IH; reflexivity). Qed.
Lemma set_periods l : set_items T_PERIOD (map PyPeriod l) = Some (map VPeriod l).
Proof. induction l as [|s l IH]; [reflexivity|]. cbn [map set_items set_item]. rewrite IH. reflexivity. Qed.
Lemma dates_of l : flat_map (fun i => match i with VDateTime e => [e] | _ => [] end) (map VDateTime l) = l.
Proof. induction l as [|d l IH]; [reflexivity|]. cbn [map flat_map]. rewrite IH. reflexivity. Qed.
Lemma multi_listed name : listed name -> is_multi name = true.
Proof. intro H. unfold is_multi. apply existsb_exists. exists (upper name). split; [exact H|apply beq_eq; reflexivity]. Qed.
Lemma multi_not name : ~ listed name -> is_multi name = false.
Proof. intro H. destruct (is_multi name) eqn:E; [|reflexivity]. exfalso. apply H. unfold is_multi in E. apply existsb_exists in E. destruct E as (x & I & E). apply beq_eq in E. subst x. exact I. Qed.
Lemma comma_escaped s : ~ In ","%char s -> ~ In ","%char (escapeTextValue s).
Proof.
  rewrite escape_E. unfold E. rewrite in_flat_map. intros H (c & I & J). unfold esc1 in J. destruct (cin c esc_tokens).
  - destruct J as [J|J]; [discriminate J|]. unfold esc_char in J. revert J. destruct (Ascii.eqb c ",") eqn:Q; [apply Ascii.eqb_eq in Q; subst c; contradiction|].
    repeat match goal with |- context [if ?b then _ else _] => destruct b end; intro J; cbn in J; intuition discriminate.
  - destruct J as [J|[]]. subst. auto.
Qed.

Lemma set_ok p v z : name_ok (pName p) -> params_ok (pParams p) -> tzid_of (pParams p) z -> fits ctx z p v ->
  exists q w v', setValue p v = SetTo q v' /\ pName q = pName p /\ pParams q = pParams p /\ pValue q = Some w /\ took z v w /\ prop_ok ctx fl q /\
    (z = None \/ ~ typed (pName p) (pParams p) T_DATETIME -> v' = v).
Proof.
  intros N P Z (S & t & T & K & F). destruct p as [name ps old]. cbn [pName pParams] in *.
  assert (U : t <> T_UNKNOWN) by (intros ->; destruct F as [[_ F]|[_ F]]; exact F).
  unfold setValue. cbn [pName pParams]. rewrite (set_typed _ _ _ P T U). cbv zeta.
  destruct F as [[L F]|[L F]].
  - rewrite (multi_listed _ L). 
    destruct v; try (destruct t; contradiction); cbn [elements].
    + (* texts *) destruct t; try contradiction. destruct F as [NE F]. rewrite set_texts, (post_is _ _ z) by assumption. cbn [app_zone].
      rewrite map_id. do 3 eexists. split; [reflexivity|]. cbn [pName pParams pValue took]. do 3 (split; [reflexivity|]). split; [reflexivity|].
      split; [|reflexivity]. split; [exact N|]. split; [exact P|]. exists (Multi T_TEXT (map VText l)), z. split; [reflexivity|]. split; [exact Z|]. split.
      * split; [exact L|]. cbn [value_type]. specialize (K eq_refl). unfold structured_name in S.
        split; [split; intro H; [tauto|discriminate]|]. split; [split; intro H; [tauto|discriminate]|]. split; [discriminate|].
        intros H. destruct K as [t K]. destruct (H _ K).
      * split; [destruct l; [congruence|discriminate]|]. apply Forall_map. eapply Forall_impl; [|exact F]. intros s C. split; [exact I|]. split; [exact I|].
        eexists. split; [reflexivity|apply comma_escaped; exact C].
    + (* dates *) assert (TT : t = T_DATE \/ t = T_DATETIME) by (destruct t; try contradiction; auto).
      assert (F' : l <> [] /\ Forall (fun d => fits_one ctx z t (PyDateTime d)) l) by (destruct TT; subst t; exact F). destruct F' as [NE F'].
      rewrite (set_dates _ _ TT), (post_is _ _ z) by assumption. destruct (dates_set z t l TT F') as (m & -> & R & G & UU).
      do 3 eexists. split; [reflexivity|]. cbn [pName pParams pValue took left_with]. do 3 (split; [reflexivity|]). split; [|split].
      * clear - R. induction R; constructor; eauto.
      * split; [exact N|]. split; [exact P|]. exists (Multi t (map VDateTime m)), z. split; [reflexivity|]. split; [exact Z|]. split.
        -- destruct TT; subst t; apply kept_multi; (assumption || discriminate).
        -- split; [destruct l; [congruence|inversion R; discriminate]|]. apply Forall_map. eapply Forall_impl; [|exact G]. intros e ((A & B) & D).
           split; [destruct TT; subst t; exact I|]. split; [|eexists; split; [reflexivity|eapply comma_text; eassumption]].
           destruct TT; subst t; [split; [exact A|left; apply D; reflexivity]|split; assumption].
      * intro H. rewrite dates_of, UU; [reflexivity|]. destruct H as [H|H]; [auto|]. left. intros ->. exact (H T).
    + (* periods *) destruct t; try contradiction. destruct F as [NE F]. rewrite set_periods, (post_is _ _ z) by assumption. cbn [app_zone].
      rewrite map_id. do 3 eexists. split; [reflexivity|]. cbn [pName pParams pValue took]. do 3 (split; [reflexivity|]). split; [reflexivity|].
      split; [|reflexivity]. split; [exact N|]. split; [exact P|]. exists (Multi T_PERIOD (map VPeriod l)), z. split; [reflexivity|]. split; [exact Z|]. split.
      * apply kept_multi; (assumption || discriminate).
      * split; [destruct l; [congruence|discriminate]|]. apply Forall_map. eapply Forall_impl; [|exact F]. intros q W. split; [exact I|]. split; [exact W|]. eexists. split; [reflexivity|apply comma_period; exact W].
  - rewrite (multi_not _ L).
    assert (D : (exists d, v = PyDateTime d /\ (t = T_DATE \/ t = T_DATETIME)) \/
      exists i, set_item t v = Some i /\ (forall z, app_zone t z i = i) /\ took z v (Single i) /\ left_with v (Single i) = v /\ item_ok ctx fl z i /\ item_type i = t /\ t <> T_GEO /\ t <> T_REQUEST_STATUS).
    { destruct t, v; try contradiction; try (left; eexists; split; [reflexivity|auto; fail]);
        right; eexists; (split; [reflexivity|]); (split; [reflexivity|]); (split; [reflexivity|]); (split; [reflexivity|]); (split; [|split; [reflexivity|split; discriminate]]); try exact I; try exact F; discriminate. }
    destruct D as [(d & -> & TT)|(i & -> & A & TK & LW & O & IT & G & R)].
    + assert (SI : set_item t (PyDateTime d) = Some (VDateTime d)) by (destruct TT; subst t; reflexivity). rewrite SI, (post_is _ _ z) by assumption.
      destruct (date_set z t d TT F) as (e & -> & RZ & O & D & UU). do 3 eexists. split; [reflexivity|]. cbn [pName pParams pValue took left_with]. do 3 (split; [reflexivity|]).
      split; [exact RZ|]. split.
      * split; [exact N|]. split; [exact P|]. exists (Single (VDateTime e)), z. split; [reflexivity|]. split; [exact Z|]. split; [|exact O].
        apply kept_single; try assumption; cbn; destruct (mDateOnly e); intros; discriminate.
      * intro H. rewrite UU; [reflexivity|]. destruct H as [H|H]; [auto|]. left. intros ->. exact (H T).
    + rewrite (post_is _ _ z), A by assumption. do 3 eexists. split; [reflexivity|]. cbn [pName pParams pValue]. do 3 (split; [reflexivity|]).
      split; [exact TK|]. split; [|intros _; exact LW]. split; [exact N|]. split; [exact P|]. exists (Single i), z. split; [reflexivity|]. split; [exact Z|]. split; [|exact O].
      apply kept_single; try assumption; rewrite IT; try assumption; [intros _; exact U|]. intros H E. apply H, K, E.
Qed.
End Set_.
