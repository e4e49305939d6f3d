(** Lemmas about making properties with registered names; as MakeProofs. *)
From Coq Require Import Lia.
From Verif Require Import PyBase PyProofs DateTimeModel DateTimeText DateTimeSpec2 DurationModel PeriodModel RecurModel RecurTextProofs PropertyModel LineProofs
  PropertyProofs PropertyProofs3 DeriveModel MakeModel MakeSpec MakeProofs RegisterModel RegisterSpec RegisterProofs RegisterProofs2 RegMakeModel RegMakeSpec.

Section Make.
Variable calls : list registration.
Notation g := (after_calls calls).
Lemma fresh_params name v : params_ok (reg_setup g name [] (Some v)).
Proof. rewrite reg_setup_eq. apply with_name_ok; [intros n H; eapply rname_ok, H|apply params_none]. Qed.
Lemma fresh_zone name v : tzid_of (reg_setup g name [] (Some v)) None.
Proof. constructor. rewrite reg_setup_eq, with_name_lookup by discriminate. reflexivity. Qed.
Lemma rkept_single name i : ~ listed name -> ~ structured_name name -> type_told calls name (Single i) -> reg_kept calls name (Single i).
Proof. intros L S T. unfold structured_name in S. split; [exact L|]. split; [tauto|]. split; [tauto|]. intros _. exact T. Qed.
Lemma rkept_multi name t l : listed name -> nameable t -> t <> T_TEXT -> reg_kept calls name (Multi t l).
Proof.
  intros L T N. split; [exact L|]. unfold listed, list_names in L. split; [intro H; exfalso; rewrite H in L; cbn in L; intuition discriminate|].
  split; [intro H; exfalso; rewrite H in L; cbn in L; intuition discriminate|]. intros _. right. left. split; [exact T|right; exact N].
Qed.
Lemma value_made ctx fl name v : name_ok name -> reg_kept calls name v -> prop_value_ok ctx fl None v -> reg_ok calls ctx fl (rm_value g name v).
Proof. intros N K V. split; [exact N|]. split; [apply fresh_params|]. exists v, None. split; [reflexivity|]. split; [apply fresh_zone|]. split; assumption. Qed.
Lemma rzone_case name v d : placed d ->
  (zone_of d = None /\ rm_zone d (reg_setup g name [] (Some v)) = reg_setup g name [] (Some v)) \/
  (exists z, zone_of d = Some z /\ value_ok z /\ rm_zone d (reg_setup g name [] (Some v)) = reg_setup g name [] (Some v) ++ [(lit "TZID", [(lit "TZID", [z])])]).
Proof.
  intros (P & Z & W). unfold rm_zone, zone_of in *. destruct (mDateOnly d) eqn:D; [left; split; reflexivity|]. cbn [negb andb]. destruct Z as [Z|Z]; [congruence|].
  unfold local. destruct (mTZID d) as [|z|n] eqn:E.
  - left. split; [reflexivity|]. rewrite Bool.andb_false_r. reflexivity.
  - right. exists z. destruct Z as [U _]. destruct W as [NE W]. split; [reflexivity|]. split; [exact W|]. rewrite U. cbn [negb andb]. destruct z; [congruence|].
    cbn [tz_true]. apply add_absent. rewrite reg_setup_eq. unfold with_name. cbn [del_param app]. destruct (rname g name v); reflexivity.
  - discriminate.
Qed.
Lemma rzone_ok name v d : placed d -> params_ok (rm_zone d (reg_setup g name [] (Some v))) /\ tzid_of (rm_zone d (reg_setup g name [] (Some v))) (zone_of d).
Proof.
  intro P. destruct (rzone_case name v d P) as [[-> ->]|(z & -> & W & ->)].
  - split; [apply fresh_params|apply fresh_zone].
  - pose proof (fresh_params name v) as [N F]. rewrite reg_setup_eq in *. unfold with_name in *. cbn [del_param app] in *. split.
    + destruct (rname g name v); cbn [app map fst] in *.
      * split; [repeat constructor; cbn; intuition discriminate|]. inversion F; subst. constructor; [assumption|]. constructor; [|constructor].
        split; [discriminate|]. constructor; [|constructor]. split; [reflexivity|]. split; [split; discriminate|]. split; [apply cin_in; reflexivity|]. split; [discriminate|]. constructor; [exact W|constructor].
      * split; [repeat constructor; cbn; tauto|]. constructor; [|constructor].
        split; [discriminate|]. constructor; [|constructor]. split; [reflexivity|]. split; [split; discriminate|]. split; [apply cin_in; reflexivity|]. split; [discriminate|]. constructor; [exact W|constructor].
    + apply (tz_some _ (lit "TZID") z []). destruct (rname g name v); reflexivity.
Qed.
Lemma told_name name i n t : item_type i = t -> value_param n t -> t <> T_TEXT -> type_told calls name (Single i).
Proof. intros E V T. right. left. cbn [value_type]. rewrite E. split; [exists n; exact V|right; exact T]. Qed.

Variables (ctx : pctx) (fl : floats) (zero : pyfloat).
Lemma text_made name vt s t : text_gets calls name vt t -> rm_text g zero name vt s = rm_value g name (Single (text_item zero t s)).
Proof.
  unfold rm_text. intros [u|u D|D]; [reflexivity| |].
  - apply default_table in D. rewrite D. reflexivity.
  - apply default_table_none in D. rewrite D. reflexivity.
Qed.
Lemma reg_make_ok name v vt : reg_suits calls ctx name v vt -> exists p w, reg_make g zero name v vt = Ok p /\ reg_ok calls ctx fl p /\ pName p = name /\ pValue p = Some w /\
  forall w', same_value w w' -> gives v w'.
Proof.
  intro S0. destruct v as [|s|d|d|r|p|n|l|l|l|n|]; cbn [reg_suits] in S0; [| |destruct S0 as [N S]; try destruct S as [H S]..]; try contradiction.
  - destruct S0 as [_ []].
  - (* str *) destruct S0 as (N & H & SN & t & V & T).
    cbn [reg_make]. rewrite (text_made _ _ _ _ V). do 2 eexists. split; [reflexivity|]. split; [|split; [reflexivity|split; [reflexivity|]]].
    + apply value_made; [exact N| |].
      * apply rkept_single; try assumption. cbn [value_type]. destruct t; cbn in *; try contradiction.
        -- right. left. split; [exists (lit "BINARY"); constructor|right; discriminate].
        -- right. left. split; [exists (lit "CAL-ADDRESS"); constructor|right; discriminate].
        -- right. left. split; [exists (lit "TEXT"); constructor|left; exact T].
        -- right. right. split; [reflexivity|exact T].
        -- right. left. split; [exists (lit "URI"); constructor|right; discriminate].
      * destruct t; cbn in *; try contradiction; try exact I; try discriminate. exact T.
    + intros [j|]; [|intros []]. destruct t; cbn [text_item] in *; try contradiction; cbn [same_value same_item]; intro X; rewrite <- X; reflexivity.
  - (* date *) destruct S as (SN & P). cbn [reg_make]. do 2 eexists. split; [reflexivity|]. unfold rm_date. cbv zeta.
    destruct (rzone_ok name (Single (VDateTime d)) d P) as [PO TZ].
    split; [|split; [reflexivity|split; [reflexivity|]]].
    + split; [exact N|]. split; [exact PO|]. exists (Single (VDateTime d)), (zone_of d). split; [reflexivity|]. split; [exact TZ|]. split.
      * apply rkept_single; [assumption..|]. destruct (mDateOnly d) eqn:D; [apply (told_name _ _ (lit "DATE") T_DATE)|apply (told_name _ _ (lit "DATE-TIME") T_DATETIME)]; try discriminate; try constructor; cbn; rewrite D; reflexivity.
      * split; apply P.
    + intros [[]|]; cbn; try discriminate; try tauto.
  - (* duration *) destruct S as (SN & P). cbn [reg_make]. do 2 eexists. split; [reflexivity|].
    split; [|split; [reflexivity|split; [reflexivity|]]].
    + apply value_made; [exact N| |exact P]. apply rkept_single; [assumption..|]. apply (told_name _ _ (lit "DURATION") T_DURATION); [reflexivity|constructor|discriminate].
    + intros [[]|]; cbn; try discriminate; try tauto.
  - (* rule *) destruct S as (SN & P). cbn [reg_make]. do 2 eexists. split; [reflexivity|].
    split; [|split; [reflexivity|split; [reflexivity|]]].
    + apply value_made; [exact N| |exact P]. apply rkept_single; [assumption..|]. apply (told_name _ _ (lit "RECUR") T_RECUR); [reflexivity|constructor|discriminate].
    + intros [[]|]; cbn; try discriminate; try tauto.
  - (* period *) destruct S as (SN & P). cbn [reg_make]. do 2 eexists. split; [reflexivity|].
    split; [|split; [reflexivity|split; [reflexivity|]]].
    + apply value_made; [exact N| |exact P]. apply rkept_single; [assumption..|]. apply (told_name _ _ (lit "PERIOD") T_PERIOD); [reflexivity|constructor|discriminate].
    + intros [[]|]; cbn; try discriminate; try tauto.
  - (* int *) cbn [reg_make]. do 2 eexists. split; [reflexivity|].
    split; [|split; [reflexivity|split; [reflexivity|]]].
    + apply value_made; [exact N| |exact I]. apply rkept_single; [assumption..|]. apply (told_name _ _ (lit "INTEGER") T_INTEGER); [reflexivity|constructor|discriminate].
    + intros [[]|]; cbn; try discriminate; try tauto. congruence.
  - (* texts *)
    assert (R : upper name = lit "REQUEST-STATUS" /\ item_ok ctx fl None (VStatus l)) by (destruct l as [|a [|b [|c [|]]]]; try contradiction; split; first [exact (proj1 S)|exact (proj2 S)]).
    destruct R as [R O]. cbn [reg_make]. rewrite R. cbn [beq]. replace (beq (lit "REQUEST-STATUS") (lit "REQUEST-STATUS")) with true by reflexivity.
    do 2 eexists. split; [reflexivity|]. split; [|split; [reflexivity|split; [reflexivity|]]].
    + apply value_made; [exact N| |exact O]. split; [intro X; rewrite R in X; cbn in X; intuition discriminate|]. cbn [value_type item_type]. rewrite R.
      split; [discriminate|]. split; [reflexivity|]. intro X. destruct X. right. exact R.
    + intros [j|]; [|intros []]. cbn. intro X. subst. reflexivity.
  - (* dates *)
    destruct l as [|d l]; [destruct S|]. destruct S as (L & P & F). cbn [reg_make]. do 2 eexists. split; [reflexivity|]. unfold rm_dates. cbv zeta.
    set (t := if mDateOnly d then T_DATE else T_DATETIME). set (w := Multi t (map VDateTime (d :: l))).
    destruct (rzone_ok name w d P) as [PO TZ].
    split; [|split; [reflexivity|split; [reflexivity|]]].
    + split; [exact N|]. split; [exact PO|]. exists w, (zone_of d). split; [reflexivity|]. split; [exact TZ|]. split.
      * unfold w, t. destruct (mDateOnly d); (apply rkept_multi; [assumption|eexists; constructor|discriminate]).
      * split; [discriminate|]. apply Forall_map. 
        assert (G : forall e, printable e -> mDateOnly e = mDateOnly d -> in_zone (zone_of d) e ->
          made_by t (VDateTime e) /\ item_ok ctx fl (match t with T_DATETIME => zone_of d | _ => None end) (VDateTime e) /\ exists s, item_generate fl (VDateTime e) = Ok s /\ ~ In ","%char s).
        { intros e A B C. split; [unfold t; destruct (mDateOnly d); exact I|]. split; [|eexists; split; [reflexivity|eapply comma_text; eassumption]].
          split; [exact A|]. unfold t. destruct (mDateOnly d) eqn:D; [left; exact B|exact C]. }
        constructor; [apply G; [apply P|reflexivity|apply P]|]. eapply Forall_impl; [|exact F]. intros e (A & B & C). apply G; assumption.
    + intros [|t' m]; [intros []|]. intros [_ F2]. apply dates_given. exact F2.
  - (* periods *)
    assert (S' : l <> [] /\ listed name /\ Forall period_wf l) by (destruct l; [destruct S|split; [discriminate|exact S]]).
    destruct S' as (NE & L & F). assert (E : reg_make g zero name (PyPeriods l) vt = Ok (rm_value g name (Multi T_PERIOD (map VPeriod l)))) by (destruct l; [congruence|reflexivity]).
    rewrite E. do 2 eexists. split; [reflexivity|]. split; [|split; [reflexivity|split; [reflexivity|]]].
    + apply value_made; [exact N|apply rkept_multi; [assumption|eexists; constructor|discriminate]|]. split; [destruct l; [congruence|discriminate]|]. apply Forall_map.
      eapply Forall_impl; [|exact F]. intros p W. split; [exact I|]. split; [exact W|]. eexists. split; [reflexivity|apply comma_period; exact W].
    + intros [|t' m]; [intros []|]. intros [_ F2]. apply periods_given. exact F2.
  - (* offset *) destruct S as (SN & P). cbn [reg_make]. do 2 eexists. split; [reflexivity|].
    split; [|split; [reflexivity|split; [reflexivity|]]].
    + apply value_made; [exact N| |exact P]. apply rkept_single; [assumption..|]. apply (told_name _ _ (lit "UTC-OFFSET") T_UTC_OFFSET); [reflexivity|constructor|discriminate].
    + intros [[]|]; cbn; try discriminate; try tauto. congruence.
Qed.

End Make.

(** ** Other values. *)
Lemma zone_lookup d ps qs k : (forall k, k <> lit "VALUE" -> assoc k ps = assoc k qs) -> k <> lit "VALUE" -> lookup k (rm_zone d ps) = lookup k (rm_zone d qs).
Proof.
  intros H K. unfold rm_zone. rewrite !assoc_lookup. destruct (_ && _); [|rewrite (H k K); reflexivity].
  assert (A : forall k key p l, assoc k (add_param key p l) = if beq key k then Some (match assoc key l with Some m => m | None => [] end ++ [p]) else assoc k l).
  { clear. intros k key p l. induction l as [|[k' m] l IH]; cbn [add_param assoc]; [destruct (beq key k); reflexivity|].
    destruct (beq_case k' key) as [[-> E]|[D E]]; rewrite E; cbn [assoc].
    - destruct (beq key k); reflexivity.
    - rewrite IH. destruct (beq_case k' k) as [[-> E2]|[_ E2]]; rewrite E2; [|reflexivity].
      destruct (beq_case key k) as [[E3 _]|[_ ->]]; [congruence|reflexivity]. }
  rewrite !A. rewrite (H k K). rewrite (H (lit "TZID")) by discriminate. reflexivity.
Qed.
Lemma setup_assoc calls name v k : k <> lit "VALUE" -> assoc k (reg_setup (after_calls calls) name [] (Some v)) = None /\ assoc k (setupValueParameter name [] (Some v)) = None.
Proof.
  intro K. rewrite reg_setup_eq, setup_eq. unfold with_name. cbn [del_param app].
  split; [destruct (rname _ name v)|destruct (vname name v)]; try reflexivity; cbn [assoc]; (destruct (beq_case (lit "VALUE") k) as [[E _]|[_ ->]]; [congruence|reflexivity]).
Qed.
Lemma setup_lookup calls name v k : k <> lit "VALUE" -> lookup k (reg_setup (after_calls calls) name [] (Some v)) = lookup k (setupValueParameter name [] (Some v)).
Proof. intro K. rewrite !assoc_lookup. destruct (setup_assoc calls name v k K) as [-> ->]. reflexivity. Qed.
Lemma zone_setup calls name v d k : k <> lit "VALUE" -> lookup k (rm_zone d (reg_setup (after_calls calls) name [] (Some v))) = lookup k (rm_zone d (setupValueParameter name [] (Some v))).
Proof. apply zone_lookup. intros k' K. destruct (setup_assoc calls name v k' K) as [-> ->]. reflexivity. Qed.
Lemma reg_make_values calls zero name v vt : is_str v = false ->
  match reg_make (after_calls calls) zero name v vt, make zero name v vt with
  | Ok p, Ok q => pName p = pName q /\ pValue p = pValue q /\ forall k, k <> lit "VALUE" -> lookup k (pParams p) = lookup k (pParams q)
  | Raise e, Raise e' => e = e'
  | _, _ => False
  end.
Proof.
  intro S. destruct v as [|s|d|d|r|p|n|l|l|l|n|]; try discriminate S; cbn [reg_make make]; try (split; [reflexivity|]; split; [reflexivity|]; reflexivity);
    try (split; [reflexivity|]; split; [reflexivity|]; intros k K; apply setup_lookup; exact K).
  - split; [reflexivity|]. split; [reflexivity|]. intros k K. apply (zone_setup calls name (Single (VDateTime d)) d k K).
  - destruct (beq _ _); [|destruct l; [|reflexivity]]; (split; [reflexivity|]; split; [reflexivity|]; intros k K; apply setup_lookup; exact K).
  - split; [reflexivity|]. split; [reflexivity|]. intros k K. unfold rm_dates, dates_prop. cbv zeta. cbn [pParams]. destruct l as [|d l]; [apply setup_lookup; exact K|].
    apply (zone_setup calls name _ d k K).
  - destruct l; (split; [reflexivity|]; split; [reflexivity|]; intros k K; apply setup_lookup; exact K).
Qed.
Lemma reg_make_untouched calls zero name v vt : untouched calls name -> reg_make (after_calls calls) zero name v vt = make zero name v vt.
Proof.
  intro U. assert (S : forall w, reg_setup (after_calls calls) name [] (Some w) = setupValueParameter name [] (Some w)) by (intro w; apply reg_setup_untouched; exact U).
  assert (V : forall w, rm_value (after_calls calls) name w = with_value name w) by (intro w; unfold rm_value, with_value; rewrite S; reflexivity).
  destruct v as [|s|d|d|r|p|n|l|l|l|n|]; cbn [reg_make make]; rewrite ?V; try reflexivity.
  - unfold rm_text, text_prop. rewrite (untouched_types calls _ U), V. reflexivity.
  - unfold rm_date, date_prop. cbv zeta. rewrite S. reflexivity.
  - destruct (beq _ _); [reflexivity|]. destruct l; [|reflexivity]. unfold rm_dates, dates_prop. cbv zeta. rewrite S. reflexivity.
  - unfold rm_dates, dates_prop. cbv zeta. rewrite S. reflexivity.
  - destruct l; [|reflexivity]. unfold rm_dates, dates_prop. cbv zeta. rewrite S. reflexivity.
Qed.

(** ** The VALUE parameter. *)
Lemma zone_value d ps : lookup (lit "VALUE") (rm_zone d ps) = lookup (lit "VALUE") ps.
Proof.
  unfold rm_zone. destruct (_ && _); [|reflexivity]. induction ps as [|[k l] ps IH]; cbn [add_param lookup]; [reflexivity|].
  destruct (beq_case k (lit "TZID")) as [[-> E]|[_ E]]; rewrite E; cbn [lookup]; [reflexivity|]. rewrite IH. reflexivity.
Qed.
Lemma made_params calls zero name v vt p w : reg_make (after_calls calls) zero name v vt = Ok p -> pValue p = Some w ->
  lookup (lit "VALUE") (pParams p) = match rname (after_calls calls) name w with Some n => [(lit "VALUE", [n])] | None => [] end.
Proof.
  assert (S : forall u, lookup (lit "VALUE") (reg_setup (after_calls calls) name [] (Some u)) = match rname (after_calls calls) name u with Some n => [(lit "VALUE", [n])] | None => [] end).
  { intro u. rewrite reg_setup_eq. unfold with_name. cbn [del_param app]. destruct (rname _ name u); reflexivity. }
  assert (D : forall l, lookup (lit "VALUE") (pParams (rm_dates (after_calls calls) name l)) =
    match rname (after_calls calls) name (Multi (if match l with d :: _ => mDateOnly d | [] => false end then T_DATE else T_DATETIME) (map VDateTime l)) with Some n => [(lit "VALUE", [n])] | None => [] end).
  { intro l. unfold rm_dates. cbv zeta. cbn [pParams]. destruct l as [|d l]; [apply S|]. rewrite zone_value. apply S. }
  destruct v as [|s|d|d|r|q|n|l|l|l|n|]; cbn [reg_make]; intro H.
  all: try (apply Ok_inj in H; subst p; cbn [pValue rm_value rm_text]; intro E; try discriminate E; injection E as <-; first [apply S|apply D|idtac]).
  - unfold rm_date. cbv zeta. cbn [pParams]. rewrite zone_value. apply S.
  - destruct (beq _ _); [|destruct l; [|discriminate H]]; apply Ok_inj in H; subst p; cbn [pValue rm_value]; intro E; injection E as <-; [apply S|apply D].
  - destruct l as [|x l]; apply Ok_inj in H; subst p; cbn [pValue rm_value]; intro E; injection E as <-; [apply D|apply S].
Qed.
Lemma reg_make_param calls zero name v vt p w : ~ special name -> reg_make (after_calls calls) zero name v vt = Ok p -> pValue p = Some w ->
  (says_type calls name w -> exists n, value_param n (value_type w) /\ lookup (lit "VALUE") (pParams p) = [(lit "VALUE", [n])]) /\
  (default_of calls (upper name) (value_type w) -> ~ always calls (upper name) -> lookup (lit "VALUE") (pParams p) = []).
Proof.
  intros Sp H V. rewrite (made_params _ _ _ _ _ _ _ H V), (rname_plain calls name w Sp). clear H V. split.
  - intros [[n V] W]. exists n. split; [exact V|]. assert (T : type_name (value_type w) = Some n) by (destruct V; reflexivity). rewrite T.
    destruct W as [(d & D & W)|[D W]].
    + apply default_table in D. rewrite D. destruct (veqb d (value_type w)) eqn:B; cbn [negb orb]; [|reflexivity]. apply veqb_spec in B. destruct W as [W|W]; [contradiction|].
      apply always_table in W. rewrite W. reflexivity.
    + apply default_table_none in D. rewrite D. destruct (veqb (value_type w) T_TEXT) eqn:B; [apply veqb_spec in B; contradiction|reflexivity].
  - intros D A. apply default_table in D. apply always_table_no in A. rewrite D, A, veqb_refl. destruct (type_name (value_type w)); reflexivity.
Qed.
