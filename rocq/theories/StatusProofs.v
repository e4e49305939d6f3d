(** Proofs for C71. *)
From Coq Require Import Lia.
From Verif Require Import PyBase PyProofs LineModel LineSpec LineProofs TextModel TextSpec TextProofs DateTimeModel DateTimeText DateTimeSpec2 PropertyModel PropertySpec PropertyProofs
  PeriodProofs ComponentModel ComponentSpec ComponentProofs ComponentProofs2 ValidateSpec ValidateProofs DeriveModel MakeModel MakeSpec MakeProofs AlarmModel AlarmSpec AlarmProofs StatusModel StatusSpec.

(** ** Texts *)
Definition text_names : list bytes := [lit "SUMMARY"; lit "DESCRIPTION"; lit "LOCATION"; lit "STATUS"].
Lemma text_made name s : In name text_names -> text_prop 0 name None s = mkProp name [] (Some (Single (VText s))).
Proof. intro H. repeat (destruct H as [<-|H]; [reflexivity|]). destruct H. Qed.
Lemma text_upper name : In name text_names -> upper name = name.
Proof. intro H. repeat (destruct H as [<-|H]; [reflexivity|]). destruct H. Qed.
Lemma get_edit name n v ps : tidy_props ps -> In n text_names ->
  getProperties name (editProperty n v ps) =
  if beq n name then match v with None | Some [] => [] | Some t => [mkProp n [] (Some (Single (VText t)))] end else getProperties name ps.
Proof.
  intros T I. unfold editProperty. destruct v as [[|c r]|].
  - rewrite get_remove by exact T. destruct (beq n name); reflexivity.
  - rewrite text_made by exact I. rewrite (get_put name n (mkProp n [] (Some (Single (VText (c :: r)))))) by (exact T || reflexivity || apply text_upper, I). reflexivity.
  - rewrite get_remove by exact T. destruct (beq n name); reflexivity.
Qed.
Lemma tidy_edit n v ps : tidy_props ps -> In n text_names -> tidy_props (editProperty n v ps).
Proof.
  intros T I. unfold editProperty. destruct v as [[|c r]|]; try (apply tidy_remove; exact T).
  rewrite text_made by exact I. apply put_tidy; [exact T|reflexivity|apply text_upper, I].
Qed.
Lemma said_edit n v ps : tidy_props ps -> In n text_names -> says_text n v (editProperty n v ps).
Proof. intros T I. unfold says_text. rewrite get_edit, beq_refl by assumption. reflexivity. Qed.
Lemma kept_edit name n v ps : tidy_props ps -> In n text_names -> name <> n -> getProperties name (editProperty n v ps) = getProperties name ps.
Proof. intros T I N. rewrite get_edit by assumption. destruct (beq_case n name) as [[E _]|[_ ->]]; [congruence|reflexivity]. Qed.

Ltac tn := cbn; tauto.
Ltac differ := discriminate.

(** ** What is loaded *)
Lemma load_get {A} (get : option value -> option A) name ps qs : getProperties name qs = getProperties name ps -> load get name qs = load get name ps.
Proof. intro H. unfold load, findFirstProperty. rewrite H. reflexivity. Qed.
Lemma loaded_text name s ps : says_text name s ps -> loadString name ps = match s with None | Some [] => None | Some t => Some t end.
Proof. intro H. unfold loadString, load, findFirstProperty. rewrite H. destruct s as [[|]|]; reflexivity. Qed.

Lemma event_word s : 0 <= s <= 3 -> vevent_text s = status_word VEVENT s.
Proof. intro H. assert (C : s = 0 \/ s = 1 \/ s = 2 \/ s = 3) by lia. destruct C as [->|[->|[->| ->]]]; reflexivity. Qed.
Lemma event_back s : 0 <= s <= 3 -> match status_word VEVENT s with Some t => vevent_status t = Some s /\ t <> [] | None => s = 0 end.
Proof. intro H. assert (C : s = 0 \/ s = 1 \/ s = 2 \/ s = 3) by lia. destruct C as [->|[->|[->| ->]]]; cbn; repeat split; discriminate. Qed.

Section WithTz.
Variable tzo : tzid -> Z -> Z -> Z -> Z -> Z -> Z -> bool -> bool -> Z.

Lemma utc_params d : let d' := adjustToUTC tzo d in
  pParams (date_prop (lit "COMPLETED") d') = setupValueParameter (lit "COMPLETED") [] (Some (Single (VDateTime d'))).
Proof.
  cbv zeta. unfold date_prop. cbn [pParams]. destruct (negb (mDateOnly (adjustToUTC tzo d)) && local (adjustToUTC tzo d)) eqn:C; [exfalso|reflexivity].
  unfold adjustToUTC in C. destruct (local d && negb (mDateOnly d)) eqn:L.
  - destruct (timeZoneSecondsOffset tzo d false) as [d1 off]. apply Bool.andb_true_iff in C as [_ C]. unfold local in C. apply Bool.andb_true_iff in C as [C _].
    assert (U : forall x n, mTZUTC x = true -> mTZUTC (offsetSeconds x n) = true).
    { intros x n. unfold offsetSeconds, normalise. destruct x. cbn. intro. repeat (match goal with |- context [if ?b then _ else _] => destruct b | |- context [let (_, _) := ?p in _] => destruct p end; cbn); assumption. }
    destruct (mPosixTimeCached d); cbn in C; rewrite U in C by reflexivity; discriminate C.
  - rewrite Bool.andb_comm in C. congruence.
Qed.

Definition detail_done (k : kind) (x : detail_call) (ps ps' : props) (e e' : details) : Prop :=
  tidy_props ps' /\ kept_but (touched_by x) ps ps' /\ detail_given tzo k x ps ps' e e' /\ (in_step k ps e -> in_step k ps' e').

(** The other texts and numbers are loaded as before. *)
Lemma step_other k ps ps' e e' x : kept_but (touched_by x) ps ps' ->
  ePriority e' = ePriority e -> ePercent e' = ePercent e ->
  (In (lit "SUMMARY") (touched_by x) \/ eSummary e' = eSummary e) ->
  (In (lit "STATUS") (touched_by x) \/ eStatus e' = eStatus e) ->
  (In (lit "COMPLETED") (touched_by x) \/ (eHasCompleted e' = eHasCompleted e /\ eCompleted e' = eCompleted e)) ->
  (In (lit "SUMMARY") (touched_by x) -> eSummary (details_finalise k ps' newDetails) = eSummary e') ->
  (In (lit "STATUS") (touched_by x) -> eStatus (details_finalise k ps e) = eStatus (details_finalise k ps e) -> eStatus (details_finalise k ps' newDetails) = eStatus e') ->
  (In (lit "COMPLETED") (touched_by x) -> k = VTODO -> let f := details_finalise k ps' newDetails in
     eHasCompleted f = eHasCompleted e' /\ (eHasCompleted f = true -> eCompleted f = eCompleted e')) ->
  in_step k ps e -> in_step k ps' e'.
Proof.
  intros K P1 P2 A B C SA SB SC (I1 & I2 & I3).
  assert (D : forall n, {In n (touched_by x)} + {~ In n (touched_by x)}) by (intro n; apply in_dec, list_eq_dec, ascii_dec).
  assert (NP : ~ In (lit "PRIORITY") (touched_by x) /\ ~ In (lit "PERCENT-COMPLETE") (touched_by x)) by (destruct x; cbn; split; intuition discriminate).
  split; [|split].
  - destruct (D (lit "SUMMARY")) as [Y|N]; [apply SA, Y|]. destruct A as [A|A]; [contradiction|]. rewrite A, <- I1. pose proof (K _ N) as G.
    destruct k; cbn; unfold load_summary, loadString; rewrite (load_get _ _ _ _ G); reflexivity.
  - destruct (D (lit "STATUS")) as [Y|N]; [apply SB; [exact Y|reflexivity]|]. destruct B as [B|B]; [contradiction|]. rewrite B, <- I2. pose proof (K _ N) as G.
    destruct k; cbn; unfold load_status, loadString; rewrite ?(load_get _ _ _ _ G); reflexivity.
  - destruct k; try exact I. destruct I3 as (J1 & J2 & J3 & J4). rewrite P1, P2, <- J1, <- J2. cbn [details_finalise ePriority ePercent].
    unfold loadInteger. rewrite (load_get _ _ _ _ (K _ (proj1 NP))), (load_get _ _ _ _ (K _ (proj2 NP))). split; [reflexivity|]. split; [reflexivity|].
    destruct (D (lit "COMPLETED")) as [Y|N]; [exact (SC Y eq_refl)|]. destruct C as [C|[C1 C2]]; [contradiction|]. rewrite C1, C2, <- J3. pose proof (K _ N) as G.
    cbn [details_finalise eHasCompleted eCompleted] in *. unfold loadDateTime in *. rewrite (load_get _ _ _ _ G). split; [reflexivity|exact J4].
Qed.

Lemma summary_done k s ps e : s <> Some [] -> tidy_props ps -> exists ps' e', editSummary s (ps, e) = ((ps', e'), Ok tt) /\ detail_done k (CallSummary s) ps ps' e e'.
Proof.
  intros NE T. unfold editSummary. do 2 eexists. split; [reflexivity|].
  pose proof (said_edit (lit "SUMMARY") s ps T ltac:(tn)) as SD.
  assert (K : kept_but [lit "SUMMARY"] ps (editProperty (lit "SUMMARY") s ps)) by (intros n N; apply kept_edit; [exact T|tn|]; intros ->; apply N; left; reflexivity).
  split; [apply tidy_edit; [exact T|tn]|]. split; [exact K|]. split; [repeat split; try reflexivity; exact SD|].
  apply (step_other k _ _ _ _ (CallSummary s)); try exact K; try reflexivity; try (right; split; reflexivity); try (right; reflexivity); try (left; left; reflexivity).
  - intros _. assert (L : load_summary (editProperty (lit "SUMMARY") s ps) None = s).
    { unfold load_summary. rewrite (loaded_text _ _ _ SD). destruct s as [[|]|]; [congruence|reflexivity|reflexivity]. }
    destruct k; exact L.
  - intros [H|[]]; discriminate H.
  - intros [H|[]]; discriminate H.
Qed.
Lemma details_done k d l ps e : tidy_props ps -> exists ps' e', editDetails d l (ps, e) = ((ps', e'), Ok tt) /\ detail_done k (CallDetails d l) ps ps' e e'.
Proof.
  intros T. unfold editDetails. do 2 eexists. split; [reflexivity|].
  pose proof (tidy_edit (lit "DESCRIPTION") d ps T ltac:(tn)) as T1.
  set (ps' := editProperty (lit "LOCATION") l _).
  assert (K : kept_but [lit "DESCRIPTION"; lit "LOCATION"] ps ps').
  { intros n N. unfold ps'. rewrite !kept_edit; try assumption; try tn; try reflexivity; intros ->; apply N; tn. }
  split; [apply tidy_edit; [exact T1|tn]|]. split; [exact K|]. split.
  - split; [reflexivity|]. split; [reflexivity|]. split; [|split; [apply said_edit; [exact T1|tn]|reflexivity]].
    unfold says_text, ps'. rewrite kept_edit by (exact T1 || tn || discriminate). apply said_edit; [exact T|tn].
  - apply (step_other k _ _ _ _ (CallDetails d l)); try exact K; try reflexivity; try (right; split; reflexivity); try (right; reflexivity);
      try (intros [H|[H|[]]]; discriminate H).
Qed.
Lemma event_done s ps e : 0 <= s <= 3 -> tidy_props ps -> exists ps' e', vevent_editStatus s (ps, e) = ((ps', e'), Ok tt) /\ detail_done VEVENT (CallStatus s) ps ps' e e'.
Proof.
  intros R T. unfold vevent_editStatus. destruct (eStatus e =? s) eqn:Q.
  - apply Z.eqb_eq in Q. exists ps, e. split; [reflexivity|]. split; [exact T|]. split; [intros n _; reflexivity|]. split; [|tauto].
    split; [reflexivity|]. split; [reflexivity|]. cbn [detail_given]. split; [exact Q|]. split; [reflexivity|]. rewrite (proj2 (Z.eqb_eq _ _) Q). split; reflexivity.
  - do 2 eexists. split; [reflexivity|]. rewrite event_word by exact R. pose proof (event_back s R) as W.
    set (ps' := match status_word VEVENT s with Some _ => _ | None => _ end).
    assert (E : ps' = editProperty (lit "STATUS") (status_word VEVENT s) ps).
    { unfold ps', editProperty. destruct (status_word VEVENT s) as [[|c t]|]; [destruct W; congruence|reflexivity|reflexivity]. }
    pose proof (said_edit (lit "STATUS") (status_word VEVENT s) ps T ltac:(tn)) as SD. rewrite <- E in SD.
    assert (K1 : forall n, n <> lit "STATUS" -> getProperties n ps' = getProperties n ps) by (intros n N; rewrite E; apply kept_edit; [exact T|tn|exact N]).
    assert (K : kept_but (touched_by (CallStatus s)) ps ps') by (intros n N; apply K1; intros ->; apply N; left; reflexivity).
    split; [rewrite E; apply tidy_edit; [exact T|tn]|]. split; [exact K|]. split.
    + split; [reflexivity|]. split; [reflexivity|]. cbn [detail_given]. split; [reflexivity|]. split; [reflexivity|]. rewrite Q. split; [exact SD|]. split; [apply K1; discriminate|split; reflexivity].
    + apply (step_other VEVENT _ _ _ _ (CallStatus s)); try exact K; try reflexivity; try (right; split; reflexivity); try (right; reflexivity); try (left; tn).
      * intros [H|[H|[]]]; discriminate H.
      * intros _ _. cbn [details_finalise eStatus]. unfold load_status. rewrite (loaded_text _ _ _ SD). destruct (status_word VEVENT s) as [[|c t]|]; [destruct W; congruence| |subst; reflexivity].
        destruct W as [-> _]. reflexivity.
      * intros _ H. discriminate H.
Qed.
Lemma todo_done s ps e : s = 1 \/ s = 2 \/ s = 4 -> tidy_props ps -> exists ps' e', vtodo_editStatus s (ps, e) = ((ps', e'), Ok tt) /\ detail_done VTODO (CallStatus s) ps ps' e e'.
Proof.
  intros R T. unfold vtodo_editStatus. destruct (eStatus e =? s) eqn:Q.
  - apply Z.eqb_eq in Q. exists ps, e. split; [reflexivity|]. split; [exact T|]. split; [intros n _; reflexivity|]. split; [|tauto].
    split; [reflexivity|]. split; [reflexivity|]. cbn [detail_given]. split; [exact Q|]. split; [reflexivity|]. rewrite (proj2 (Z.eqb_eq _ _) Q). split; reflexivity.
  - assert (X : exists t, t <> [] /\ vtodo_text s = Some t /\ status_word VTODO s = Some t /\ vtodo_status t = Some s /\ (s =? 3) = false)
      by (destruct R as [->|[->| ->]]; eexists; (split; [|split; [reflexivity|split; [reflexivity|split; reflexivity]]]); discriminate).
    destruct X as (t & NE & X1 & X2 & X3 & X4). rewrite X4, X1. do 2 eexists. split; [reflexivity|].
    set (p := text_prop 0 _ None t).
    assert (T0 : tidy_props (removeProperties (lit "COMPLETED") (removeProperties (lit "STATUS") ps))) by (apply tidy_remove, tidy_remove, T).
    set (ps' := addProperty p _).
    assert (G : forall n, getProperties n ps' = if beq (lit "STATUS") n then [mkProp (lit "STATUS") [] (Some (Single (VText t)))] else if beq (lit "COMPLETED") n then [] else getProperties n ps).
    { intro n. unfold ps', addProperty. change (upper (pName p)) with (lit "STATUS"). rewrite get_add, !get_remove by (exact T || apply tidy_remove, T).
      change p with (mkProp (lit "STATUS") [] (Some (Single (VText t)))). destruct (beq_case (lit "STATUS") n) as [[<- _]|[_ ->]]; [reflexivity|]. apply app_nil_r. }
    assert (SD : says_text (lit "STATUS") (Some t) ps') by (unfold says_text; rewrite G, beq_refl; destruct t; [congruence|reflexivity]).
    assert (NC : getProperties (lit "COMPLETED") ps' = []) by (rewrite G; reflexivity).
    assert (K : kept_but (touched_by (CallStatus s)) ps ps').
    { intros n N. rewrite G. cbn in N. destruct (beq_case (lit "STATUS") n) as [[<- _]|[_ ->]]; [tauto|]. destruct (beq_case (lit "COMPLETED") n) as [[<- _]|[_ ->]]; [tauto|reflexivity]. }
    split; [apply tidy_addp; [reflexivity|exact T0]|]. split; [exact K|]. split.
    + split; [reflexivity|]. split; [reflexivity|]. cbn [detail_given]. split; [reflexivity|]. split; [reflexivity|]. rewrite Q, X2. split; [exact SD|]. split; [exact NC|reflexivity].
    + apply (step_other VTODO _ _ _ _ (CallStatus s)); try exact K; try reflexivity; try (right; split; reflexivity); try (right; reflexivity); try (left; tn).
      * intros [H|[H|[]]]; discriminate H.
      * intros _ _. cbn [details_finalise eStatus]. unfold load_status. rewrite (loaded_text _ _ _ SD). destruct t; [congruence|]. rewrite X3. reflexivity.
      * intros _ _. cbn [details_finalise eHasCompleted eCompleted put_status]. unfold loadDateTime, load, findFirstProperty. rewrite NC. split; [reflexivity|discriminate].
Qed.
Lemma completed_done d ps e : tidy_props ps -> exists ps' e', editCompleted tzo d (ps, e) = ((ps', e'), Ok tt) /\ detail_done VTODO (CallCompleted d) ps ps' e e'.
Proof.
  intro T. unfold editCompleted. do 2 eexists. split; [reflexivity|]. set (d' := adjustToUTC tzo d). set (p := date_prop _ d'). set (ps' := addProperty p _).
  pose proof (put_self (lit "COMPLETED") p ps T eq_refl eq_refl) as G. fold ps' in G.
  pose proof (put_kept (lit "COMPLETED") p ps T eq_refl eq_refl) as K. fold ps' in K.
  split; [apply put_tidy; [exact T|reflexivity..]|]. split; [exact K|]. split.
  - repeat split. exists p. split; [exact G|]. split; [reflexivity|]. constructor; [|constructor]. cbn [fst snd]. unfold p, d'. rewrite utc_params, lookup_setup by discriminate. reflexivity.
  - apply (step_other VTODO _ _ _ _ (CallCompleted d)); try exact K; try reflexivity; try (right; split; reflexivity); try (right; reflexivity); try (left; tn).
    + intros [H|[]]; discriminate H.
    + intros [H|[]]; discriminate H.
    + intros _ _. cbn [details_finalise eHasCompleted eCompleted]. unfold loadDateTime, load, findFirstProperty. rewrite G. split; [reflexivity|]. intros _. reflexivity.
Qed.
Lemma detail_step k x ps e : fair_detail k x -> tidy_props ps -> exists ps' e', edit_detail tzo k x (ps, e) = ((ps', e'), Ok tt) /\ detail_done k x ps ps' e e'.
Proof.
  intros F T. destruct x as [s|d l|s|d]; cbn [edit_detail fair_detail] in *.
  - apply summary_done; assumption.
  - apply details_done; assumption.
  - destruct F as [[-> F]|[-> F]]; [apply event_done|apply todo_done]; assumption.
  - subst k. apply completed_done; assumption.
Qed.
Lemma details_steps k l : forall ps e, Forall (fair_detail k) l -> tidy_props ps -> in_step k ps e ->
  exists ps' e', edit_details tzo k l (ps, e) = ((ps', e'), Ok tt) /\ in_step k ps' e' /\ tidy_props ps' /\ kept_but (flat_map touched_by l) ps ps'.
Proof.
  induction l as [|x l IH]; intros ps e F T S; cbn [edit_details].
  - exists ps, e. split; [reflexivity|]. split; [exact S|]. split; [exact T|]. intros n _. reflexivity.
  - inversion F as [|? ? F1 F2]; subst. destruct (detail_step k x ps e F1 T) as (ps1 & e1 & -> & T1 & K1 & _ & S1).
    destruct (IH ps1 e1 F2 T1 (S1 S)) as (ps2 & e2 & -> & S2 & T2 & K2). exists ps2, e2. split; [reflexivity|]. split; [exact S2|]. split; [exact T2|].
    intros n N. cbn [flat_map] in N. rewrite in_app_iff in N. rewrite K2, K1 by tauto. reflexivity.
Qed.

Lemma details_read k ps ps' e : same_props ps ps' -> in_step k ps e -> details_rel same_when k e (details_finalise k ps' newDetails).
Proof.
  intros G (I1 & I2 & I3). unfold details_rel. rewrite <- I1, <- I2.
  split; [destruct k; cbn; unfold load_summary; rewrite (string_rel _ _ _ G); reflexivity|].
  split; [destruct k; cbn; unfold load_status; rewrite ?(string_rel _ _ _ G); reflexivity|].
  destruct k; try exact I. destruct I3 as (J1 & J2 & J3 & J4). rewrite <- J1, <- J2, <- J3. cbn [details_finalise ePriority ePercent eHasCompleted eCompleted] in *.
  rewrite !(integer_rel _ _ _ G). split; [reflexivity|]. split; [reflexivity|]. pose proof (datetime_rel (lit "COMPLETED") _ _ G) as D.
  destruct (loadDateTime (lit "COMPLETED") ps) as [d|], (loadDateTime (lit "COMPLETED") ps') as [d'|]; cbn [opt_rel] in D; try contradiction; (split; [reflexivity|]); [|discriminate].
  intros _. rewrite <- J4 by reflexivity. exact D.
Qed.
End WithTz.
