(** Proofs about the JSON form: one property. *)
From Coq Require Import Lia ZifyBool ZifyNat.
From Verif Require Import PyBase PyProofs ParserCtx TextModel TextSpec TextProofs LineModel LineSpec LineProofs
  DateTimeModel DateTimeText DateTimeTextProofs DateTimeSpec2 DurationModel DurationProofs PeriodModel PeriodSpec PeriodProofs
  RecurModel RecurSpec RecurTextProofs RecurTextProofs2 PropertyModel PropertySpec PropertyProofs PropertyProofs2 PropertyProofs3
  ComponentModel ValidateModel ValidateProofs2 JsonModel JsonSpec.
Ltac Zify.zify_post_hook ::= Z.div_mod_to_equations.

(** ** Letters. *)
Lemma ascii_app a b : is_ascii (a ++ b) = is_ascii a && is_ascii b.
Proof. apply forallb_app. Qed.
Lemma ascii_digits s : all_digits s = true -> is_ascii s = true.
Proof.
  unfold all_digits, is_ascii. intro H. rewrite forallb_forall in *. intros c I. specialize (H c I).
  destruct c as [[|] [|] [|] [|] [|] [|] [|] [|]]; vm_compute in H; try discriminate; reflexivity.
Qed.
Lemma ascii_udigits n : 0 <= n -> is_ascii (udigits n) = true.
Proof. intro H. apply ascii_digits, udigits_spec, H. Qed.
Lemma ascii_pystr n : is_ascii (pystr n) = true.
Proof. unfold pystr. destruct (Z.ltb_spec n 0); [cbn; apply ascii_udigits; lia|apply ascii_udigits; lia]. Qed.
Lemma ascii_pad w s : is_ascii s = true -> is_ascii (pad0 w s) = true.
Proof.
  intro H. unfold pad0. rewrite ascii_app, H, andb_true_r. apply forallb_forall. intros c I. apply repeat_spec in I. subst. reflexivity.
Qed.
Lemma ascii_fmt0 w n : is_ascii (fmt0 w n) = true.
Proof. unfold fmt0. destruct (Z.ltb_spec n 0); [cbn|]; apply ascii_pad, ascii_udigits; lia. Qed.
Ltac asc := repeat first [rewrite ascii_app | rewrite ascii_fmt0 | rewrite ascii_pystr | progress cbn [andb] | reflexivity |
  match goal with |- context [if ?b then _ else _] => destruct b end].
Lemma ascii_xml d : is_ascii (getXMLText d) = true.
Proof. unfold getXMLText. cbv zeta. destruct (mDateOnly d); [asc|]. destruct (mTZUTC d); [asc|]. destruct (mTZID d); unfold tz_sign; asc. Qed.
Lemma ascii_dur d : is_ascii (dur_generate d) = true.
Proof. unfold dur_generate. asc. Qed.
Lemma ascii_offset f n : is_ascii (utcoffset_generate f n) = true.
Proof. unfold utcoffset_generate. cbv zeta. asc. Qed.

Lemma ascii_spec s : ascii_text s -> is_ascii s = true.
Proof.
  unfold ascii_text, is_ascii. intro H. rewrite Forall_forall in H. apply forallb_forall. intros c I. specialize (H c I).
  destruct c as [[|] [|] [|] [|] [|] [|] [|] [|]]; cbn in H; try reflexivity; exfalso; lia.
Qed.
Lemma ascii_lower s : is_ascii s = true -> is_ascii (lower s) = true.
Proof.
  unfold is_ascii, lower. intro H. rewrite forallb_forall in *. intros c I. apply in_map_iff in I. destruct I as (d & <- & I). specialize (H d I).
  destruct d as [[|] [|] [|] [|] [|] [|] [|] [|]]; try discriminate; reflexivity.
Qed.
Lemma upper_of_lower s : upper (lower s) = upper s.
Proof. induction s as [|c s IH]; [reflexivity|]. cbn. f_equal; [apply upper_lower|exact IH]. Qed.
Lemma upper_twice s : upper (upper s) = upper s.
Proof.
  induction s as [|c s IH]; [reflexivity|]. cbn. f_equal; [|exact IH].
  destruct c as [[|] [|] [|] [|] [|] [|] [|] [|]]; reflexivity.
Qed.

(** ** Texts and numbers come back as they are. *)
Definition scalar (j : json) : Prop := match j with JText _ | JNum _ | JFloat _ | JNull | JBool _ => True | _ => False end.
Lemma re_scalar j k : scalar j -> reordered j k -> k = j.
Proof. intros S R. destruct R; try contradiction S; reflexivity. Qed.
Lemma re_scalars l m : Forall scalar l -> Forall2 reordered l m -> m = l.
Proof. intros S F. induction F as [|x y l m R F IH]; [reflexivity|]. inversion S; subst. f_equal; [apply re_scalar; assumption|apply IH; assumption]. Qed.
Lemma re_list l k : Forall scalar l -> reordered (JArr l) k -> k = JArr l.
Proof. intros S R. inversion R; subst. f_equal. apply re_scalars; assumption. Qed.

(** ** Recurrence rules. *)
Definition jval_ascii (v : jval) : Prop :=
  match v with JStr s => is_ascii s = true | JStrs l => Forall (fun s => is_ascii s = true) l | _ => True end.
Definition member_ok (nv : bytes * jval) : Prop :=
  is_ascii (fst nv) = true /\ jval_ascii (snd nv) /\ (fst nv = lit "until" -> exists s, snd nv = JStr s).
Definition back (nv : bytes * jval) : bytes * jval :=
  (fst nv, match snd nv with
           | JInts l => if existsb (beq (fst nv)) json_list_names then JStrs (map pystr l) else JStr (lit "[]")
           | JStrs l => if existsb (beq (fst nv)) json_list_names then JStrs l else JStr (lit "[]")
           | v => v
           end).
Lemma strs_r fl l : Forall (fun s => is_ascii s = true) l -> map_r (jstr fl) (map JText l) = Ok l.
Proof. induction 1 as [|s l H F IH]; [reflexivity|]. cbn [map map_r jstr]. rewrite H. cbn [rbind]. rewrite IH. reflexivity. Qed.
Lemma ints_r fl l : map_r (jstr fl) (map JNum l) = Ok (map pystr l).
Proof. induction l as [|n l IH]; [reflexivity|]. cbn [map map_r jstr rbind]. rewrite IH. reflexivity. Qed.
Lemma member_back fl nv : member_ok nv -> member_of fl (member_json nv) = Ok (back nv).
Proof.
  destruct nv as [n v]. intros (A & B & U). cbn [fst snd] in *. unfold member_of, member_json, back. cbn [fst snd]. rewrite A.
  destruct v as [s|k|l|l]; cbn [jval_ascii] in B.
  - rewrite B. reflexivity.
  - reflexivity.
  - destruct (existsb (beq n) json_list_names) eqn:E; [rewrite ints_r; reflexivity|].
    destruct (beq_case n (lit "until")) as [[-> _]|[_ ->]]; [destruct (U eq_refl); discriminate|reflexivity].
  - destruct (existsb (beq n) json_list_names) eqn:E; [rewrite strs_r by assumption; reflexivity|].
    destruct (beq_case n (lit "until")) as [[-> _]|[_ ->]]; [destruct (U eq_refl); discriminate|reflexivity].
Qed.
Lemma back_text nv : member_ok nv -> json_item (back nv) = json_item nv.
Proof.
  destruct nv as [n v]. intros (A & B & U). cbn [fst snd] in *. unfold json_item, back. cbn [fst snd].
  destruct (existsb (beq n) json_list_names) eqn:E; [destruct v; reflexivity|].
  destruct (beq_case n (lit "until")) as [[-> ->]|[_ ->]]; [destruct (U eq_refl) as [s ->]; reflexivity|]. destruct v; reflexivity.
Qed.
Lemma members_back fl l : Forall member_ok l -> map_r (member_of fl) (map member_json l) = Ok (map back l) /\ mapr json_item (map back l) = mapr json_item l.
Proof.
  induction 1 as [|x l H F [IH1 IH2]]; [split; reflexivity|]. cbn [map map_r mapr]. rewrite member_back by assumption. cbn [rbind]. rewrite IH1, IH2, back_text by assumption.
  split; reflexivity.
Qed.
Lemma ascii_weekday w : is_ascii (weekday_text w) = true.
Proof. unfold weekday_text. asc. Qed.
Lemma rule_members r l : rule_json r = Ok l -> Forall member_ok l.
Proof.
  unfold rule_json. intro H.
  assert (L : forall n o, is_ascii n = true -> n <> lit "until" -> Forall member_ok (json_list n o)).
  { intros n [[|x m]|] A U; cbn [json_list]; repeat constructor; auto. cbn [fst]. congruence. }
  assert (One : forall n v, is_ascii n = true -> jval_ascii v -> n <> lit "until" -> Forall member_ok [(n, v)]).
  { intros n v A B U. constructor; [|constructor]. split; [exact A|]. split; [exact B|]. cbn [fst]. congruence. }
  destruct (if rUseCount r then _ else _) as [u|] eqn:Eu; [|discriminate]. cbn [rbind] in H. apply Ok_inj in H. subst l.
  assert (Hu : Forall member_ok u).
  { destruct (rUseCount r); [injection Eu as <-; repeat constructor; cbn; discriminate|].
    destruct (rUseUntil r); [|injection Eu as <-; constructor]. destruct (rUntil r); [|discriminate]. injection Eu as <-.
    repeat constructor; cbn [fst snd jval_ascii]; [apply ascii_xml|eauto]. }
  constructor; [repeat constructor; cbn; [destruct (rFreq r); reflexivity|discriminate]|].
  repeat (apply Forall_app; split); try assumption; try (apply L; [reflexivity|discriminate]).
  - destruct (1 <? rInterval r); [apply One; [reflexivity|exact I|discriminate]|constructor].
  - destruct (rByDay r) as [[|x m]|]; [constructor|apply One; [reflexivity| |discriminate]|constructor].
    cbn [jval_ascii]. apply Forall_map, Forall_forall. intros y _. unfold byday_text. rewrite ascii_app, ascii_weekday.
    destruct (negb (fst y =? 0)); rewrite ?ascii_pystr; reflexivity.
  - destruct (negb (rWeekstart r =? 1)); [apply One; [reflexivity| |discriminate]|constructor]. cbn [jval_ascii].
    pose proof (ascii_weekday (rWeekstart r)). destruct (weekday_text (rWeekstart r)); [reflexivity|assumption].
Qed.
Lemma re_members l c : Forall2 (fun x y => fst x = fst y /\ reordered (snd x) (snd y)) (map member_json l) c -> c = map member_json l.
Proof.
  revert c. induction l as [|[n v] l IH]; intros c F; inversion F as [|x y a b [H1 H2] F']; subst; [reflexivity|]. cbn [map]. f_equal; [|apply IH; assumption].
  destruct y as [n' j]. cbn [member_json fst snd] in *. subst n'. f_equal. unfold member_json in *. cbn [fst snd] in *.
  destruct v as [s0|n0|l0|l0].
  - apply re_scalar in H2; [subst; reflexivity|exact I].
  - apply re_scalar in H2; [subst; reflexivity|exact I].
  - apply re_list in H2; [subst; reflexivity|]. apply Forall_map, Forall_forall; intros; exact I.
  - apply re_list in H2; [subst; reflexivity|]. apply Forall_map, Forall_forall; intros; exact I.
Qed.
Lemma rule_json_read fl ctx r l j : rule_ok r -> rule_json r = Ok l -> reordered (JObj (map member_json l)) j ->
  exists m, j = JObj m /\ exists l', map_r (member_of fl) m = Ok l' /\ rule_parseJSON ctx l' = Ok (canon r).
Proof.
  intros H E R. inversion R as [| | | | | |a b c F P]; subst. exists c. split; [reflexivity|]. apply re_members in F. subst b.
  apply Permutation_sym, Permutation_map_inv in P. destruct P as (l1 & E1 & P). subst c.
  pose proof (rule_members _ _ E) as M. assert (M1 : Forall member_ok l1) by (eapply Permutation_Forall; eassumption).
  destruct (members_back fl l1 M1) as [A B]. exists (map back l1). split; [assumption|].
  unfold rule_parseJSON. rewrite B. exact (json_round_trip ctx r l l1 H E P).
Qed.

(** ** Values. *)
Lemma said_zone z d : in_zone z d -> same_when d (match z with Some z => setTimezoneID (said d) (TzName z) | None => said d end) /\
  (mDateOnly d = true -> same_when d (said d)) /\ (mDateOnly d = false -> mTZUTC d = false -> match mTZID d with TzInt _ => False | _ => True end).
Proof.
  intro Z. unfold same_when, said. destruct (mDateOnly d) eqn:E.
  - split; [|split; [intros _; cbn; repeat split; congruence|discriminate]]. destruct z; cbn; repeat split; congruence.
  - destruct Z as [Z|Z]; [congruence|]. destruct z as [z|].
    + destruct Z as [U T]. split; [|split; [discriminate|intros _ _; rewrite T; exact I]]. cbn. rewrite U, T. repeat split.
    + split; [|split; [discriminate|intros _ _; rewrite Z; exact I]]. cbn. rewrite Z. destruct (mTZUTC d); repeat split.
Qed.
Lemma xml_read ctx z d : printable d -> in_zone z d -> dt_parseText ctx true (getXMLText d) = Ok (said d).
Proof.
  intros P Z. apply xml_round_trip; [assumption|]. intros E U. destruct (said_zone z d Z) as (_ & _ & H). specialize (H E U). destruct (mTZID d); tauto.
Qed.
Lemma period_json_read ctx p : period_wf p -> exists t q, period_json p = Ok t /\ is_ascii (fst t) = true /\ is_ascii (snd t) = true /\
  period_parseJSON ctx t newPeriod = (q, Ok tt) /\ same_period p q.
Proof.
  intros (P & Z & H). pose proof (xml_read ctx None _ P Z) as R. destruct (said_zone None _ Z) as (S & _). unfold period_json.
  destruct (pUse p) eqn:U.
  - destruct (pDur p) as [d|] eqn:Ed; [|contradiction]. destruct H as [W F]. cbn [rbind]. destruct (dur_wf_read ctx d W) as (e & A & B & C).
    destruct (dur_head d F) as (t & Ht). exists (getXMLText (pStart p), dur_generate d), (newPeriodDur (said (pStart p)) e).
    split; [reflexivity|]. cbn [fst snd]. split; [apply ascii_xml|]. split; [apply ascii_dur|]. split.
    + assert (Q : period_parseText ctx true (getXMLText (pStart p) ++ "/"%char :: dur_generate d) = Ok (newPeriodDur (said (pStart p)) e)).
      { rewrite Ht in *. apply period_dur_read; auto. apply noslash_getText; assumption. }
      unfold period_parseText in Q. unfold period_parseJSON; cbn [fst snd]. destruct (period_parse ctx true _ newPeriod) as [q [[]|]]; [|discriminate].
      injection Q as ->. reflexivity.
    + unfold same_period. rewrite U, Ed. cbn. auto.
  - destruct (pEnd p) as [d|] eqn:Ed; [|contradiction]. destruct H as [Pe Ze]. cbn [rbind]. pose proof (xml_read ctx None _ Pe Ze) as Re. destruct (said_zone None _ Ze) as (Se & _).
    exists (getXMLText (pStart p), getXMLText d), (newPeriodEnd (said (pStart p)) (said d)).
    split; [reflexivity|]. cbn [fst snd]. split; [apply ascii_xml|]. split; [apply ascii_xml|]. split.
    + assert (Q : period_parseText ctx true (getXMLText (pStart p) ++ "/"%char :: getXMLText d) = Ok (newPeriodEnd (said (pStart p)) (said d))).
      { apply period_end_read; auto; [apply noslash_getText; assumption|apply xml_head; assumption]. }
      unfold period_parseText in Q. unfold period_parseJSON; cbn [fst snd]. destruct (period_parse ctx true _ newPeriod) as [q [[]|]]; [|discriminate].
      injection Q as ->. reflexivity.
    + unfold same_period. rewrite U, Ed. cbn. auto.
Qed.

Lemma encode_r l : map_r jencode (map JText l) = Ok l.
Proof. induction l as [|s l IH]; [reflexivity|]. cbn [map map_r jencode rbind]. rewrite IH. reflexivity. Qed.

Lemma item_json_read ctx fl nm z t i : made_by t i -> item_json_ok z i -> (t = T_DATE -> z = None \/ item_type i = T_DATE) ->
  exists j, item_json i = Ok j /\ forall k, reordered j k ->
    exists i', item_parseJSON ctx fl nm t k = Ok i' /\ same_item i (app_zone t z i') /\ item_type (app_zone t z i') = item_type i.
Proof.
  intros M K D.
  assert (Same : forall j, item_json i = Ok j -> (forall k, reordered j k -> item_parseJSON ctx fl nm t k = Ok i) -> app_zone t z i = i -> same_item i i ->
    exists j, item_json i = Ok j /\ forall k, reordered j k ->
    exists i', item_parseJSON ctx fl nm t k = Ok i' /\ same_item i (app_zone t z i') /\ item_type (app_zone t z i') = item_type i).
  { intros j H1 H2 H3 H4. exists j. split; [assumption|]. intros k R. exists i. rewrite H3. auto. }
  destruct i as [s|k s|s|n|n|x|a b|d|d|p|r|l]; cbn [item_json_ok] in K.
  - destruct t; try contradiction M. eapply Same; try reflexivity. intros k R. apply re_scalar in R; [subst|exact I]. reflexivity.
  - destruct s as [s|]; [|congruence]. eapply Same; try reflexivity.
    + intros j R. apply re_scalar in R; [subst|exact I]. destruct t, k; try contradiction M; reflexivity.
    + destruct t, k; try contradiction M; try reflexivity; destruct z; reflexivity.
  - destruct s as [s|]; [|congruence]. destruct t; try contradiction M. eapply Same; try reflexivity.
    intros k R. apply re_scalar in R; [subst|exact I]. reflexivity.
  - destruct t; try contradiction M. eapply Same; try reflexivity. intros k R. apply re_scalar in R; [subst|exact I]. reflexivity.
  - destruct t; try contradiction M. eapply Same; try reflexivity. intros k R. apply re_scalar in R; [subst|exact I].
    cbn [item_parseJSON jstr]. rewrite ascii_offset. cbn [rbind]. rewrite offset_round by exact K. reflexivity.
  - destruct t; try contradiction M. eapply Same; try reflexivity. intros k R. apply re_scalar in R; [subst|exact I]. reflexivity.
  - destruct t; try contradiction M. eapply Same; try reflexivity. intros k R. apply re_list in R; [subst|repeat constructor]. reflexivity.
  - destruct K as [P Z]. destruct (said_zone z d Z) as (S & SD & _). exists (JText (getXMLText d)). split; [reflexivity|].
    intros k R. apply re_scalar in R; [subst|exact I]. exists (VDateTime (said d)).
    split; [destruct t; try contradiction M; cbn [item_parseJSON jstr]; rewrite ascii_xml; cbn [rbind]; rewrite (xml_read ctx z d P Z); reflexivity|].
    assert (W : exists e', app_zone t z (VDateTime (said d)) = VDateTime e' /\ same_when d e').
    { destruct t; try contradiction M; cbn [app_zone].
      - exists (said d). split; [reflexivity|]. destruct (D eq_refl) as [->|E]; [exact S|]. apply SD. cbn in E.
        destruct (mDateOnly d); [reflexivity|discriminate].
      - destruct z; cbn [zone_item]; eauto. }
    destruct W as (e' & W & S'). rewrite W. split; [exact S'|]. cbn. destruct S' as (_ & -> & _). reflexivity.
  - destruct t; try contradiction M. destruct (dur_wf_read ctx d K) as (e & A & B & C). exists (JText (dur_generate d)). split; [reflexivity|].
    intros k R. apply re_scalar in R; [subst|exact I]. exists (VDuration e). cbn [item_parseJSON jstr]. rewrite ascii_dur. cbn [rbind]. rewrite A.
    repeat split; auto.
  - destruct t; try contradiction M. destruct (period_json_read ctx p K) as (u & q & A & B1 & B2 & C & S).
    exists (JArr [JText (fst u); JText (snd u)]). cbn [item_json]. rewrite A. split; [reflexivity|].
    intros k R. apply re_list in R; [subst|repeat constructor]. exists (VPeriod q). cbn [item_parseJSON jfmt]. rewrite B1, B2. cbn [rbind].
    destruct u as [u1 u2]. cbn [fst snd]. rewrite C. split; [reflexivity|]. split; [exact S|reflexivity].
  - destruct t; try contradiction M. destruct (json_total r K) as [l E]. exists (JObj (map member_json l)). cbn [item_json]. rewrite E. split; [reflexivity|].
    intros k R. destruct (rule_json_read fl ctx r l k K E R) as (m & -> & l' & A & B). exists (VRecur (canon r)). cbn [item_parseJSON]. rewrite A. cbn [rbind]. rewrite B.
    repeat split.
  - destruct t; try contradiction M. eapply Same; try reflexivity.
    + instantiate (1 := JArr (map JText l)). destruct l as [|a [|b [|c [|]]]]; cbn in K; try (exfalso; lia); reflexivity.
    + intros k R. apply re_list in R; [subst|apply Forall_map, Forall_forall; intros; exact I]. cbn [item_parseJSON status_json]. rewrite encode_r. reflexivity.
Qed.
