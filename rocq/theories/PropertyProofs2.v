(** Proofs about typed properties: reading back values. *)
From Coq Require Import Lia ZifyBool ZifyNat.
From Verif Require Import PyBase PyProofs ParserCtx TextModel TextSpec TextProofs LineModel LineSpec LineProofs
  DateTimeModel DateTimeText DateTimeTextProofs DateTimeSpec2 DurationModel DurationProofs PeriodModel PeriodSpec PeriodProofs
  RecurModel RecurSpec RecurTextProofs RecurTextProofs2 PropertyModel PropertySpec PropertyProofs.
Ltac Zify.zify_post_hook ::= Z.div_mod_to_equations.

Lemma same_when_text d e : same_when d e -> getText d = getText e.
Proof.
  intros (H1 & H2 & H3). injection H1 as Y M D. unfold getText. rewrite <- H2, <- Y, <- M, <- D.
  destruct (mDateOnly d); [reflexivity|]. destruct (H3 eq_refl) as (H4 & U & T). injection H4 as A B C.
  rewrite <- A, <- B, <- C, <- U, <- T. reflexivity.
Qed.

Lemma dt_read ctx z d : printable d -> in_zone z d ->
  exists e, dt_parseText ctx false (getText d) = Ok e /\
    same_when d (match z with Some z => setTimezoneID e (TzName z) | None => e end) /\
    (mDateOnly d = true -> same_when d e).
Proof.
  intros P Z. exists (said d). split.
  - apply text_round_trip; [assumption|]. intros E U. destruct Z as [Z|Z]; [congruence|].
    destruct z; [destruct Z as [_ ->]; exact I|rewrite Z; exact I].
  - unfold same_when, said. destruct (mDateOnly d) eqn:E.
    + split; [|intros _; cbn; repeat split; congruence]. destruct z; cbn; repeat split; congruence.
    + split; [|discriminate]. destruct Z as [Z|Z]; [congruence|]. destruct z as [z|].
      * destruct Z as [U T]. cbn. rewrite U, T. repeat split.
      * cbn. rewrite Z. destruct (mTZUTC d); repeat split.
Qed.

Lemma dur_wf_read ctx d : dur_wf d -> exists e, dur_parseText ctx (dur_generate d) = Ok e /\
  getTotalSeconds d = getTotalSeconds e /\ dur_generate e = dur_generate d.
Proof.
  intros C. destruct (dur_roundtrip ctx d C) as (e & A & B & D). exists e. split; [assumption|]. split; [congruence|].
  destruct (Z.eq_dec (getTotalSeconds d) 0) as [E|E]; [|rewrite D; auto].
  assert (Cd : dWeeks d = 0 /\ dDays d = 0 /\ dHours d = 0 /\ dMinutes d = 0 /\ dSeconds d = 0).
  { unfold getTotalSeconds in E. destruct C as [C|C]; destruct (negb (mForward d)); lia. }
  assert (Ce : dWeeks e = 0 /\ dDays e = 0 /\ dHours e = 0 /\ dMinutes e = 0 /\ dSeconds e = 0).
  { pose proof (dur_parse_canonical _ _ _ A) as Ke. unfold canonical in Ke. rewrite E in B. unfold getTotalSeconds in B.
    destruct Ke as [C'|C']; destruct (negb (mForward e)); lia. }
  destruct Cd as (D1 & D2 & D3 & D4 & D5), Ce as (E1 & E2 & E3 & E4 & E5). unfold dur_generate.
  rewrite D1, D2, D3, D4, D5, E1, E2, E3, E4, E5. cbn. rewrite !andb_false_r. reflexivity.
Qed.

Lemma dur_head d : mForward d = true -> exists t, dur_generate d = "P"%char :: t.
Proof. intro H. unfold dur_generate. rewrite H. cbn [negb andb]. eexists; reflexivity. Qed.

Lemma period_read ctx p : period_wf p -> exists q, period_parseText ctx false (period_generate p) = Ok q /\
  same_period p q /\ period_generate q = period_generate p.
Proof.
  intros (P & Z & H). destruct (dt_read ctx None (pStart p) P Z) as (s & R & S & _). unfold period_generate at 1.
  destruct (pUse p) eqn:U.
  - destruct (pDur p) as [d|] eqn:Ed; [|contradiction]. destruct H as [W F].
    destruct (dur_wf_read ctx d W) as (e & A & B & C). destruct (dur_head d F) as (t & Ht).
    exists (newPeriodDur s e). rewrite Ht in *. split; [apply period_dur_read; auto; apply noslash_getText; assumption|].
    split.
    + unfold same_period. rewrite U, Ed. cbn. auto.
    + unfold period_generate; cbn [newPeriodDur pStart pEnd pDur pUse]. rewrite U, Ed, C, Ht, (same_when_text _ _ S). reflexivity.
  - destruct (pEnd p) as [d|] eqn:Ed; [|contradiction]. destruct H as [Pe Ze].
    destruct (dt_read ctx None d Pe Ze) as (e & Re & Se & _).
    exists (newPeriodEnd s e). split; [apply period_end_read; auto; [apply noslash_getText; assumption|apply text_head; assumption]|].
    split.
    + unfold same_period. rewrite U, Ed. cbn. auto.
    + unfold period_generate; cbn [newPeriodEnd pStart pEnd pDur pUse]. rewrite U, Ed, (same_when_text _ _ S), (same_when_text _ _ Se).
      reflexivity.
Qed.

Lemma escape_lf_pieces s : ~ In BSLASH s -> pieces (escape_lf s) (map (fun c => if Ascii.eqb c LF then Esc "n" else Plain c) s).
Proof.
  induction s as [|c s IH]; intro H; cbn [escape_lf flat_map map]; [constructor|].
  assert (H' : ~ In BSLASH s) by (intro K; apply H; right; assumption).
  destruct (Ascii.eqb_spec c LF) as [->|N].
  - change (lit "\n") with [BSLASH; "n"%char]. cbn [app]. constructor. apply IH; assumption.
  - cbn [app]. constructor; [intro K; apply H; left; assumption|apply IH; assumption].
Qed.
Lemma uri_fix_read ctx s : ~ In BSLASH s -> decodeTextValue ctx (escape_lf s) = Ok s.
Proof.
  intro H. pose proof (escape_lf_pieces s H) as P. rewrite decode_dec.
  destruct (dec_pieces ctx _ _ P) as [_ K]. rewrite K.
  - f_equal. clear. induction s as [|c s IH]; [reflexivity|]. cbn [map flat_map]. rewrite IH.
    destruct (Ascii.eqb_spec c LF) as [->|N]; reflexivity.
  - intros (x & Hx & R). apply in_map_iff in Hx as (c & <- & Hc). destruct (Ascii.eqb c LF); cbn in R; [|contradiction].
    destruct R as [R _]. apply R. unfold is_escape, escapes; cbn. auto.
Qed.
Lemma escape_lf_none s : ~ In LF s -> escape_lf s = s.
Proof.
  induction s as [|c s IH]; intro H; [reflexivity|]. cbn [escape_lf flat_map].
  destruct (Ascii.eqb_spec c LF) as [->|N]; [exfalso; apply H; left; reflexivity|]. cbn [app]. f_equal. apply IH.
  intro K; apply H; right; assumption.
Qed.

Lemma cin_no c s : ~ In c s -> cin c s = false.
Proof.
  induction s as [|x s IH]; intro H; [reflexivity|]. cbn [cin]. destruct (Ascii.eqb_spec c x) as [->|N].
  - exfalso; apply H; left; reflexivity.
  - cbn. apply IH. intro K; apply H; right; assumption.
Qed.

Lemma ends_in s : ends_with_backslash s -> In BSLASH s.
Proof. intros [t ->]. apply in_or_app. right; left; reflexivity. Qed.

Lemma status_read ctx z fl l : item_ok ctx fl z (VStatus l) ->
  exists s, item_generate fl (VStatus l) = Ok s /\ status_parse ctx s = Ok (VStatus l).
Proof.
  intro H.
  assert (K : forall l, l <> [] -> Forall (fun x => ~ ends_with_backslash x) (but_last l) ->
    parseTextList ctx ";" (generateTextList ";" l) = Ok l).
  { intros m Hm Hb. exact (proj2 (list_round_trip ctx ";"%char m (or_introl eq_refl) Hm) Hb). }
  destruct l as [|code [|desc [|rest [|]]]]; cbn [item_ok] in H; try contradiction.
  - destruct H as (HR & HB). eexists; split; [reflexivity|]. unfold status_parse. cbv zeta. rewrite K; [|discriminate|].
    + cbn [rbind]. rewrite cin_no by assumption. cbn [andb].
      destruct (peqb (INVALID_REQUEST_STATUS_VALUE ctx) PARSER_RAISE) eqn:E; [|reflexivity].
      exfalso. destruct (INVALID_REQUEST_STATUS_VALUE ctx); try discriminate. congruence.
    + cbn. constructor; [|constructor]. intro E; apply HB, ends_in, E.
  - destruct H as (HR & HB & HD & Hr). destruct rest as [|r0 rest]; [congruence|].
    eexists; split; [reflexivity|]. unfold status_parse. cbv zeta. rewrite K; [|discriminate|].
    + cbn [rbind]. rewrite cin_no by assumption. cbn [andb].
      destruct (peqb (INVALID_REQUEST_STATUS_VALUE ctx) PARSER_RAISE) eqn:E; [|reflexivity].
      exfalso. destruct (INVALID_REQUEST_STATUS_VALUE ctx); try discriminate. congruence.
    + cbn. constructor; [|constructor; [assumption|constructor]]. intro E; apply HB, ends_in, E.
Qed.

(** What _postCreateValue does to a value object. *)
Definition app_zone (t : vtype) (z : option bytes) (i : item) : item :=
  match t, z with
  | (T_TIME | T_DATETIME), Some z => zone_item z i
  | _, _ => i
  end.

Lemma item_read ctx fl z t i : made_by t i -> item_ok ctx fl z i ->
  (t = T_DATE -> z = None \/ item_type i = T_DATE) ->
  exists s j, item_generate fl i = Ok s /\ item_parse ctx fl t (Some s) = Ok j /\ same_item i (app_zone t z j) /\
    item_generate fl (app_zone t z j) = Ok s /\ (item_type (app_zone t z j) = item_type i).
Proof.
  intros M K D.
  assert (Same : forall s, item_generate fl i = Ok s -> item_parse ctx fl t (Some s) = Ok i -> app_zone t z i = i -> same_item i i ->
    exists s j, item_generate fl i = Ok s /\ item_parse ctx fl t (Some s) = Ok j /\ same_item i (app_zone t z j) /\
    item_generate fl (app_zone t z j) = Ok s /\ (item_type (app_zone t z j) = item_type i)).
  { intros s H1 H2 H3 H4. exists s, i. rewrite H3. auto. }
  destruct i as [s|k s|s|n|n|x|a b|d|d|p|r|l].
  - destruct t; try contradiction M. eapply Same; try reflexivity. cbn [item_parse]. rewrite decode_escape. reflexivity.
  - cbn in K. destruct s as [s|]; [|congruence]. apply (Same s); try reflexivity;
    destruct t, k; try contradiction M; try reflexivity; destruct z; reflexivity.
  - destruct s as [s|]; [|contradiction K]. destruct t; try contradiction M. cbn in K. eapply Same; try reflexivity.
    cbn [item_parse]. destruct (peqb (BACKSLASH_IN_URI_VALUE ctx) PARSER_FIX).
    + rewrite uri_fix_read by assumption. reflexivity.
    + rewrite escape_lf_none by assumption. reflexivity.
  - destruct t; try contradiction M. eapply Same; try reflexivity. cbn [item_parse]. rewrite pyint_pystr. reflexivity.
  - destruct t; try contradiction M. eapply Same; try reflexivity. cbn [item_parse]. rewrite offset_round by exact K. reflexivity.
  - destruct t; try contradiction M. eapply Same; try reflexivity. cbn [item_parse]. cbn in K. rewrite K. reflexivity.
  - destruct t; try contradiction M. eapply Same; try reflexivity. cbn [item_parse]. destruct K as (K1 & K2 & K3 & K4).
    unfold geo_parse. change (fl_str fl a ++ lit ";" ++ fl_str fl b) with (fl_str fl a ++ ";"%char :: fl_str fl b).
    rewrite split_char_app, split_char_no by (apply cin_no; assumption). rewrite K1, K2. reflexivity.
  - destruct K as [P Z]. destruct (dt_read ctx z d P Z) as (e & R & S & SD).
    exists (getText d), (VDateTime e). split; [reflexivity|].
    assert (W : exists e', app_zone t z (VDateTime e) = VDateTime e' /\ same_when d e').
    { destruct t; try contradiction M; cbn [app_zone].
      - exists e. split; [reflexivity|]. destruct (D eq_refl) as [->|E]; [exact S|]. apply SD. cbn in E.
        destruct (mDateOnly d); [reflexivity|discriminate].
      - destruct z; cbn [zone_item]; eauto. }
    destruct W as (e' & W & S'). rewrite W.
    split; [destruct t; try contradiction M; cbn [item_parse]; rewrite R; reflexivity|].
    split; [exact S'|]. split; [cbn [item_generate]; rewrite (same_when_text _ _ S'); reflexivity|].
    cbn. destruct S' as (_ & -> & _). reflexivity.
  - destruct t; try contradiction M. destruct (dur_wf_read ctx d K) as (e & A & B & C).
    exists (dur_generate d), (VDuration e). cbn [item_generate item_parse app_zone]. rewrite A. repeat split; auto. f_equal; assumption.
  - destruct t; try contradiction M. destruct (period_read ctx p K) as (q & A & B & C).
    exists (period_generate p), (VPeriod q). cbn [item_generate item_parse app_zone]. rewrite A.
    split; [reflexivity|]. split; [reflexivity|]. split; [exact B|]. split; [f_equal; assumption|reflexivity].
  - destruct t; try contradiction M. exists (rule_generate r), (VRecur (canon r)).
    cbn [item_generate item_parse app_zone]. rewrite (text_rule_round_trip ctx r K). cbn [rbind].
    repeat split; auto. f_equal. apply generate_canon; assumption.
  - destruct t; try contradiction M. destruct (status_read ctx z fl l K) as (s & A & B). eapply Same; eauto. reflexivity.
Qed.
