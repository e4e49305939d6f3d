(** Proofs about vCards: what is accepted; names; duplicates. *)
From Coq Require Import Lia ZifyBool ZifyNat Sorting.Permutation Sorting.Sorted.
From Verif Require Import PyBase PyProofs ParserCtx TextModel TextSpec LineModel LineSpec LineProofs
  PropertyModel PropertySpec PropertyProofs3 ComponentModel ComponentSpec ComponentProofs ComponentProofs3 ComponentProofs7 VCardModel VCardSpec VCardProofs VCardProofs2.
Ltac Zify.zify_post_hook ::= Z.div_mod_to_equations.

Section Accept.
Variable ctx : pctx.
Variable fl : floats.

Lemma valid_spec p : card_valid p = true <-> (cpName p = lit "VERSION" -> ctext_of (cpValue p) = Some (lit "3.0")).
Proof.
  unfold card_valid. destruct (beq_case (cpName p) (lit "VERSION")) as [[E ->]|[N ->]]; [|split; [intros _ C; contradiction|reflexivity]].
  destruct (ctext_of (cpValue p)) as [t|]; [|split; [discriminate|intro H; specialize (H E); discriminate]].
  destruct (beq_case t (lit "3.0")) as [[-> ->]|[N ->]]; split; try auto; try discriminate.
  intro H. specialize (H E). congruence.
Qed.
Lemma peqb_ne a b : a <> b -> peqb a b = false.
Proof. destruct a, b; cbn; congruence. Qed.
Lemma peqb_true a b : peqb a b = true -> a = b.
Proof. destruct a, b; cbn; congruence. Qed.
Lemma blank_some {A} (st st' : A) : cblank ctx st = Some (Ok st') -> st' = st /\ BLANK_LINES_IN_DATA ctx <> PARSER_RAISE.
Proof.
  unfold cblank. destruct (peqb _ _) eqn:E; [discriminate|]. intros [= ->]. split; [reflexivity|]. intro H. rewrite H in E. discriminate.
Qed.
Lemma blank_ok {A} (st : A) : BLANK_LINES_IN_DATA ctx <> PARSER_RAISE -> cblank ctx st = Some (Ok st).
Proof. intro H. unfold cblank. rewrite peqb_ne by assumption. reflexivity. Qed.

(** ** Many cards. *)
Definition made (c : cprops) (l : list cprop) : Prop := c = fold_left cput l [].
Lemma made_holds c l : made c l -> holds c l.
Proof. intros -> name. rewrite cget_puts. reflexivity. Qed.
Lemma version_has l : card_has (lit "VERSION") (fold_left cput l []) = true <-> has_version l.
Proof. rewrite chas_keys, cputs_keys. unfold has_version. rewrite of_name_in. cbn [map In]. tauto. Qed.

Lemma cards_sound lines : forall inside results ps res' ps',
  cards_lines ctx fl lines (inside, results, ps) = Some (Ok (false, res', ps')) ->
  if inside then
    exists body l lines2 ls cs, lines = body ++ lit "END:VCARD" :: lines2 /\ card_body ctx fl body l /\
      card_has (lit "VERSION") (fold_left cput l ps) = true /\ cards_in ctx fl lines2 ls /\ Forall has_version ls /\
      res' = results ++ fold_left cput l ps :: cs /\ Forall2 made cs ls
  else ps = [] -> exists ls cs, cards_in ctx fl lines ls /\ Forall has_version ls /\ res' = results ++ cs /\ Forall2 made cs ls.
Proof.
  induction lines as [|line lines IH]; intros inside results ps res' ps' H; cbn [cards_lines] in H.
  - destruct inside; [discriminate|]. intros ->. injection H as <- <-. exists [], []. rewrite app_nil_r. repeat split; constructor.
  - destruct (cards_line ctx fl line (inside, results, ps)) as [[[[i r] q]|e]|] eqn:E; try discriminate.
    specialize (IH _ _ _ _ _ H). unfold cards_line in E. destruct inside; cbn [negb] in E.
    + destruct (beq_case line (lit "END:VCARD")) as [[-> X]|[N X]]; rewrite X in E.
      * destruct (card_has (lit "VERSION") ps) eqn:V; [|discriminate]. injection E as <- <- <-. cbv iota in IH.
        destruct (IH eq_refl) as (ls & cs & A & B & C & D). exists [], [], lines, ls, cs. cbn [app fold_left].
        repeat split; try assumption; [constructor|]. rewrite C, <- app_assoc. reflexivity.
      * destruct line as [|ch line].
        -- apply blank_some in E. destruct E as [E Nb]. injection E as -> -> ->. cbv iota in IH.
           destruct IH as (body & l & lines2 & ls & cs & -> & B & C). exists ([] :: body), l, lines2, ls, cs. split; [reflexivity|]. split; [constructor; assumption|exact C].
        -- destruct (cprop_parse ctx fl (ch :: line)) as [[p|e]|] eqn:P; try discriminate. destruct (card_valid p) eqn:V; [|discriminate].
           injection E as <- <- <-. cbv iota in IH. destruct IH as (body & l & lines2 & ls & cs & -> & B & C).
           exists ((ch :: line) :: body), (p :: l), lines2, ls, cs. split; [reflexivity|]. split; [|exact C].
           constructor; try assumption; [discriminate|apply valid_spec; assumption].
    + intros ->. destruct (beq_case line (lit "BEGIN:VCARD")) as [[-> X]|[N X]]; rewrite X in E.
      * injection E as <- <- <-. cbv iota in IH. destruct IH as (body & l & lines2 & ls & cs & -> & B & V & C & F & R & M).
        exists (l :: ls), (fold_left cput l [] :: cs). split; [constructor; assumption|]. split; [constructor; [apply version_has; assumption|assumption]|].
        split; [assumption|]. constructor; [reflexivity|assumption].
      * destruct line as [|ch line]; [|discriminate]. apply blank_some in E. destruct E as [E Nb]. injection E as -> -> ->. cbv iota in IH.
        destruct (IH eq_refl) as (ls & cs & A & B). exists ls, cs. split; [constructor; assumption|exact B].
Qed.
Lemma body_lines body l : card_body ctx fl body l ->
  (forall rest results ps, cards_lines ctx fl (body ++ rest) (true, results, ps) = cards_lines ctx fl rest (true, results, fold_left cput l ps)) /\
  (forall rest found ps, card_lines ctx fl (body ++ rest) (true, found, ps) = card_lines ctx fl rest (true, found, fold_left cput l ps)).
Proof.
  induction 1 as [|body l Nb B [IH1 IH2]|line p body l N1 N2 P V B [IH1 IH2]]; [split; reflexivity| |].
  - split; intros; cbn [app cards_lines card_lines]; unfold cards_line, card_line; cbn [negb];
      change (beq [] (lit "END:VCARD")) with false; cbv iota; rewrite blank_ok by assumption; [apply IH1|apply IH2].
  - assert (Eb : beq line (lit "END:VCARD") = false) by (destruct (beq_case line (lit "END:VCARD")) as [[X _]|[_ X]]; [contradiction|assumption]).
    apply valid_spec in V.
    split; intros; cbn [app cards_lines card_lines fold_left]; unfold cards_line, card_line; cbn [negb]; rewrite Eb;
      destruct line as [|ch line]; try congruence; rewrite P, V; [apply IH1|apply IH2].
Qed.
Lemma cards_complete lines ls : cards_in ctx fl lines ls -> Forall has_version ls ->
  exists cs, Forall2 made cs ls /\ forall results, cards_lines ctx fl lines (false, results, []) = Some (Ok (false, results ++ cs, [])).
Proof.
  induction 1 as [|lines ls Nb C IH|body l lines ls B C IH]; intro F.
  - exists []. split; [constructor|]. intro. rewrite app_nil_r. reflexivity.
  - destruct (IH F) as (cs & M & E). exists cs. split; [assumption|]. intro results. cbn [cards_lines]. unfold cards_line. cbn [negb].
    change (beq [] (lit "BEGIN:VCARD")) with false; cbv iota. rewrite blank_ok by assumption. apply E.
  - inversion F as [|? ? V F']; subst. destruct (IH F') as (cs & M & E). exists (fold_left cput l [] :: cs). split; [constructor; [reflexivity|assumption]|].
    intro results. cbn [cards_lines].
    change (cards_line ctx fl (lit "BEGIN:VCARD") (false, results, [])) with (Some (Ok (true, results, @nil (bytes * list cprop)))). cbv iota beta.
    destruct (body_lines body l B) as [L _]. rewrite L. cbn [cards_lines].
    assert (X : cards_line ctx fl (lit "END:VCARD") (true, results, fold_left cput l []) = Some (Ok (false, results ++ [fold_left cput l []], []))).
    { unfold cards_line. cbn [negb]. change (beq (lit "END:VCARD") (lit "END:VCARD")) with true. cbv iota.
      rewrite (proj2 (version_has l) V). reflexivity. }
    rewrite X, E, <- app_assoc. reflexivity.
Qed.

Lemma f2_holds cs ls : Forall2 made cs ls -> Forall2 holds cs ls.
Proof. induction 1; constructor; [apply made_holds; assumption|assumption]. Qed.
Lemma f2_made ls : Forall2 made (map (fun l => fold_left cput l []) ls) ls.
Proof. induction ls; constructor; [reflexivity|assumption]. Qed.
Lemma cards_accepted text :
  (forall cs, cards_parse ctx fl text = Some (Ok cs) ->
     exists ls, cards_in ctx fl (lines_in text) ls /\ Forall has_version ls /\ Forall2 holds cs ls) /\
  (forall ls, cards_in ctx fl (lines_in text) ls -> Forall has_version ls ->
     exists cs, cards_parse ctx fl text = Some (Ok cs) /\ Forall2 holds cs ls).
Proof.
  unfold cards_parse, lines_in. split.
  - intros cs H. destruct (cards_lines ctx fl _ _) as [[[[inside results] ps]|e]|] eqn:E; try discriminate.
    destruct inside; [discriminate|]. injection H as <-. apply cards_sound in E. destruct (E eq_refl) as (ls & cs & A & B & -> & D).
    exists ls. split; [assumption|]. split; [assumption|]. cbn [app]. apply f2_holds; assumption.
  - intros ls H V. destruct (cards_complete _ _ H V) as (cs & M & E). exists cs. rewrite E. split; [reflexivity|apply f2_holds; assumption].
Qed.

(** ** One card. *)
Definition nonempty {A} (l : list A) : bool := match l with [] => false | _ => true end.
Lemma card_sound lines : forall inside found ps found' ps',
  card_lines ctx fl lines (inside, found, ps) = Some (Ok (false, found', ps')) ->
  if inside then
    exists body l lines2 ls, lines = body ++ lit "END:VCARD" :: lines2 /\ card_body ctx fl body l /\ cards_in ctx fl lines2 ls /\
      ps' = fold_left cput (l ++ List.concat ls) ps /\ found' = found || nonempty ls
  else exists ls, cards_in ctx fl lines ls /\ ps' = fold_left cput (List.concat ls) ps /\ found' = found || nonempty ls.
Proof.
  induction lines as [|line lines IH]; intros inside found ps found' ps' H; cbn [card_lines] in H.
  - destruct inside; [discriminate|]. injection H as <- <-. exists []. cbn. rewrite Bool.orb_false_r. repeat split; constructor.
  - destruct (card_line ctx fl line (inside, found, ps)) as [[[[i r] q]|e]|] eqn:E; try discriminate.
    specialize (IH _ _ _ _ _ H). unfold card_line in E. destruct inside; cbn [negb] in E.
    + destruct (beq_case line (lit "END:VCARD")) as [[-> X]|[N X]]; rewrite X in E.
      * injection E as <- <- <-. cbv iota in IH.
        destruct IH as (ls & A & B & C). exists [], [], lines, ls. cbn [app]. repeat split; try assumption. constructor.
      * destruct line as [|ch line].
        -- apply blank_some in E. destruct E as [E Nb]. injection E as -> -> ->. cbv iota in IH.
           destruct IH as (body & l & lines2 & ls & -> & B & C). exists ([] :: body), l, lines2, ls. split; [reflexivity|]. split; [constructor; assumption|exact C].
        -- destruct (cprop_parse ctx fl (ch :: line)) as [[p|e]|] eqn:P; try discriminate. destruct (card_valid p) eqn:V; [|discriminate].
           injection E as <- <- <-. cbv iota in IH. destruct IH as (body & l & lines2 & ls & -> & B & C).
           exists ((ch :: line) :: body), (p :: l), lines2, ls. split; [reflexivity|]. split; [|exact C].
           constructor; try assumption; [discriminate|apply valid_spec; assumption].
    + destruct (beq_case line (lit "BEGIN:VCARD")) as [[-> X]|[N X]]; rewrite X in E.
      * injection E as <- <- <-. cbv iota in IH. destruct IH as (body & l & lines2 & ls & -> & B & C & D & F).
        exists (l :: ls). split; [constructor; assumption|]. cbn [List.concat nonempty]. rewrite Bool.orb_true_r. auto.
      * destruct line as [|ch line]; [|discriminate]. apply blank_some in E. destruct E as [E Nb]. injection E as -> -> ->. cbv iota in IH.
        destruct IH as (ls & A & B). exists ls. split; [constructor; assumption|exact B].
Qed.
Lemma card_complete lines ls : cards_in ctx fl lines ls -> forall found ps,
  card_lines ctx fl lines (false, found, ps) = Some (Ok (false, found || nonempty ls, fold_left cput (List.concat ls) ps)).
Proof.
  induction 1 as [|lines ls Nb C IH|body l lines ls B C IH]; intros found ps.
  - cbn. rewrite Bool.orb_false_r. reflexivity.
  - cbn [card_lines]. unfold card_line. cbn [negb]. change (beq [] (lit "BEGIN:VCARD")) with false; cbv iota. rewrite blank_ok by assumption. apply IH.
  - cbn [card_lines].
    change (card_line ctx fl (lit "BEGIN:VCARD") (false, found, ps)) with (Some (Ok (true, true, ps))). cbv iota beta.
    destruct (body_lines body l B) as [_ L]. rewrite L. cbn [card_lines].
    change (card_line ctx fl (lit "END:VCARD") (true, true, fold_left cput l ps)) with (Some (Ok (false, true, fold_left cput l ps))). cbv iota beta.
    rewrite IH. cbn [List.concat nonempty]. rewrite fold_left_app, Bool.orb_true_r. reflexivity.
Qed.
Lemma card_accepted text :
  (forall oc, card_parse ctx fl text = Some (Ok oc) ->
     exists ls, cards_in ctx fl (lines_in text) ls /\
       match oc with None => ls = [] | Some c => ls <> [] /\ has_version (List.concat ls) /\ holds c (List.concat ls) end) /\
  (forall ls, cards_in ctx fl (lines_in text) ls -> (ls = [] -> card_parse ctx fl text = Some (Ok None)) /\
     (ls <> [] -> has_version (List.concat ls) -> exists c, card_parse ctx fl text = Some (Ok (Some c)) /\ holds c (List.concat ls))).
Proof.
  unfold card_parse, lines_in. split.
  - intros oc H. destruct (card_lines ctx fl _ _) as [[[[inside found] ps]|e]|] eqn:E; try discriminate.
    destruct inside; [discriminate|]. apply card_sound in E. cbv iota in E. destruct E as (ls & A & -> & ->). cbn [orb] in H.
    exists ls. split; [assumption|]. destruct ls as [|l ls]; [injection H as <-; reflexivity|]. cbn [nonempty andb] in H.
    destruct (card_has _ _) eqn:V; cbn [negb] in H; [|discriminate]. injection H as <-. split; [discriminate|].
    split; [apply version_has; assumption|apply made_holds; reflexivity].
  - intros ls H. pose proof (card_complete _ _ H false []) as E. cbn [orb] in E. unfold cprops in *. rewrite E. split.
    + intros ->. reflexivity.
    + intros N V. destruct ls as [|l ls]; [congruence|]. apply version_has in V. unfold cprops in *. cbn [nonempty andb]. rewrite V. cbn [negb].
      eexists. split; [reflexivity|apply made_holds; reflexivity].
Qed.

(** ** Errors. *)
Lemma parse_error line e : cprop_parse ctx fl line = Some (Raise e) -> e = InvalidProperty.
Proof.
  unfold cprop_parse. destruct (vcard_parseLine _ _ _) as [[l|x]|]; try discriminate; [|intros [= <-]; reflexivity].
  destruct (cline_value _ _ _ _ _); [discriminate|]. intros [= <-]. reflexivity.
Qed.
Lemma blank_error {A} (st : A) e : cblank ctx st = Some (Raise e) -> e = InvalidData.
Proof. unfold cblank. destruct (peqb _ _); [|discriminate]. intros [= <-]. reflexivity. Qed.
Lemma cards_error text e : cards_parse ctx fl text = Some (Raise e) -> e = InvalidData \/ e = InvalidProperty.
Proof.
  unfold cards_parse.
  assert (H : forall lines st e, cards_lines ctx fl lines st = Some (Raise e) -> e = InvalidData \/ e = InvalidProperty).
  { induction lines as [|line lines IH]; intros st x E; cbn [cards_lines] in E; [discriminate|].
    destruct (cards_line ctx fl line st) as [[st'|y]|] eqn:L; [eapply IH; exact E| |discriminate]. injection E as ->.
    destruct st as [[inside results] ps]. unfold cards_line in L. destruct (negb inside).
    - destruct (beq line (lit "BEGIN:VCARD")); [discriminate|]. destruct line; [left; eapply blank_error; exact L|]. injection L as <-. auto.
    - destruct (beq line (lit "END:VCARD")); [destruct (card_has _ _); [discriminate|]; injection L as <-; auto|].
      destruct line; [left; eapply blank_error; exact L|]. destruct (cprop_parse ctx fl (a :: line)) as [[p|z]|] eqn:P; try discriminate.
      + destruct (card_valid p); [discriminate|]. injection L as <-. auto.
      + injection L as <-. right. eapply parse_error; exact P. }
  destruct (cards_lines ctx fl _ _) as [[[[inside results] ps]|x]|] eqn:E; try discriminate.
  - destruct inside; [|discriminate]. intros [= <-]. auto.
  - intros [= <-]. eapply H; exact E.
Qed.
Lemma card_error text e : card_parse ctx fl text = Some (Raise e) -> e = InvalidData \/ e = InvalidProperty.
Proof.
  unfold card_parse.
  assert (H : forall lines st e, card_lines ctx fl lines st = Some (Raise e) -> e = InvalidData \/ e = InvalidProperty).
  { induction lines as [|line lines IH]; intros st x E; cbn [card_lines] in E; [discriminate|].
    destruct (card_line ctx fl line st) as [[st'|y]|] eqn:L; [eapply IH; exact E| |discriminate]. injection E as ->.
    destruct st as [[inside results] ps]. unfold card_line in L. destruct (negb inside).
    - destruct (beq line (lit "BEGIN:VCARD")); [discriminate|]. destruct line; [left; eapply blank_error; exact L|]. injection L as <-. auto.
    - destruct (beq line (lit "END:VCARD")); [discriminate|].
      destruct line; [left; eapply blank_error; exact L|]. destruct (cprop_parse ctx fl (a :: line)) as [[p|z]|] eqn:P; try discriminate.
      + destruct (card_valid p); [discriminate|]. injection L as <-. auto.
      + injection L as <-. right. eapply parse_error; exact P. }
  destruct (card_lines ctx fl _ _) as [[[[inside results] ps]|x]|] eqn:E; try discriminate.
  - destruct inside; [intros [= <-]; auto|]. destruct (results && _); [intros [= <-]; auto|discriminate].
  - intros [= <-]. eapply H; exact E.
Qed.
End Accept.

(** ** Names. *)
Lemma words_from_app s : forall w t, words_from w (s ++ SPC :: t) = words_from w s ++ words_from [] t.
Proof.
  induction s as [|c s IH]; intros w t; cbn [app words_from].
  - change (Ascii.eqb SPC SPC) with true. cbv iota. destruct w; reflexivity.
  - destruct (Ascii.eqb c SPC); [destruct w|]; cbn [app]; rewrite IH; reflexivity.
Qed.
Lemma words_join l : words (join_char SPC l) = flat_map words l.
Proof.
  unfold words. induction l as [|x [|y l] IH]; [reflexivity|cbn; rewrite app_nil_r; reflexivity|].
  change (join_char SPC (x :: y :: l)) with (x ++ SPC :: join_char SPC (y :: l)). rewrite words_from_app, IH. reflexivity.
Qed.
Lemma words_part x : words (nested_text x) = part_words x.
Proof. destruct x; [reflexivity|apply words_join]. Qed.
Lemma words_filter l : flat_map words (filter (fun s : bytes => match s with [] => false | _ => true end) l) = flat_map words l.
Proof. induction l as [|[|c s] l IH]; [reflexivity|exact IH|]. cbn [filter flat_map]. rewrite IH. reflexivity. Qed.

Lemma join_tidy l : Forall tidy l -> l <> [] -> tidy (join_char SPC l).
Proof.
  intros F N. split.
  - destruct F as [|x l [Hx _] F]; [congruence|]. destruct l; cbn [join_char]; [assumption|]. destruct x; [congruence|discriminate].
  - rewrite words_join. clear N. assert (A : forall a b, a <> [] -> b <> [] -> join_char SPC (a ++ b) = join_char SPC a ++ SPC :: join_char SPC b).
    { induction a as [|x [|y a] IH]; intros b Na Nb; [congruence|destruct b; [congruence|reflexivity]|].
      cbn [app]. change (join_char SPC (x :: y :: a ++ b)) with (x ++ SPC :: join_char SPC ((y :: a) ++ b)). rewrite IH by (assumption || discriminate).
      cbn [join_char]. rewrite <- app_assoc. reflexivity. }
    assert (W : forall s, tidy s -> words s <> []) by (intros s [H1 H2] E; rewrite E in H2; cbn in H2; congruence).
    induction F as [|x l Hx F IH]; [reflexivity|]. cbn [flat_map]. destruct l as [|y l]; [cbn [flat_map]; rewrite app_nil_r; apply Hx|].
    rewrite A.
    + rewrite IH. destruct Hx as [_ ->]. reflexivity.
    + apply W; assumption.
    + cbn [flat_map]. inversion F; subst. intro E. apply app_eq_nil in E as [E _]. revert E. apply W; assumption.
Qed.
Lemma full_name l last first middle prefix suffix rest : l = last :: first :: middle :: prefix :: suffix :: rest ->
  exists s, getFullName l = Ok s /\ words s = flat_map part_words [prefix; first; middle; last; suffix] /\
    (Forall part_tidy [prefix; first; middle; last; suffix] -> s = [] \/ tidy s).
Proof.
  intros ->. eexists. split; [reflexivity|]. split.
  - rewrite words_join, words_filter. cbn [map flat_map]. rewrite !words_part. reflexivity.
  - intro F. set (m := map nested_text [prefix; first; middle; last; suffix]).
    assert (T : Forall tidy (filter (fun s : bytes => match s with [] => false | _ => true end) m)).
    { assert (Fm : Forall (fun s => s = [] \/ tidy s) m).
      { unfold m. apply Forall_map. eapply Forall_impl; [|exact F]. intros [s|t] H; cbn [nested_text part_tidy] in *; [assumption|].
        destruct t; [left; reflexivity|]. right. apply join_tidy; [assumption|discriminate]. }
      clear - Fm. induction Fm as [|s m H F IH]; [constructor|]. cbn [filter]. destruct H as [->|H]; [assumption|].
      destruct s; [assumption|constructor; assumption]. }
    match goal with |- join_char SPC ?z = [] \/ _ => change (Forall tidy z) in T; destruct z as [|x r] end; [left; reflexivity|].
    right. apply join_tidy; [assumption|discriminate].
Qed.

(** ** Duplicates. *)
Lemma double_length ctx s n l : parseDoubleNestedList ctx s n = Ok l -> (n <= List.length l)%nat /\ (cuts ctx -> List.length l = n).
Proof.
  unfold parseDoubleNestedList, rbind. destruct (pdn_loop _ _ _ _ _) as [r|]; [|discriminate]. cbv zeta.
  set (x := r ++ repeat (NStr []) (n - List.length r)).
  assert (L : (n <= List.length x)%nat) by (unfold x; rewrite app_length, repeat_length; lia).
  destruct (n <? List.length x)%nat eqn:E.
  - destruct (peqb (INVALID_ADR_N_VALUES ctx) PARSER_FIX) eqn:E1; [|destruct (peqb (INVALID_ADR_N_VALUES ctx) PARSER_RAISE) eqn:E2; [discriminate|]].
    + intros [= <-]. rewrite firstn_length. split; intros; lia.
    + intros [= <-]. split; [assumption|]. intros [C|C]; rewrite C in *; discriminate.
  - intros [= <-]. split; intros; lia.
Qed.
Lemma pad_full n l : List.length l = n -> new_parts n l = Ok l.
Proof.
  intro L. unfold new_parts, pad. rewrite L, Nat.ltb_irrefl, Nat.sub_diag. cbn [repeat]. rewrite app_nil_r. reflexivity.
Qed.
Lemma item_duplicate ctx fl t data i : citem_parse ctx fl t data = Ok i -> cuts ctx -> citem_duplicate i = Ok i.
Proof.
  intros H C. pose proof (citem_made ctx fl t data i H) as M. destruct t as [t| | | |]; destruct i as [i|l|l|l]; try contradiction M; try reflexivity.
  - destruct data as [s|]; [|discriminate]. cbn [citem_parse] in H. unfold rbind in H. destruct (parseDoubleNestedList ctx s 7) as [m|] eqn:E; [|discriminate].
    injection H as <-. cbn [citem_duplicate]. rewrite pad_full by (apply (double_length _ _ _ _ E); assumption). reflexivity.
  - destruct data as [s|]; [|discriminate]. cbn [citem_parse] in H. unfold rbind in H. destruct (parseDoubleNestedList ctx s 5) as [m|] eqn:E; [|discriminate].
    injection H as <-. cbn [citem_duplicate]. rewrite pad_full by (apply (double_length _ _ _ _ E); assumption). reflexivity.
Qed.
Lemma items_duplicate ctx fl t ss : cuts ctx -> forall l, map_r (fun tok => citem_parse ctx fl t (Some tok)) ss = Ok l -> map_r citem_duplicate l = Ok l.
Proof.
  intro C. induction ss as [|s ss IH]; cbn [map_r]; intros l H; [injection H as <-; reflexivity|]. unfold rbind in H.
  destruct (citem_parse ctx fl t (Some s)) as [i|] eqn:E; [|discriminate].
  destruct (map_r _ ss) as [m|]; [|discriminate]. injection H as <-. cbn [map_r]. rewrite (item_duplicate _ _ _ _ _ E C). cbn [rbind].
  rewrite (IH m eq_refl). reflexivity.
Qed.
Lemma prop_duplicate ctx fl text p : cuts ctx -> cprop_parse ctx fl text = Some (Ok p) -> cprop_duplicate p = Ok p.
Proof.
  intros C. unfold cprop_parse. destruct (vcard_parseLine ctx _ text) as [[l|]|]; try discriminate.
  destruct (cline_value _ _ _ _ _) as [v|] eqn:E; [|discriminate]. intros [= <-]. unfold cprop_duplicate. cbn [cpGroup cpName cpParams cpValue].
  unfold cline_value, rbind in E. destruct (cdetermine _ _) as [s|] eqn:Et; [|discriminate].
  destruct (cis_multi (lName l)).
  - unfold cmulti_parse, rbind in E. destruct (lValue l) as [x|]; [|discriminate].
    destruct (map_r _ _) as [k|] eqn:Em; [|discriminate]. injection E as <-. rewrite (items_duplicate _ _ _ _ C _ Em). reflexivity.
  - destruct (citem_parse _ _ _ _) as [i|] eqn:Ei; [|discriminate]. injection E as <-. rewrite (item_duplicate _ _ _ _ _ Ei C). reflexivity.
Qed.
Lemma parts_length ctx fl s l :
  (citem_parse ctx fl CT_N s = Ok (CName l) -> (5 <= List.length l)%nat /\ (cuts ctx -> List.length l = 5%nat)) /\
  (citem_parse ctx fl CT_ADR s = Ok (CAdr l) -> (7 <= List.length l)%nat /\ (cuts ctx -> List.length l = 7%nat)).
Proof.
  destruct s as [s|]; [|split; discriminate]. cbn [citem_parse]. unfold rbind. split.
  - destruct (parseDoubleNestedList ctx s 5) as [m|] eqn:E; [|discriminate]. intros [= <-]. eapply double_length; exact E.
  - destruct (parseDoubleNestedList ctx s 7) as [m|] eqn:E; [|discriminate]. intros [= <-]. eapply double_length; exact E.
Qed.

(** ** The order of the lines. *)
Definition key_before (x y : bytes) : Prop := (vcard_rank x < vcard_rank y)%nat \/ (vcard_rank x = vcard_rank y /\ text_lt x y).
Lemma rank_other n : ~ In n card_order -> vcard_rank n = 3%nat.
Proof.
  intro H. unfold vcard_rank. destruct (beq_case n (lit "VERSION")) as [[-> _]|[_ ->]]; [destruct H; cbn; tauto|].
  destruct (beq_case n (lit "PRODID")) as [[-> _]|[_ ->]]; [destruct H; cbn; tauto|].
  destruct (beq_case n (lit "UID")) as [[-> _]|[_ ->]]; [destruct H; cbn; tauto|]. reflexivity.
Qed.
Lemma rank_first n : In n card_order -> (vcard_rank n < 3)%nat.
Proof. intros [<-|[<-|[<-|[]]]]; vm_compute; lia. Qed.
Lemma first_sorted f : StronglySorted key_before (filter f card_order).
Proof.
  cbn [filter card_order]. destruct (f (lit "VERSION")), (f (lit "PRODID")), (f (lit "UID")); repeat constructor; left; vm_compute; lia.
Qed.
Lemma sorted_app {A} (R : A -> A -> Prop) l m : StronglySorted R l -> StronglySorted R m -> (forall x y, In x l -> In y m -> R x y) -> StronglySorted R (l ++ m).
Proof.
  induction 1 as [|x l S IH H]; intros M C; [assumption|]. cbn [app]. constructor.
  - apply IH; [assumption|]. intros; apply C; [right|]; assumption.
  - apply Forall_app. split; [assumption|]. apply Forall_forall. intros y I. apply C; [left; reflexivity|assumption].
Qed.
Lemma lt_sorted l : (forall a x b y c, l = a ++ x :: b ++ y :: c -> text_lt x y) -> StronglySorted text_lt l.
Proof.
  induction l as [|x l IH]; intro H; [constructor|]. constructor.
  - apply IH. intros a u b v c E. apply (H (x :: a) u b v c). rewrite E. reflexivity.
  - apply Forall_forall. intros y I. apply in_split in I. destruct I as (b & c & ->). apply (H [] x b y c). reflexivity.
Qed.
Lemma keys_sorted c : NoDup (map fst c) -> StronglySorted key_before (card_keys c).
Proof.
  intro N. unfold card_keys.
  assert (Ns : NoDup (sort_by (fun x => x) (map fst c))) by (eapply Permutation_NoDup; [symmetry; apply sort_perm|assumption]).
  destruct (keys_in_order_spec card_order (sort_by (fun x => x) (map fst c))) as (r & E & O & M & P);
    [apply card_order_NoDup|assumption|apply sort_order|]. rewrite E. apply sorted_app.
  - apply first_sorted.
  - assert (Nr : NoDup r).
    { eapply Permutation_NoDup in Ns; [|symmetry; exact P]. rewrite E in Ns. revert Ns. clear.
      generalize (filter (fun n => existsb (beq n) (sort_by (fun x => x) (map fst c))) card_order).
      induction l as [|x l IH]; cbn [app]; [auto|]. inversion 1; auto. }
    pose proof (lt_sorted r (in_order_lt r Nr O)) as S. assert (R3 : forall x, In x r -> vcard_rank x = 3%nat) by (intros x I; apply rank_other; apply M in I; apply I).
    clear - S R3. induction S as [|x l S IH H]; constructor.
    + apply IH. intros; apply R3; right; assumption.
    + rewrite Forall_forall in *. intros y I. right. rewrite (R3 x), (R3 y) by (cbn; auto). auto.
  - intros x y Ix Iy. left. apply filter_In in Ix. destruct Ix as [Ix _]. apply M in Iy. destruct Iy as [_ Iy].
    rewrite (rank_other y Iy). apply rank_first; assumption.
Qed.
Lemma group_sorted c keys : (forall key p, In p (card_get key c) -> upper (cpName p) = key) -> StronglySorted key_before keys ->
  StronglySorted vcard_before (flat_map (fun key => card_get key c) keys).
Proof.
  intros Hn. induction 1 as [|k keys S IH H]; [constructor|]. cbn [flat_map]. apply sorted_app; [|assumption|].
  - assert (Hk : forall p, In p (card_get k c) -> upper (cpName p) = k) by (intros; apply Hn; assumption).
    induction (card_get k c) as [|p l IHl]; constructor; [apply IHl; intros; apply Hk; right; assumption|].
    apply Forall_forall. intros q I. left. rewrite (Hk p), (Hk q); [reflexivity|right; assumption|left; reflexivity].
  - intros p q Ip Iq. apply in_flat_map in Iq. destruct Iq as (k' & Ik & Iq). unfold vcard_before. rewrite (Hn _ _ Ip), (Hn _ _ Iq).
    right. rewrite Forall_forall in H. apply H; assumption.
Qed.
Lemma card_lines_order ctx fl c text : card_ok ctx fl c -> card_generate fl c = Some (Ok text) ->
  exists ps ls, lines_in text = lit "BEGIN:VCARD" :: ls ++ [lit "END:VCARD"] /\ Forall2 (fun p l => cprop_line fl p = Ok l) ps ls /\
    (forall name, of_name name ps = card_get name c) /\ StronglySorted vcard_before ps.
Proof.
  intros K G. destruct (card_wrote ctx fl c K) as (text' & G' & W). assert (text' = text) as -> by congruence.
  exists (card_written c), (map (cline_of fl) (card_written c)). split; [unfold lines_in; apply read_written; exact W|]. split; [|split].
  - pose proof (card_good ctx fl c K) as F. clear - F. induction F as [|p l (_ & _ & line & E & _) F IH]; cbn [map]; constructor; [|assumption].
    unfold cline_of. rewrite E. reflexivity.
  - intro name. apply cwritten_filter; [apply K|apply (card_names ctx fl c K)].
  - unfold card_written. fold (card_keys c). apply group_sorted; [|apply keys_sorted; apply K].
    intros key p I. destruct (cget_in c key p I) as (l & I1 & I2). eapply (card_names ctx fl c K); eassumption.
Qed.
