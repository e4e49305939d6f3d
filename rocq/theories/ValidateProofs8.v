(** Proofs about validation: what has been read from text can be validated. *)
From Verif Require Import PyProofs LineProofs LineModel PropertyModel RecurModel PropertyProofs ComponentProofs2 ComponentProofs3 ComponentProofs4 ComponentProofs6 ValidateModel ValidateSpec
  ValidateProofs.

(** ** Rules. *)
Definition until_set (r : rule) : Prop := rUseUntil r = true -> rUntil r <> None.
Ltac no_way := let H := fresh in intro H; discriminate H.
Lemma once_until {A} (old : option (list A)) new set r' :
  (forall l, until_set (set l)) -> once old new set = Ok r' -> until_set r'.
Proof. intro S. unfold once. destruct old; [no_way|]. destruct new; cbn; [|no_way]. intro H. injection H as <-. apply S. Qed.
Lemma part_until ctx p v r r' : until_set r -> parse_part ctx p v r = Ok r' -> until_set r'.
Proof.
  intro U. destruct p; cbn [parse_part]; try (apply once_until; intros l; exact U).
  - destruct (RecurModel.assoc v cFreqMap); [|no_way]. intro H. injection H as <-. exact U.
  - destruct (rUseCount r); [no_way|]. destruct (dt_parse ctx false v _) as [d [x|e]]; [|no_way]. intro H. injection H as <-. intros _. discriminate.
  - destruct (rUseUntil r); [no_way|]. destruct (pyint v); cbn; [|no_way]. destruct (_ <? 1); [no_way|]. intro H. injection H as <-. exact U.
  - destruct (pyint v); cbn; [|no_way]. destruct (_ <? 1); [no_way|]. intro H. injection H as <-. exact U.
  - destruct (RecurModel.assoc v cWeekdayMap); [|no_way]. intro H. injection H as <-. exact U.
Qed.
Lemma tokens_until ctx ts : forall r r', until_set r -> parse_tokens ctx ts r = Ok r' -> until_set r'.
Proof.
  induction ts as [|t ts IH]; intros r r' U; cbn [parse_tokens]; [intro H; injection H as <-; exact U|].
  destruct (parse_token ctx t r) as [r1|e] eqn:E; cbn [rbind]; [|no_way]. apply IH. unfold parse_token in E.
  destruct (split_char _ t) as [|n [|v [|? ?]]]; try discriminate E. destruct (RecurModel.assoc n cRecurMap) as [p|]; [|discriminate E]. eapply part_until; eassumption.
Qed.
Lemma rule_until ctx s r : rule_parse ctx s = Ok r -> until_set r.
Proof. unfold rule_parse. intro H. refine (tokens_until ctx _ _ _ _ H). intro Q. discriminate Q. Qed.

(** ** A line has a value, unless the name is all of it. *)
Lemma more_some f : forall txt vs t, more_values f txt = Some (Ok (vs, t)) -> t <> [].
Proof.
  induction f as [|f IH]; intros txt vs t; [discriminate|]. cbn [more_values]. destruct txt as [|c r]; [discriminate|].
  destruct (Ascii.eqb c _).
  - destruct (strduptokenstr r _) as [[[v|] r']|e]; try discriminate. destruct (more_values f r') as [[[vs' t']|e]|] eqn:E; try discriminate.
    intro H. injection H as _ <-. eapply IH. exact E.
  - intro H. injection H as _ <-. discriminate.
Qed.
Lemma loop_value f : forall txt ps ps', param_loop ical_round f txt ps = Some (Ok (None, ps')) -> txt = [] /\ ps' = ps.
Proof.
  induction f as [|f IH]; intros txt ps ps'; destruct txt as [|c t]; cbn [param_loop]; try discriminate; try (intro H; injection H as <-; auto).
  destruct (ical_round (c :: t) ps) as [|t1 ps1|t1 ps1|e] eqn:R; try discriminate; [|destruct e; discriminate].
  intro H. apply IH in H as [-> _]. exfalso. unfold ical_round in R. destruct (Ascii.eqb c ";").
  - destruct (strduptokenstr t _) as [[[n|] t2]|e]; try discriminate. destruct (strduptokenstr (tl t2) _) as [[[v|] t3]|e]; try discriminate.
    destruct (more_values _ t3) as [[[vs t4]|e]|] eqn:M; try discriminate. injection R as -> _. eapply more_some; [exact M|reflexivity].
  - destruct (Ascii.eqb c ":"); discriminate.
Qed.
Lemma line_no_value f data l : ical_parseLine f data = Some (Ok l) -> lValue l = None -> lParams l = [].
Proof.
  unfold ical_parseLine. destruct (strduptokenstr data _) as [[[[|x n]|] txt]|e]; try discriminate.
  destruct (param_loop ical_round f txt []) as [[[v ps]|e]|] eqn:E; try discriminate. intro H. injection H as <-. cbn [lValue lParams]. intros ->.
  apply loop_value in E as [_ E]. exact E.
Qed.

Definition wordless (v : option value) : Prop := (exists c, v = Some (Single (VPlain c None))) \/ v = Some (Single (VUri None)).
Definition texted (n : bytes) : Prop := upper n = lit "VERSION" \/ upper n = lit "CALSCALE".
Definition good_value (v : option value) : Prop := forall r, v = Some (Single (VRecur r)) -> until_set r.
Definition good (p : prop) : Prop := good_value (pValue p) /\ (texted (pName p) -> ~ wordless (pValue p)).
Lemma item_words ctx fl t data i : item_parse ctx fl t (Some data) = Ok i -> ~ wordless (Some (Single i)).
Proof.
  intros H W. assert (Q : (exists c, i = VPlain c None) \/ i = VUri None) by (destruct W as [[c W]|W]; injection W as ->; eauto). clear W. revert H Q.
  destruct t; cbn [item_parse]; unfold rbind;
    try (intro H; injection H as <-; intros [[c Q]|Q]; discriminate Q);
    repeat match goal with |- context [match ?x with _ => _ end] => destruct x eqn:? end; try discriminate;
    try (intro H; injection H as <-; intros [[c Q]|Q]; discriminate Q);
    unfold geo_parse, status_parse, rbind; repeat match goal with |- context [match ?x with _ => _ end] => destruct x end; try discriminate;
    intro H; injection H as <-; intros [[c Q]|Q]; discriminate Q.
Qed.
Lemma post_words t ps v v' : postCreateValue t ps v = Ok v' -> wordless (Some v') -> wordless (Some v).
Proof.
  unfold postCreateValue. destruct (_ || _); [|intro H; injection H as ->; auto]. destruct (assoc _ ps) as [l|]; [|intro H; injection H as ->; auto].
  destruct (first_value l); cbn [rbind]; [|discriminate]. intro H. injection H as <-. destruct v as [i|m l']; [|intros [[c Q]|Q]; discriminate Q].
  destruct i; cbn [zone_item]; auto. intros [[c Q]|Q]; discriminate Q.
Qed.
Lemma words_default n : texted n -> determineValueType n [] = Ok T_TEXT.
Proof. intros [E|E]; unfold determineValueType; rewrite E; reflexivity. Qed.
Lemma words_single n : texted n -> is_multi n = false.
Proof. intros [E|E]; unfold is_multi; rewrite E; reflexivity. Qed.
Lemma item_until ctx fl t data r : item_parse ctx fl t data = Ok (VRecur r) -> until_set r.
Proof.
  destruct t, data; cbn [item_parse]; unfold rbind;
    repeat match goal with |- context [match ?x with _ => _ end] => destruct x eqn:? end; try no_way;
    try (unfold geo_parse, status_parse, rbind; repeat match goal with |- context [match ?x with _ => _ end] => destruct x end; no_way).
  intro H. injection H as <-. eapply rule_until. eassumption.
Qed.
Lemma post_until t ps v v' r : postCreateValue t ps v = Ok v' -> v' = Single (VRecur r) -> v = Single (VRecur r).
Proof.
  unfold postCreateValue. destruct (_ || _); [|congruence]. destruct (assoc _ ps) as [l|]; [|congruence].
  destruct (first_value l); cbn [rbind]; [|discriminate]. intro H. injection H as <-. destruct v as [i|m l']; [|discriminate].
  destruct i; cbn [zone_item]; congruence.
Qed.
Lemma parse_words ctx fl line p : prop_parse ctx fl line = Ok p -> texted (pName p) -> ~ wordless (pValue p).
Proof.
  unfold prop_parse. destruct (ical_parseLine _ line) as [[l|e]|] eqn:L; try discriminate.
  destruct (line_value ctx fl (lName l) (lParams l) (lValue l)) as [v|e] eqn:E; [|discriminate]. intro H. injection H as <-. cbn [pName pValue].
  intros T W. unfold line_value in E. rewrite (words_single _ T) in E. destruct (lValue l) as [data|] eqn:V.
  - unfold rbind in E. destruct (determineValueType _ _) as [t|]; [|discriminate].
    destruct (item_parse ctx fl t (Some data)) as [i|] eqn:M; [|discriminate]. apply item_words in M. apply M. eapply post_words; eassumption.
  - rewrite (line_no_value _ _ _ L V), (words_default _ T) in E. discriminate E.
Qed.
Lemma parse_until ctx fl line p : prop_parse ctx fl line = Ok p -> good_value (pValue p).
Proof.
  unfold prop_parse. destruct (ical_parseLine _ line) as [[l|e]|]; try discriminate.
  destruct (line_value ctx fl (lName l) (lParams l) (lValue l)) as [v|e] eqn:E; [|discriminate]. intro H. injection H as <-. cbn [pValue].
  intros r H. injection H as ->. unfold line_value, rbind in E. destruct (determineValueType _ _) as [t|]; [|discriminate].
  destruct (is_multi (lName l)).
  - destruct (multi_parse ctx fl t (lValue l)) as [v|] eqn:M; [|discriminate]. pose proof (post_until _ _ _ _ _ E eq_refl) as ->.
    unfold multi_parse in M. destruct (lValue l); [|discriminate]. unfold rbind in M. destruct (map_r _ _); discriminate.
  - destruct (item_parse ctx fl t (lValue l)) as [i|] eqn:M; [|discriminate]. pose proof (post_until _ _ _ _ _ E eq_refl) as Q. injection Q as ->.
    eapply item_until. exact M.
Qed.

Lemma parse_good ctx fl line p : prop_parse ctx fl line = Ok p -> good p.
Proof. intro H. split; [eapply parse_until; exact H|eapply parse_words; exact H]. Qed.

(** ** Components. *)
Definition sound_props (ps : props) : Prop := tidy_props ps /\ forall p, In p (List.concat (map snd ps)) -> good p.
Lemma tidy_put p ps : tidy_props ps -> tidy_props (addProperty p ps).
Proof.
  intros [N F]. unfold addProperty. split; [apply add_NoDup; assumption|]. clear N.
  induction F as [|[k l] ps [F1 F2] F IH]; cbn [add_prop].
  - repeat constructor; cbn [fst snd]. discriminate.
  - cbn [fst snd] in *. destruct (beq_case k (upper (pName p))) as [[-> ->]|[M ->]].
    + constructor; [|assumption]. cbn [fst snd]. split; [destruct l; discriminate|]. apply Forall_app. split; [assumption|]. repeat constructor.
    + constructor; [split; assumption|assumption].
Qed.
Lemma in_put q p ps : In q (List.concat (map snd (addProperty p ps))) -> q = p \/ In q (List.concat (map snd ps)).
Proof.
  unfold addProperty. generalize (upper (pName p)). intro key. induction ps as [|[k l] ps IH]; cbn [add_prop map snd List.concat].
  - rewrite app_nil_r. intros [<-|[]]. left. reflexivity.
  - destruct (beq k key); cbn [map snd List.concat]; rewrite !in_app_iff.
    + intros [[I|[<-|[]]]|I]; auto.
    + intros [I|I]; [auto|]. destruct (IH I); auto.
Qed.
Lemma sound_put p ps : good p -> sound_props ps -> sound_props (addProperty p ps).
Proof.
  intros G [T F]. split; [apply tidy_put; assumption|]. intros q I. apply in_put in I as [->|I]; auto.
Qed.
Lemma sound_nil : sound_props [].
Proof. split; [split; constructor|intros p []]. Qed.
Definition sound (c : comp) : Prop := everywhere sound_props c.

Section Read.
Variable tzo : tzid -> Z -> Z -> Z -> Z -> Z -> Z -> bool -> bool -> Z.
Variable ctx : pctx.
Variable fl : floats.
Variable uuids : nat -> bytes.

Lemma sound_finalise c c' : sound c -> finalise tzo c = Ok c' -> sound c'.
Proof.
  intros S E. destruct (finalise_shape tzo c c' E) as (_ & P & U). destruct c as [k s ps subs], c' as [k' s' ps' subs']. cbn [cKind cProps cSubs] in *. subst ps'.
  inversion S as [? ? ? ? A B]; subst. constructor; [assumption|]. destruct k; try (subst subs'; assumption).
  apply sort_start_perm in U. rewrite Forall_forall in *. intros c I. apply B. eapply Permutation_in; eassumption.
Qed.
Lemma sound_add c d c' : sound c -> sound d -> addComponent c d = Ok c' -> sound c'.
Proof.
  intros S D. destruct c as [k s ps subs]. cbn [addComponent]. destruct (allowed _ _); [|discriminate]. intro H. injection H as <-.
  inversion S as [? ? ? ? A B]; subst. constructor; [assumption|]. apply Forall_app. split; [assumption|]. repeat constructor. exact D.
Qed.
Lemma sound_put_prop p c : good p -> sound c -> sound (put_prop p c).
Proof. intros G S. destruct c as [k s ps subs]. inversion S; subst. constructor; [apply sound_put; assumption|assumption]. Qed.
Lemma sound_make t u : sound (makeComponent t u).
Proof.
  unfold makeComponent. repeat match goal with |- context [match ?x with _ => _ end] => destruct x end; (constructor; [apply sound_nil|constructor]).
Qed.
Definition sound_state (st : pstate) : Prop := sound (self st) /\ Forall sound (opened st).
Lemma sound_line line st st' : sound_state st -> parse_line tzo ctx fl uuids line st = Ok st' -> sound_state st'.
Proof.
  intros [S O]. destruct st as [ins fnd slf opn mde]. cbn [self opened] in *. cbn [parse_line].
  destruct (negb ins).
  { destruct (beq line _); [intro H; injection H as <-; split; assumption|].
    destruct line; [|discriminate]. unfold blank. destruct (peqb _ _); [discriminate|]. intro H. injection H as <-. split; assumption. }
  destruct (startswith _ _).
  { intro H. injection H as <-. split; [assumption|]. cbn [opened]. constructor; [apply sound_make|assumption]. }
  destruct (beq line _).
  { destruct (finalise tzo slf) as [slf'|] eqn:E; cbn [rbind]; [|discriminate]. intro H. injection H as <-. split; [|assumption]. eapply sound_finalise; eassumption. }
  destruct (match opn with [] => false | _ => _ end).
  { destruct opn as [|c outer]; [discriminate|]. inversion O; subst. destruct (finalise tzo c) as [c'|] eqn:E; cbn [rbind]; [|discriminate].
    assert (sound c') by (eapply sound_finalise; eassumption). destruct outer as [|d outer].
    - destruct (addComponent slf c') as [slf'|] eqn:A; cbn [rbind]; [|discriminate]. intro H'. injection H' as <-. split; [|constructor]. eapply sound_add; [| |exact A]; assumption.
    - destruct (addComponent d c') as [d'|] eqn:A; cbn [rbind]; [|discriminate]. intro H'. injection H' as <-. split; [assumption|]. cbn [opened].
      match goal with Q : Forall sound (d :: outer) |- _ => inversion Q; subst end. constructor; [|assumption]. eapply sound_add; [| |exact A]; assumption. }
  destruct line as [|x line].
  { unfold blank. destruct (peqb _ _); [discriminate|]. intro H. injection H as <-. split; assumption. }
  destruct (prop_parse ctx fl (x :: line)) as [p|] eqn:E; cbn [rbind]; [|discriminate]. apply parse_good in E. destruct opn as [|c outer].
  - destruct (validProperty p); [|discriminate]. intro H. injection H as <-. split; [|constructor]. apply sound_put_prop; assumption.
  - intro H. injection H as <-. inversion O; subst. split; [assumption|]. constructor; [apply sound_put_prop; assumption|assumption].
Qed.
Lemma sound_lines l : forall st st', sound_state st -> parse_lines tzo ctx fl uuids l st = Ok st' -> sound_state st'.
Proof.
  induction l as [|x l IH]; intros st st' S; cbn [parse_lines]; [congruence|].
  destruct (parse_line tzo ctx fl uuids x st) as [st1|] eqn:E; cbn [rbind]; [|discriminate]. apply IH. eapply sound_line; eassumption.
Qed.
Lemma sound_read text c : parseTextData tzo ctx fl uuids text = Ok (Some c) -> sound c.
Proof.
  unfold parseTextData, parse, rbind. destruct (parse_lines _ _ _ _ _ _) as [st|] eqn:E; [|discriminate].
  apply sound_lines in E as [S _]; [|split; [constructor; [apply sound_nil|constructor]|constructor]].
  destruct (inside st); [discriminate|]. destruct (_ && _); [discriminate|]. cbn [fst snd]. destruct (found st); [|discriminate]. congruence.
Qed.
End Read.

(** ** What that means for validation. *)
Lemma sound_tidy c : sound c -> tidy c.
Proof.
  induction c as [k s ps subs IH] using comp_tree_ind. intro S. inversion S as [? ? ? ? A B]; subst. constructor; [apply A|].
  rewrite Forall_forall in *. intros c I. apply IH; [assumption|apply B; assumption].
Qed.
Lemma sound_ready c : sound c -> everywhere ready_props c.
Proof.
  induction c as [k s ps subs IH] using comp_tree_ind. intros S. inversion S as [? ? ? ? A B]; subst. constructor.
  - destruct A as [T A]. split.
    + intros n p N I. apply in_named in I as [I E]; [|assumption]. destruct (A p I) as [_ W].
      assert (Q : ~ wordless (pValue p)) by (apply W; unfold texted; rewrite E; exact N). unfold wordless in Q. split; [intros c V|intro V]; apply Q; eauto.
    + intros p r I W. apply in_named in I as [I _]; [|assumption]. exact (proj1 (A p I) r W).
  - rewrite Forall_forall in *. intros c I. apply IH; [assumption|apply B; assumption].
Qed.
