(** Proofs about component trees: which lines are accepted. *)
From Coq Require Import Lia ZifyBool ZifyNat.
From Verif Require Import PyBase PyProofs ParserCtx TextModel LineModel LineSpec LineProofs
  PropertyModel PropertySpec PropertyProofs PropertyProofs3 ComponentModel ComponentSpec ComponentProofs ComponentProofs2 ComponentProofs4.
Ltac Zify.zify_post_hook ::= Z.div_mod_to_equations.

Section Accept.
Variable tzo : tzid -> Z -> Z -> Z -> Z -> Z -> Z -> bool -> bool -> Z.
Variable ctx : pctx.
Variable fl : floats.
Variable uuids : nat -> bytes.
Let plines := parse_lines tzo ctx fl uuids.
Let body := body tzo ctx fl uuids.
Let cut_body := cut_body tzo ctx fl uuids.
Let file_of := file_of ctx.

Definition inside_ (st : pstate) : pstate := mkParse true (found st) (self st) (opened st) (made st).
Definition outside_ (st : pstate) : pstate := mkParse false (found st) (self st) (opened st) (made st).

Lemma begin_spec l : startswith l (lit "BEGIN:") = true <-> is_begin l.
Proof.
  split; [apply startswith_app|]. intros [n ->]. destruct n; reflexivity.
Qed.
Lemma begin_no l : ~ is_begin l -> startswith l (lit "BEGIN:") = false.
Proof. intro H. destruct (startswith _ _) eqn:E; [|reflexivity]. apply begin_spec in E. contradiction. Qed.
Lemma beq_no (a b : bytes) : a <> b -> beq a b = false.
Proof. intro H. destruct (beq_case a b) as [[E _]|[_ E]]; [contradiction|assumption]. Qed.
Lemma type_kind n : getType (kind_of n) = type_named n.
Proof.
  unfold kind_of, type_named. destruct (beq_case n (lit "UNKNOWN")) as [[-> ->]|[N ->]]; [reflexivity|].
  destruct (assoc n mapper) as [k|] eqn:E; [|reflexivity]. apply assoc_some in E. unfold mapper in E. cbn [map app In] in E.
  repeat match type of E with _ \/ _ => destruct E as [E|E]; [let A := fresh in let B := fresh in pose proof (f_equal fst E) as A; pose proof (f_equal snd E) as B; cbn [fst snd] in A, B; subst n k; first [reflexivity | congruence]|] end. contradiction.
Qed.

(** One line read in a calendar keeps the class of the calendar. *)
Lemma add_kind c d c' : addComponent c d = Ok c' -> cKind c' = cKind c.
Proof. destruct c as [k s ps subs]. cbn [addComponent]. destruct (allowed _ _); [|discriminate]. intros [= <-]. reflexivity. Qed.
Lemma put_kind p c : cKind (put_prop p c) = cKind c.
Proof. destruct c; reflexivity. Qed.
Lemma fin_kind c c' : finalise tzo c = Ok c' -> cKind c' = cKind c.
Proof. intro H. apply finalise_shape in H. apply H. Qed.
Lemma set_put p c : set_props c (addProperty p (cProps c)) = put_prop p c.
Proof. destruct c; reflexivity. Qed.

Lemma line_keeps l st st' : cKind (self st) = VCALENDAR -> parse_line tzo ctx fl uuids l st = Ok st' -> cKind (self st') = VCALENDAR.
Proof.
  destruct st as [i f s o n]. cbn [self]. intros K. unfold parse_line, blank. destruct i; cbn [negb].
  - destruct (startswith l _); [intros [= <-]; assumption|]. destruct (beq l _).
    { unfold rbind. destruct (finalise tzo s) as [s'|] eqn:E; [|discriminate]. intros [= <-]. cbn [self]. rewrite (fin_kind _ _ E). assumption. }
    destruct o as [|c o].
    + destruct l as [|x l]; [destruct (peqb _ _); [discriminate|intros [= <-]; assumption]|].
      unfold rbind. destruct (prop_parse ctx fl (x :: l)) as [p|]; [|discriminate]. destruct (validProperty p); [|discriminate].
      intros [= <-]. cbn [self]. rewrite put_kind. assumption.
    + destruct (beq l (endDelimiter (cKind c))).
      * unfold rbind. destruct (finalise tzo c) as [c'|]; [|discriminate]. destruct o as [|d o].
        -- destruct (addComponent s c') as [s'|] eqn:E; [|discriminate]. intros [= <-]. cbn [self]. rewrite (add_kind _ _ _ E). assumption.
        -- destruct (addComponent d c'); [|discriminate]. intros [= <-]. assumption.
      * destruct l as [|x l]; [destruct (peqb _ _); [discriminate|intros [= <-]; assumption]|].
        unfold rbind. destruct (prop_parse ctx fl (x :: l)) as [p|]; [|discriminate]. intros [= <-]. assumption.
  - destruct (beq l _); [intros [= <-]; assumption|]. destruct l; [|discriminate]. destruct (peqb _ _); [discriminate|intros [= <-]; assumption].
Qed.

(** Inside a calendar, a line other than END:VCALENDAR leaves us inside. *)
Lemma line_inside l st st' : cKind (self st) = VCALENDAR -> inside st = true -> l <> lit "END:VCALENDAR" ->
  parse_line tzo ctx fl uuids l st = Ok st' -> inside st' = true /\ found st' = found st.
Proof.
  destruct st as [i f s o n]. cbn [self inside found]. intros K -> N. unfold parse_line, blank. cbn [negb].
  destruct (startswith l _); [intros [= <-]; auto|]. rewrite K. change (endDelimiter VCALENDAR) with (lit "END:VCALENDAR"). rewrite (beq_no _ _ N).
  destruct o as [|c o].
  - destruct l as [|x l]; [destruct (peqb _ _); [discriminate|intros [= <-]; auto]|].
    unfold rbind. destruct (prop_parse ctx fl (x :: l)) as [p|]; [|discriminate]. destruct (validProperty p); [|discriminate].
    intros [= <-]. auto.
  - destruct (beq l (endDelimiter (cKind c))).
    + unfold rbind. destruct (finalise tzo c) as [c'|]; [|discriminate]. destruct o as [|d o].
      * destruct (addComponent s c') as [s'|] eqn:E; [|discriminate]. intros [= <-]. auto.
      * destruct (addComponent d c'); [|discriminate]. intros [= <-]. auto.
    + destruct l as [|x l]; [destruct (peqb _ _); [discriminate|intros [= <-]; auto]|].
      unfold rbind. destruct (prop_parse ctx fl (x :: l)) as [p|]; [|discriminate]. intros [= <-]. auto.
Qed.
Lemma found_free l f f' s o n : parse_line tzo ctx fl uuids l (mkParse true f s o n) =
  match parse_line tzo ctx fl uuids l (mkParse true f' s o n) with Ok st => Ok (mkParse (inside st) f (self st) (opened st) (made st)) | Raise e => Raise e end.
Proof.
  unfold parse_line, blank, rbind. cbn [negb].
  repeat first [reflexivity | match goal with
    | |- context [if ?b then _ else _] => destruct b eqn:?
    | |- context [match ?x with Ok _ => _ | Raise _ => _ end] => destruct x eqn:?
    | |- context [match ?x with [] => _ | _ :: _ => _ end] => destruct x eqn:?
    end; try congruence];
  match goal with H : Ok _ = Ok ?a |- _ => apply Ok_inj in H; subst a; reflexivity end.
Qed.
Lemma plines_found ls : forall f f' s o n, cKind s = VCALENDAR -> Forall (fun l => l <> lit "END:VCALENDAR") ls -> plines ls (mkParse true f s o n) =
  match plines ls (mkParse true f' s o n) with Ok st => Ok (mkParse (inside st) f (self st) (opened st) (made st)) | Raise e => Raise e end.
Proof.
  induction ls as [|l ls IH]; intros f f' s o n K F; [reflexivity|]. inversion F as [|? ? F1 F2]; subst. unfold plines. cbn [parse_lines].
  rewrite (found_free l f f'). destruct (parse_line tzo ctx fl uuids l (mkParse true f' s o n)) as [st|] eqn:E; [|reflexivity]. cbn [rbind].
  pose proof (line_keeps l (mkParse true f' s o n) st K E) as K'. destruct (line_inside l (mkParse true f' s o n) st K eq_refl F1 E) as [I Fo]. destruct st as [i f0 s0 o0 n0].
  cbn [inside found self opened made] in *. subst i f0. apply IH; assumption.
Qed.
Lemma plines_app a b st : plines (a ++ b) st = (do st' <- plines a st; plines b st').
Proof.
  revert st. induction a as [|x a IH]; intro st; [reflexivity|]. unfold plines in *. cbn [app parse_lines].
  destruct (parse_line tzo ctx fl uuids x st); cbn [rbind]; [apply IH|reflexivity].
Qed.
Lemma plines_keep ls : forall st st', cKind (self st) = VCALENDAR -> plines ls st = Ok st' -> cKind (self st') = VCALENDAR.
Proof.
  induction ls as [|l ls IH]; intros st st' K; unfold plines; cbn [parse_lines]; [intros [= <-]; assumption|]. unfold rbind.
  destruct (parse_line tzo ctx fl uuids l st) as [st1|] eqn:E; [|discriminate]. apply IH. eapply line_keeps; eassumption.
Qed.
Lemma plines_inside ls : forall st st', cKind (self st) = VCALENDAR -> inside st = true -> Forall (fun l => l <> lit "END:VCALENDAR") ls ->
  plines ls st = Ok st' -> inside st' = true /\ found st' = found st.
Proof.
  induction ls as [|l ls IH]; intros st st' K I F; unfold plines; cbn [parse_lines]; [intros [= <-]; auto|]. unfold rbind.
  inversion F as [|? ? F1 F2]; subst.
  destruct (parse_line tzo ctx fl uuids l st) as [st1|] eqn:E; [|discriminate]. intro H. destruct (line_inside _ _ _ K I F1 E) as [I1 Fo].
  rewrite <- Fo. apply IH; try assumption. eapply line_keeps; eassumption.
Qed.

Lemma end_line st : cKind (self st) = VCALENDAR -> inside st = true ->
  parse_line tzo ctx fl uuids (lit "END:VCALENDAR") st = Ok (outside_ st).
Proof.
  destruct st as [i f s o n]. cbn [self inside]. intros K ->. unfold parse_line. cbn [negb].
  assert (E : startswith (lit "END:VCALENDAR") (lit "BEGIN:") = false) by reflexivity. rewrite E, K.
  change (endDelimiter VCALENDAR) with (lit "END:VCALENDAR"). rewrite beq_refl. destruct s as [k s ps subs]. cbn [cKind] in K. subst k. reflexivity.
Qed.
Lemma begin_line st : cKind (self st) = VCALENDAR -> inside st = false ->
  parse_line tzo ctx fl uuids (lit "BEGIN:VCALENDAR") st = Ok (mkParse true true (self st) (opened st) (made st)).
Proof.
  destruct st as [i f s o n]. cbn [self inside]. intros K ->. unfold parse_line. cbn [negb]. rewrite K.
  change (beginDelimiter VCALENDAR) with (lit "BEGIN:VCALENDAR"). rewrite beq_refl. reflexivity.
Qed.
Lemma peqb_case a b : peqb a b = true <-> a = b.
Proof. destruct a, b; cbn; split; congruence. Qed.

(** A file and its lines inside calendars. *)
Lemma file_no_end lines i : file_of lines i -> Forall (fun l => l <> lit "END:VCALENDAR") i.
Proof. induction 1 as [|r i B H IH|s r i F H IH]; [constructor|assumption|]. apply Forall_app. split; assumption. Qed.
Definition core (a b : pstate) : Prop := self a = self b /\ opened a = opened b /\ made a = made b.
Lemma blank_ok st st' : blank ctx st = Ok st' -> st' = st /\ BLANK_LINES_IN_DATA ctx <> PARSER_RAISE.
Proof.
  unfold blank. destruct (peqb _ _) eqn:E; [discriminate|]. intros [= <-]. split; [reflexivity|]. intro H. apply peqb_case in H. congruence.
Qed.
Lemma ok_blank st : BLANK_LINES_IN_DATA ctx <> PARSER_RAISE -> blank ctx st = Ok st.
Proof. intro H. unfold blank. destruct (peqb _ _) eqn:E; [|reflexivity]. apply peqb_case in E. contradiction. Qed.

Lemma file_forward lines : forall st st', cKind (self st) = VCALENDAR -> plines lines st = Ok st' -> inside st' = false ->
  (inside st = false -> exists i st1, file_of lines i /\ plines i (inside_ st) = Ok st1 /\ core st1 st') /\
  (inside st = true -> exists s r i st1, lines = s ++ lit "END:VCALENDAR" :: r /\ Forall (fun l => l <> lit "END:VCALENDAR") s /\
     file_of r i /\ plines (s ++ i) st = Ok st1 /\ core st1 st').
Proof.
  induction lines as [|l lines IH]; intros st st' K.
  { unfold plines. cbn [parse_lines]. intros [= <-] I. split; intro I'; [|congruence].
    exists [], (inside_ st). repeat split; constructor. }
  unfold plines. cbn [parse_lines]. unfold rbind at 1. destruct (parse_line tzo ctx fl uuids l st) as [st2|] eqn:E; [|discriminate].
  intros H I. pose proof (line_keeps _ _ _ K E) as K2. destruct (IH _ _ K2 H I) as [IHo IHi]. clear IH. split; intro Ist.
  - assert (Q : (l = lit "BEGIN:VCALENDAR" /\ st2 = mkParse true true (self st) (opened st) (made st)) \/
      (l = [] /\ st2 = st /\ BLANK_LINES_IN_DATA ctx <> PARSER_RAISE)).
    { destruct st as [i f s o n]. cbn [self opened made inside] in *. subst i. unfold parse_line in E. cbn [negb] in E. rewrite K in E.
      change (beginDelimiter VCALENDAR) with (lit "BEGIN:VCALENDAR") in E.
      destruct (beq_case l (lit "BEGIN:VCALENDAR")) as [[A B]|[A B]]; rewrite B in E.
      - left. apply Ok_inj in E. auto.
      - destruct l; [|discriminate]. apply blank_ok in E. right. tauto. }
    destruct Q as [[-> ->]|(-> & -> & B)].
    + destruct (IHi eq_refl) as (s & r & i & st1 & -> & F & Fi & P & C). exists (s ++ i).
      pose proof (file_no_end _ _ Fi) as Fn. unfold inside_.
      rewrite (plines_found (s ++ i) (found st) true); [|assumption|apply Forall_app; split; assumption].
      rewrite P. eexists. split; [|split; [reflexivity|exact C]]. constructor; assumption.
    + destruct (IHo Ist) as (i & st1 & Fi & P & C). exists i, st1. split; [|split; assumption]. constructor; assumption.
  - destruct (beq_case l (lit "END:VCALENDAR")) as [[-> _]|[N _]].
    + rewrite (end_line st K Ist) in E. apply Ok_inj in E. subst st2. destruct (IHo eq_refl) as (i & st1 & Fi & P & C).
      exists [], lines, i, st1. split; [reflexivity|]. split; [constructor|]. split; [assumption|]. split; [|assumption].
      rewrite <- P. unfold inside_, outside_. destruct st as [i0 f s o n]. cbn [inside found self opened made] in *. subst i0. reflexivity.
    + destruct (line_inside _ _ _ K Ist N E) as [I2 _]. destruct (IHi I2) as (s & r & i & st1 & -> & F & Fi & P & C).
      exists (l :: s), r, i, st1. split; [reflexivity|]. split; [constructor; assumption|]. split; [assumption|]. split; [|assumption].
      unfold plines. cbn [app parse_lines]. rewrite E. cbn [rbind]. exact P.
Qed.
Lemma file_backward lines i : file_of lines i -> forall st st1, cKind (self st) = VCALENDAR -> inside st = false ->
  plines i (inside_ st) = Ok st1 -> exists st', plines lines st = Ok st' /\ inside st' = false /\ core st1 st'.
Proof.
  induction 1 as [|r i B H IH|s r i F H IH]; intros st st1 K I P.
  - unfold plines in P. cbn [parse_lines] in P. apply Ok_inj in P. subst st1. exists st. split; [reflexivity|]. split; [assumption|]. repeat split.
  - destruct (IH st st1 K I P) as (st' & Q & R). exists st'. split; [|exact R]. unfold plines. cbn [parse_lines].
    destruct st as [i0 f s o n]. cbn [inside] in I. subst i0. unfold parse_line. cbn [negb]. cbn [self] in K. rewrite K.
    change (beq [] (beginDelimiter VCALENDAR)) with false. cbv iota. rewrite (ok_blank _ B). exact Q.
  - rewrite plines_app in P. unfold rbind in P. destruct (plines s (inside_ st)) as [st2|] eqn:E; [|discriminate].
    assert (K2 : cKind (self st2) = VCALENDAR) by (eapply plines_keep; [|exact E]; exact K).
    destruct (plines_inside s (inside_ st) st2 K eq_refl F E) as [I2 F2].
    set (st3 := mkParse true true (self st2) (opened st2) (made st2)).
    assert (E3 : plines s (mkParse true true (self st) (opened st) (made st)) = Ok st3).
    { rewrite (plines_found s true (found st)) by assumption. unfold inside_ in E. rewrite E, I2. reflexivity. }
    assert (P3 : exists f, plines i (inside_ (outside_ st3)) = Ok (mkParse (inside st1) f (self st1) (opened st1) (made st1))).
    { unfold inside_, outside_, st3. cbn [found self opened made].
      rewrite (plines_found i true (found st2)); [|assumption|exact (file_no_end _ _ H)].
      replace (mkParse true (found st2) (self st2) (opened st2) (made st2)) with st2; [|clear - I2; destruct st2 as [i2 f2 s2 o2 n2]; cbn [inside] in I2; subst i2; reflexivity].
      rewrite P. eexists. reflexivity. }
    destruct P3 as [f P3]. destruct (IH (outside_ st3) _ K2 eq_refl P3) as (st' & Q & R1 & R2). exists st'. split; [|split; assumption].
    unfold plines. cbn [parse_lines]. rewrite (begin_line st K I). cbn [rbind]. change (plines (s ++ lit "END:VCALENDAR" :: r) (mkParse true true (self st) (opened st) (made st)) = Ok st').
    rewrite plines_app, E3. cbn [rbind]. unfold plines. cbn [parse_lines]. rewrite (end_line st3) by (assumption || reflexivity). cbn [rbind]. exact Q.
Qed.
Lemma found_stays lines : forall st st', found st = true -> plines lines st = Ok st' -> found st' = true.
Proof.
  induction lines as [|l lines IH]; intros st st' F; unfold plines; cbn [parse_lines]; [intros [= <-]; assumption|]. unfold rbind.
  destruct (parse_line tzo ctx fl uuids l st) as [st1|] eqn:E; [|discriminate]. apply IH. clear - E F.
  destruct st as [i f s o n]. cbn [found] in F. subst f. unfold parse_line, blank, rbind in E.
  repeat match type of E with
    | context [if ?b then _ else _] => destruct b eqn:?
    | context [match ?x with Ok _ => _ | Raise _ => _ end] => destruct x eqn:?
    | context [match ?x with [] => _ | _ :: _ => _ end] => destruct x eqn:?
    end; try discriminate; apply Ok_inj in E; subst st1; reflexivity.
Qed.
Lemma found_iff lines : forall st st', cKind (self st) = VCALENDAR -> inside st = false -> found st = false -> plines lines st = Ok st' ->
  (found st' = true <-> Exists (fun l => l <> []) lines).
Proof.
  induction lines as [|l lines IH]; intros st st' K I F; unfold plines; cbn [parse_lines].
  { intros [= <-]. rewrite F. split; [discriminate|]. intro H. inversion H. }
  unfold rbind. destruct (parse_line tzo ctx fl uuids l st) as [st1|] eqn:E; [|discriminate]. intro P.
  destruct l as [|x l].
  - assert (st1 = st) as ->.
    { destruct st as [i f s o n]. cbn [inside self] in *. subst i. unfold parse_line in E. cbn [negb] in E. rewrite K in E.
      change (beq [] (beginDelimiter VCALENDAR)) with false in E. cbv iota in E. apply blank_ok in E. tauto. }
    rewrite (IH _ _ K I F P). split; [right; assumption|]. intro H. inversion H; [congruence|assumption].
  - assert (found st1 = true) as F1.
    { destruct st as [i f s o n]. cbn [inside] in *. subst i. unfold parse_line in E. cbn [negb] in E.
      destruct (beq _ _); [|discriminate]. apply Ok_inj in E. subst st1. reflexivity. }
    rewrite (found_stays _ _ _ F1 P). split; [|reflexivity]. intros _. left. discriminate.
Qed.

(** Inside: the stack and the grammar. *)
Inductive unwinds : nat -> comp -> list comp -> list bytes -> comp -> Prop :=
| un_top : forall n s x s', cut_body None n s x s' -> unwinds n s [] x s'
| un_left : forall n s c o x y, cut_body (Some (getType (cKind c))) n c x y -> unwinds n s (c :: o) x s
| un_last : forall n s c b m d d' s1 r s', getType (cKind c) <> lit "VCALENDAR" -> body (Some (getType (cKind c))) n c b m d ->
    finalise tzo d = Ok d' -> addComponent s d' = Ok s1 -> unwinds m s1 [] r s' ->
    unwinds n s [c] (b ++ (lit "END:" ++ getType (cKind c)) :: r) s'
| un_next : forall n s c e o b m d d' e1 r s', getType (cKind c) <> lit "VCALENDAR" -> body (Some (getType (cKind c))) n c b m d ->
    finalise tzo d = Ok d' -> addComponent e d' = Ok e1 -> unwinds m s (e1 :: o) r s' ->
    unwinds n s (c :: e :: o) (b ++ (lit "END:" ++ getType (cKind c)) :: r) s'.

(** Something put before the body of the innermost component. *)
Definition prefixes (t : option bytes) (n : nat) (c : comp) (pre : list bytes) (m : nat) (c1 : comp) : Prop :=
  forall b k d, body t m c1 b k d -> body t n c (pre ++ b) k d.
Lemma cut_prefix t n c pre m c1 x y : prefixes t n c pre m c1 -> cut_body t m c1 x y -> cut_body t n c (pre ++ x) y.
Proof.
  intros P H. inversion H; subst.
  - econstructor. apply P. eassumption.
  - rewrite app_assoc. econstructor; [apply P; eassumption|eassumption].
Qed.
Lemma un_prefix n s c o pre m c1 x s' : cKind c1 = cKind c -> prefixes (Some (getType (cKind c))) n c pre m c1 ->
  unwinds m s (c1 :: o) x s' -> unwinds n s (c :: o) (pre ++ x) s'.
Proof.
  intros K P H. inversion H; subst; rewrite K in *.
  - eapply un_left. eapply cut_prefix; eassumption.
  - rewrite app_assoc. eapply un_last; try eassumption. apply P. assumption.
  - rewrite app_assoc. eapply un_next; try eassumption. apply P. assumption.
Qed.
Lemma un_prefix_top n s pre m s1 x s' : prefixes None n s pre m s1 -> unwinds m s1 [] x s' -> unwinds n s [] (pre ++ x) s'.
Proof. intros P H. inversion H; subst. apply un_top. eapply cut_prefix; eassumption. Qed.

Lemma stack_forward x : forall n f s o st', cKind s = VCALENDAR -> Forall (fun l => l <> lit "END:VCALENDAR") x ->
  plines x (mkParse true f s o n) = Ok st' -> unwinds n s o x (self st').
Proof.
  induction x as [|l x IH]; intros n f s o st' K F.
  { unfold plines. cbn [parse_lines]. intros [= <-]. cbn [self]. destruct o as [|c o]; [apply un_top; econstructor; constructor|].
    eapply un_left. econstructor. constructor. }
  inversion F as [|? ? F1 F2]; subst. unfold plines. cbn [parse_lines]. unfold rbind at 1.
  destruct (parse_line tzo ctx fl uuids l (mkParse true f s o n)) as [st2|] eqn:E; [|discriminate]. intro P.
  unfold parse_line in E. cbn [negb] in E. rewrite K in E. change (endDelimiter VCALENDAR) with (lit "END:VCALENDAR") in E.
  rewrite (beq_no _ _ F1) in E.
  destruct (startswith l (lit "BEGIN:")) eqn:S.
  - apply begin_spec in S. destruct S as [nm ->]. apply Ok_inj in E. subst st2.
    change (skipn 6 (lit "BEGIN:" ++ nm)) with nm in P. apply IH in P; [|assumption|assumption].
    set (c := makeComponent nm (uuids n)) in *. assert (Kc : getType (cKind c) = type_named nm) by apply type_kind.
    inversion P as [| ? ? ? ? ? y HC | ? ? ? b m d d' s1 r ? N HB HF HA HU | ? ? ? e o' b m d d' e1 r ? N HB HF HA HU]; subst; rewrite Kc in *.
    + destruct o as [|e o].
      * apply un_top. apply (cut_open tzo ctx fl uuids None n _ [] n _ nm x y); [constructor|assumption].
      * eapply un_left. apply (cut_open tzo ctx fl uuids _ n e [] n e nm x y); [constructor|assumption].
    + apply (un_prefix_top n s ((lit "BEGIN:" ++ nm) :: b ++ [lit "END:" ++ type_named nm]) m s1) in HU.
      * rewrite <- app_comm_cons, <- app_assoc in HU. exact HU.
      * intros b' k d0 HB'. rewrite <- app_comm_cons, <- app_assoc. eapply body_comp; eassumption.
    + apply (un_prefix n s e o' ((lit "BEGIN:" ++ nm) :: b ++ [lit "END:" ++ type_named nm]) m e1) in HU.
      * rewrite <- app_comm_cons, <- app_assoc in HU. exact HU.
      * eapply add_kind. eassumption.
      * intros b' k d0 HB'. rewrite <- app_comm_cons, <- app_assoc. eapply body_comp; eassumption.
  - assert (NB : ~ is_begin l) by (intro Z; apply begin_spec in Z; congruence).
    destruct o as [|c o].
    + destruct l as [|a l].
      * apply blank_ok in E. destruct E as [-> B]. apply IH in P; [|assumption|assumption].
        apply (un_prefix_top n s [[]] n s x _); [|assumption]. intros b k d Hb. constructor; assumption.
      * unfold rbind in E. destruct (prop_parse ctx fl (a :: l)) as [p|] eqn:Ep; [|discriminate]. destruct (validProperty p) eqn:V; [|discriminate].
        apply Ok_inj in E. subst st2. apply IH in P; [|rewrite put_kind; assumption|assumption].
        apply (un_prefix_top n s [a :: l] n (put_prop p s) x _); [|assumption]. intros b k d Hb. rewrite <- set_put in Hb.
        eapply body_prop; [|exact Hb]. repeat split; try assumption; [discriminate|discriminate|intros _; assumption].
    + destruct (beq_case l (endDelimiter (cKind c))) as [[El Eb]|[El Eb]]; rewrite Eb in E.
      * assert (N : getType (cKind c) <> lit "VCALENDAR") by (intro Z; apply F1; rewrite El; unfold endDelimiter; rewrite Z; reflexivity).
        unfold rbind in E. destruct (finalise tzo c) as [c'|] eqn:Ef; [|discriminate]. rewrite El. destruct o as [|e o].
        -- destruct (addComponent s c') as [s1|] eqn:Ea; [|discriminate]. apply Ok_inj in E. subst st2.
           apply IH in P; [|rewrite (add_kind _ _ _ Ea); assumption|assumption].
           apply (un_last n s c [] n c c' s1); try assumption. constructor.
        -- destruct (addComponent e c') as [e1|] eqn:Ea; [|discriminate]. apply Ok_inj in E. subst st2.
           apply IH in P; [|assumption|assumption].
           apply (un_next n s c e o [] n c c' e1); try assumption. constructor.
      * destruct l as [|a l].
        -- apply blank_ok in E. destruct E as [-> B]. apply IH in P; [|assumption|assumption].
           apply (un_prefix n s c o [[]] n c x _); [reflexivity| |assumption]. intros b k d Hb. constructor; assumption.
        -- unfold rbind in E. destruct (prop_parse ctx fl (a :: l)) as [p|] eqn:Ep; [|discriminate].
           apply Ok_inj in E. subst st2. apply IH in P; [|assumption|assumption].
           apply (un_prefix n s c o [a :: l] n (put_prop p c) x _); [apply put_kind| |assumption]. intros b k d Hb. rewrite <- set_put in Hb.
           eapply body_prop; [|exact Hb]. split; [assumption|]. split; [assumption|]. split; [|split; [discriminate|split; [assumption|discriminate]]].
           intros t [= <-]. exact El.
Qed.

(** The state with c as the innermost open component. *)
Definition at_top (t : option bytes) (f : bool) (s : comp) (o : list comp) (c : comp) (n : nat) : pstate :=
  match t with None => mkParse true f c [] n | Some _ => mkParse true f s (c :: o) n end.
Definition typed_as (t : option bytes) (s c : comp) : Prop :=
  match t with None => cKind c = VCALENDAR | Some t' => cKind s = VCALENDAR /\ getType (cKind c) = t' end.
Lemma body_kind t n c b m d : body t n c b m d -> cKind d = cKind c.
Proof.
  induction 1 as [t n c|t n c r m d B H IH|t n c l p r m d L H IH|t n c nm b n1 e e' c1 r m d N Hb IHb Hf Ha Hr IHr].
  - reflexivity.
  - assumption.
  - rewrite IH, set_put. apply put_kind.
  - rewrite IHr. eapply add_kind. eassumption.
Qed.
Lemma body_backward t n c b m d : body t n c b m d -> forall f s o rest, typed_as t s c ->
  plines (b ++ rest) (at_top t f s o c n) = plines rest (at_top t f s o d m).
Proof.
  induction 1 as [t n c|t n c r m d B H IH|t n c l p r m d L H IH|t n c nm b n1 e e' c1 r m d N Hb IHb Hf Ha Hr IHr]; intros f s o rest T.
  - reflexivity.
  - rewrite <- (IH f s o rest T). unfold plines. cbn [app parse_lines].
    assert (E : parse_line tzo ctx fl uuids [] (at_top t f s o c n) = Ok (at_top t f s o c n)); [|rewrite E; reflexivity].
    unfold at_top, parse_line. destruct t; cbn [negb]; change (startswith [] (lit "BEGIN:")) with false; cbv iota;
      cbn [typed_as] in T; [destruct T as [-> _]|rewrite T];
      change (beq [] (endDelimiter VCALENDAR)) with false; cbv iota; [change (beq [] (endDelimiter (cKind c))) with false; cbv iota|]; apply ok_blank; assumption.
  - destruct L as (L1 & L2 & L3 & L4 & L5 & L6). rewrite set_put in IH, H.
    rewrite <- (IH f s o rest); [|destruct t; cbn [typed_as] in *; rewrite put_kind; assumption].
    unfold plines. cbn [app parse_lines].
    assert (E : parse_line tzo ctx fl uuids l (at_top t f s o c n) = Ok (at_top t f s o (put_prop p c) n)); [|rewrite E; reflexivity].
    unfold at_top, parse_line. destruct t as [t|]; cbn [negb typed_as] in *; rewrite (begin_no _ L1).
    + destruct T as [-> T]. change (endDelimiter VCALENDAR) with (lit "END:VCALENDAR"). rewrite (beq_no _ _ L2).
      unfold endDelimiter. rewrite T, (beq_no _ _ (L3 t eq_refl)). destruct l as [|a l]; [congruence|]. rewrite L5. reflexivity.
    + rewrite T. change (endDelimiter VCALENDAR) with (lit "END:VCALENDAR"). rewrite (beq_no _ _ L2).
      destruct l as [|a l]; [congruence|]. rewrite L5. cbn [rbind]. rewrite (L6 eq_refl). reflexivity.
  - assert (Kc1 : cKind c1 = cKind c) by (eapply add_kind; eassumption).
    assert (Kt : getType (cKind (makeComponent nm (uuids n))) = type_named nm) by apply type_kind.
    assert (Te : getType (cKind e) = type_named nm) by (rewrite (body_kind _ _ _ _ _ _ Hb); assumption).
    rewrite <- (IHr f s o rest); [|destruct t; cbn [typed_as] in *; rewrite Kc1; assumption].
    unfold plines. rewrite <- !app_comm_cons, <- app_assoc, <- app_comm_cons. cbn [parse_lines].
    assert (NE : lit "END:" ++ type_named nm <> lit "END:VCALENDAR").
    { intro Z. apply N. change (lit "END:VCALENDAR") with (lit "END:" ++ lit "VCALENDAR") in Z. apply app_inv_head in Z. exact Z. }
    assert (NB : startswith (lit "END:" ++ type_named nm) (lit "BEGIN:") = false) by reflexivity.
    assert (BB : startswith (lit "BEGIN:" ++ nm) (lit "BEGIN:") = true) by (apply begin_spec; eexists; reflexivity).
    destruct t as [t|]; cbn [typed_as] in T.
    + destruct T as [Ks Tc].
      assert (E : parse_line tzo ctx fl uuids (lit "BEGIN:" ++ nm) (at_top (Some t) f s o c n) =
        Ok (at_top (Some (type_named nm)) f s (c :: o) (makeComponent nm (uuids n)) (S n))).
      { unfold at_top, parse_line. cbn [negb]. rewrite BB. reflexivity. }
      rewrite E. cbn [rbind].
      etransitivity; [apply (IHb f s (c :: o) ((lit "END:" ++ type_named nm) :: r ++ rest)); split; assumption|].
      unfold plines. cbn [parse_lines]. 
      assert (E2 : parse_line tzo ctx fl uuids (lit "END:" ++ type_named nm) (at_top (Some (type_named nm)) f s (c :: o) e n1) =
        Ok (at_top (Some t) f s o c1 n1)).
      { unfold at_top, parse_line. cbn [negb]. rewrite NB, Ks. change (endDelimiter VCALENDAR) with (lit "END:VCALENDAR"). rewrite (beq_no _ _ NE).
        unfold endDelimiter. rewrite Te, beq_refl, Hf. cbn [rbind]. rewrite Ha. reflexivity. }
      rewrite E2. reflexivity.
    + assert (E : parse_line tzo ctx fl uuids (lit "BEGIN:" ++ nm) (at_top None f s o c n) =
        Ok (at_top (Some (type_named nm)) f c [] (makeComponent nm (uuids n)) (S n))).
      { unfold at_top, parse_line. cbn [negb]. rewrite BB. reflexivity. }
      rewrite E. cbn [rbind].
      etransitivity; [apply (IHb f c [] ((lit "END:" ++ type_named nm) :: r ++ rest)); split; assumption|].
      unfold plines. cbn [parse_lines].
      assert (E2 : parse_line tzo ctx fl uuids (lit "END:" ++ type_named nm) (at_top (Some (type_named nm)) f c [] e n1) =
        Ok (at_top None f s o c1 n1)).
      { unfold at_top, parse_line. cbn [negb]. rewrite NB, T. change (endDelimiter VCALENDAR) with (lit "END:VCALENDAR"). rewrite (beq_no _ _ NE).
        unfold endDelimiter. rewrite Te, beq_refl, Hf. cbn [rbind]. rewrite Ha. reflexivity. }
      rewrite E2. reflexivity.
Qed.
Lemma cut_backward t n c x y : cut_body t n c x y -> forall f s o, typed_as t s c ->
  exists st', plines x (at_top t f s o c n) = Ok st' /\ self st' = match t with None => y | Some _ => s end.
Proof.
  induction 1 as [t n c b m d H|t n c b m d nm r e H Hr IH]; intros f s o T.
  - pose proof (body_backward _ _ _ _ _ _ H f s o [] T) as E. rewrite app_nil_r in E. rewrite E. eexists. split; [reflexivity|]. destruct t; reflexivity.
  - rewrite (body_backward _ _ _ _ _ _ H f s o _ T). unfold plines. cbn [parse_lines].
    assert (BB : startswith (lit "BEGIN:" ++ nm) (lit "BEGIN:") = true) by (apply begin_spec; eexists; reflexivity).
    assert (Kt : getType (cKind (makeComponent nm (uuids m))) = type_named nm) by apply type_kind.
    destruct t as [t|]; cbn [typed_as] in T.
    + destruct T as [Ks Tc].
      assert (E : parse_line tzo ctx fl uuids (lit "BEGIN:" ++ nm) (at_top (Some t) f s o d m) =
        Ok (at_top (Some (type_named nm)) f s (d :: o) (makeComponent nm (uuids m)) (S m))).
      { unfold at_top, parse_line. cbn [negb]. rewrite BB. reflexivity. }
      rewrite E. cbn [rbind]. apply (IH f s (d :: o)). split; assumption.
    + assert (E : parse_line tzo ctx fl uuids (lit "BEGIN:" ++ nm) (at_top None f s o d m) =
        Ok (at_top (Some (type_named nm)) f d [] (makeComponent nm (uuids m)) (S m))).
      { unfold at_top, parse_line. cbn [negb]. rewrite BB. reflexivity. }
      rewrite E. cbn [rbind]. apply (IH f d []). split; [|assumption]. rewrite (body_kind _ _ _ _ _ _ H). assumption.
Qed.

Definition start_cal : comp := Comp VCALENDAR (newState []) [] [].
Lemma accepted_iff text c : let lines := read_lines (S (List.length text)) None text in
  parseTextData tzo ctx fl uuids text = Ok (Some c) <->
  exists inner, file_of lines inner /\ Exists (fun l => l <> []) lines /\ cut_body None 0 start_cal inner c /\
    hasProperty (lit "VERSION") (cProps c) = true.
Proof.
  cbv zeta. set (lines := read_lines _ None text). unfold parseTextData, parse. fold lines. fold start_cal.
  change (parse_lines tzo ctx fl uuids lines) with (plines lines).
  assert (K0 : cKind start_cal = VCALENDAR) by reflexivity. set (st0 := mkParse false false start_cal [] 0).
  split.
  - unfold rbind. destruct (plines lines st0) as [st'|] eqn:P; [|discriminate]. destruct (inside st') eqn:I; [discriminate|].
    destruct (found st') eqn:F; [|discriminate]. cbn [andb]. destruct (hasProperty _ (cProps (self st'))) eqn:V; [|discriminate]. cbn [negb fst snd].
    intro H. apply Ok_inj in H. injection H as <-.
    destruct (file_forward lines st0 st' K0 P I) as [Q _]. destruct (Q eq_refl) as (i & st1 & Fi & P1 & C1 & _).
    exists i. split; [assumption|]. split; [apply (found_iff lines st0 st' K0 eq_refl eq_refl P); assumption|]. split; [|assumption].
    apply stack_forward in P1; [|assumption|exact (file_no_end _ _ Fi)]. rewrite C1 in P1. inversion P1; subst. assumption.
  - intros (i & Fi & X & C & V).
    destruct (cut_backward _ _ _ _ _ C false start_cal [] K0) as (st1 & P1 & S1).
    destruct (file_backward lines i Fi st0 st1 K0 eq_refl P1) as (st' & P & I & C1 & _). rewrite P. cbn [rbind]. rewrite I.
    assert (F : found st' = true) by (apply (found_iff lines st0 st' K0 eq_refl eq_refl P); assumption).
    rewrite F. rewrite <- C1, S1, V. reflexivity.
Qed.
End Accept.

(** ** The order of the names. *)
Lemma picked_filter f l : picked (fun n => f n = true) l (filter f l).
Proof.
  induction l as [|n l IH]; cbn [filter]; [constructor|]. destruct (f n) eqn:E; [apply pick_in; assumption|].
  apply pick_out; [congruence|assumption].
Qed.
Lemma picked_impl (P Q : bytes -> Prop) l m : (forall n, P n <-> Q n) -> picked P l m -> picked Q l m.
Proof. intros H. induction 1; [constructor| |]; [apply pick_in; [apply H|]|apply pick_out; [rewrite <- H|]]; assumption. Qed.
Lemma in_order_lt l : NoDup l -> in_order (fun y => y) l -> forall a x b y c, l = a ++ x :: b ++ y :: c -> text_lt x y.
Proof.
  intros N O. induction O as [|z l Hz O IH]; intros a x b y c E; [destruct a; discriminate|].
  inversion N as [|? ? Nz Nl]; subst. destruct a as [|z' a].
  - injection E as <- ->. assert (Iy : In y (b ++ y :: c)) by (apply in_or_app; right; left; reflexivity).
    apply ble_lt. rewrite Forall_forall in Hz. pose proof (Hz y Iy) as H. destruct (ble y z) eqn:B; [|reflexivity].
    exfalso. apply Nz. rewrite (ble_antisym z y H B). exact Iy.
  - injection E as <- ->. eapply IH; [assumption|reflexivity].
Qed.
Lemma keys_listed k ps : NoDup (map fst ps) -> let keys := sortedPropertyKeys k ps in
  Permutation keys (map fst ps) /\
  exists fixed rest, keys = fixed ++ rest /\ picked (fun n => In n (map fst ps)) (first_names k) fixed /\
    (forall n, In n rest -> ~ In n (first_names k)) /\ (forall a x b y c, rest = a ++ x :: b ++ y :: c -> text_lt x y).
Proof.
  intro N. cbv zeta. split; [apply keys_perm; assumption|]. unfold sortedPropertyKeys.
  assert (Ns : NoDup (sort_by (fun x => x) (map fst ps))) by (eapply Permutation_NoDup; [symmetry; apply sort_perm|assumption]).
  destruct (keys_in_order_spec (sortedPropertyKeyOrder k) (sort_by (fun x => x) (map fst ps))) as (r & E & O & M & P);
    [apply order_NoDup|assumption|apply sort_order|].
  assert (F : sortedPropertyKeyOrder k = first_names k) by (destruct k; reflexivity).
  eexists. exists r. split; [exact E|]. rewrite F in *. split; [|split].
  - eapply picked_impl; [|apply picked_filter]. intro n. rewrite existsb_beq. split; apply Permutation_in; [|symmetry]; apply sort_perm.
  - intros n H. apply M in H. tauto.
  - apply in_order_lt; [|assumption]. eapply Permutation_NoDup in Ns; [|symmetry; exact P]. rewrite E in Ns. revert Ns. clear.
    generalize (filter (fun n => existsb (beq n) (sort_by (fun x => x) (map fst ps))) (first_names k)).
    induction l as [|x l IH]; cbn [app]; [auto|]. inversion 1; auto.
Qed.
