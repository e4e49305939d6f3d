(** Proofs about validation: STATUS, values, UNTIL, the extra constraints. *)
From Coq Require Import Lia ZifyBool ZifyNat.
From Verif Require Import PyProofs LineProofs PropertyProofs ComponentProofs2 ComponentProofs3 ValidateModel ValidateSpec ValidateProofs.

Lemma triple {A B C : Type} (a a' : A) (b b' : B) (c c' : C) : (a, Ok (b, c)) = (a', Ok (b', c')) -> a = a' /\ b = b' /\ c = c'.
Proof. intro H. injection H as -> -> ->. auto. Qed.
(** ** One after the other. *)
Section EachProofs.
Context {A : Type}.
Variable f : A -> A * res report.
Lemma each_ok l : forall l' fx ux, each f l = (l', Ok (fx, ux)) ->
  Forall2 (fun x x' => exists fi ui, f x = (x', Ok (fi, ui))) l l' /\
  (forall m, In m fx <-> exists x x' fi ui, In x l /\ f x = (x', Ok (fi, ui)) /\ In m fi) /\
  (forall m, In m ux <-> exists x x' fi ui, In x l /\ f x = (x', Ok (fi, ui)) /\ In m ui).
Proof.
  induction l as [|x l IH]; intros l' fx ux H; cbn [each] in H.
  - apply triple in H as (<- & <- & <-). split; [constructor|]. split; intro m; (split; [intros []|intros (x & _ & _ & _ & [] & _)]).
  - destruct (f x) as [x' [[fi ui]|e]] eqn:E; [|discriminate].
    destruct (each f l) as [r' [[fr ur]|e]]; [|discriminate]. apply triple in H as (<- & <- & <-).
    destruct (IH _ _ _ eq_refl) as (I1 & I2 & I3). split; [constructor; [eauto|assumption]|].
    split; intro m; rewrite in_app_iff; [rewrite I2|rewrite I3]; split.
    1, 3: intros [I|(y & y' & fj & uj & J & K & L)]; [exists x, x', fi, ui; repeat split; auto; left; reflexivity|exists y, y', fj, uj; repeat split; auto; right; assumption].
    all: intros (y & y' & fj & uj & [<-|J] & K & L); [left; congruence|right; exists y, y', fj, uj; repeat split; assumption].
Qed.
Lemma each_total l : Forall (fun x => exists x' fi ui, f x = (x', Ok (fi, ui))) l -> exists l' fx ux, each f l = (l', Ok (fx, ux)).
Proof.
  induction 1 as [|x l (x' & fi & ui & E) F (l' & fx & ux & IH)]; cbn [each]; [eauto|]. rewrite E, IH. eauto.
Qed.
Lemma each_id l : Forall (fun x => fst (f x) = x) l -> fst (each f l) = l.
Proof.
  induction 1 as [|x l E F IH]; cbn [each]; [reflexivity|]. destruct (f x) as [x' [[fi ui]|e]]; cbn in E; subst x'; [|reflexivity].
  destruct (each f l) as [r' [[fr ur]|e]]; cbn in IH; subst r'; reflexivity.
Qed.
Lemma each_none l : (forall x, In x l -> forall x' ui, f x = (x', Ok ([], ui)) -> x' = x) -> forall l' ux, each f l = (l', Ok ([], ux)) -> l' = l.
Proof.
  induction l as [|x l IH]; intros F l' ux H; cbn [each] in H.
  - injection H as <- _. reflexivity.
  - destruct (f x) as [x' [[fi ui]|e]] eqn:E; [|discriminate]. destruct (each f l) as [r' [[fr ur]|e]]; [|discriminate].
    apply triple in H as (<- & H & _). apply app_eq_nil in H as [-> ->]. f_equal; [apply (F x (or_introl eq_refl) _ _ E)|].
    apply (IH (fun y J => F y (or_intror J)) r' ur). reflexivity.
Qed.
Lemma each_fixes_nothing l : (forall x, In x l -> forall x' fi ui, f x = (x', Ok (fi, ui)) -> fi = []) ->
  forall l' fx ux, each f l = (l', Ok (fx, ux)) -> fx = [].
Proof.
  intros F l' fx ux H. destruct (each_ok l _ _ _ H) as (_ & I & _). destruct fx as [|m fx]; [reflexivity|].
  destruct (proj1 (I m) (or_introl eq_refl)) as (x & x' & fi & ui & J & K & L). rewrite (F x J _ _ _ K) in L. contradiction.
Qed.
End EachProofs.

(** ** STATUS. *)
Lemma cancelled_get ps : tidy_props ps ->
  cancelled ps <-> exists p t, In p (getProperties (lit "STATUS") ps) /\ is_text (pValue p) t /\ upper t = lit "CANCELLED".
Proof. intro T. unfold cancelled. rewrite named_get by assumption. tauto. Qed.
Lemma text_dec (v : option value) : (exists t, is_text v t) \/ forall t, ~ is_text v t.
Proof.
  destruct (text_of v) as [t|] eqn:E; [left; exists t; apply text_is; assumption|]. right. intros t H. apply text_is in H. congruence.
Qed.
Lemma cancelled_dec ps : cancelled ps \/ ~ cancelled ps.
Proof.
  unfold cancelled. induction (named (lit "STATUS") ps) as [|p l IH].
  - right. intros (p & t & [] & _).
  - assert (H : (exists t, is_text (pValue p) t /\ upper t = lit "CANCELLED") \/ ~ exists t, is_text (pValue p) t /\ upper t = lit "CANCELLED").
    { destruct (text_of (pValue p)) as [t|] eqn:E.
      - destruct (beq_case (upper t) (lit "CANCELLED")) as [[F _]|[F _]]; [left; exists t; split; [apply text_is|]; assumption|].
        right. intros (t' & I & J). apply text_is in I. congruence.
      - right. intros (t' & I & J). apply text_is in I. congruence. }
    destruct H as [(t & I & J)|H]; [left; exists p, t; repeat split; auto; left; reflexivity|].
    destruct IH as [(q & t & I & J)|IH]; [left; exists q, t; split; [right|]; assumption|].
    right. intros (q & t & [<-|I] & J); [apply H; exists t; assumption|apply IH; exists q, t; split; assumption].
Qed.
Lemma status_ok k doFix ps ps' f u : tidy_props ps -> check_STATUS k doFix ps = (ps', Ok (f, u)) ->
  tidy_props ps' /\
  (forall n, n <> lit "STATUS" -> getProperties n ps' = getProperties n ps) /\
  (doFix = true -> (1 < many (lit "STATUS") ps)%nat -> cancelled ps ->
     getProperties (lit "STATUS") ps' = [text_property (lit "STATUS") (lit "CANCELLED")]) /\
  (~ (doFix = true /\ (1 < many (lit "STATUS") ps)%nat /\ cancelled ps) -> ps' = ps) /\
  (forall m, In m f <-> doFix = true /\ (1 < many (lit "STATUS") ps)%nat /\ cancelled ps /\ m = says k (lit "Too many properties") (lit "STATUS")) /\
  (forall m, In m u <-> (1 < many (lit "STATUS") ps)%nat /\ ~ (doFix = true /\ cancelled ps) /\ m = says k (lit "Too many properties") (lit "STATUS")).
Proof.
  intros T H. unfold check_STATUS in H. rewrite <- (many_count _ _ T) in H. destruct (1 <? many (lit "STATUS") ps)%nat eqn:C.
  - apply Nat.ltb_lt in C. destruct doFix.
    + destruct (has_cancelled (getProperties (lit "STATUS") ps)) as [b|e] eqn:E; [|discriminate].
      apply has_cancelled_ok in E. rewrite <- cancelled_get in E by assumption. destruct b.
      * apply triple in H as (<- & <- & <-). assert (K : cancelled ps) by (apply E; reflexivity).
        split; [apply tidy_add; [reflexivity|apply tidy_remove; assumption]|].
        split; [|split; [|split; [|split]]].
        -- intros n M. unfold text_property. rewrite get_addProperty, get_remove by (assumption || reflexivity).
           destruct (beq_case (lit "STATUS") n) as [[<- _]|[_ ->]]; [congruence|apply app_nil_r].
        -- intros _ _ _. unfold text_property. rewrite get_addProperty, get_remove, beq_refl by (assumption || reflexivity). reflexivity.
        -- intro N. exfalso. apply N. repeat split; assumption.
        -- intro m. cbn [In]. split; [intros [<-|[]]; repeat split; assumption|intros (_ & _ & _ & ->); left; reflexivity].
        -- intro m. cbn [In]. split; [intros []|intros (_ & N & _); apply N; split; [reflexivity|assumption]].
      * apply triple in H as (<- & <- & <-). assert (K : ~ cancelled ps) by (intro K; apply E in K; discriminate).
        split; [assumption|]. split; [reflexivity|]. split; [intros _ _ Q; contradiction|]. split; [reflexivity|]. split; intro m; cbn [In].
        -- split; [intros []|tauto].
        -- split; [intros [<-|[]]; split; [assumption|split; [tauto|reflexivity]]|intros (_ & _ & ->); left; reflexivity].
    + apply triple in H as (<- & <- & <-). split; [assumption|]. split; [reflexivity|]. split; [discriminate|]. split; [reflexivity|]. split; intro m; cbn [In].
      * split; [intros []|intros [Q _]; discriminate].
      * split; [intros [<-|[]]; split; [assumption|split; [intros [Q _]; discriminate|reflexivity]]|intros (_ & _ & ->); left; reflexivity].
  - apply Nat.ltb_ge in C. apply triple in H as (<- & <- & <-). split; [assumption|]. split; [reflexivity|]. split; [lia|]. split; [reflexivity|].
    split; intro m; cbn [In]; (split; [intros []|lia]).
Qed.
Lemma status_total k doFix ps : tidy_props ps -> (doFix = true -> status_props ps) -> exists ps' f u, check_STATUS k doFix ps = (ps', Ok (f, u)).
Proof.
  intros T H. unfold check_STATUS. rewrite <- (many_count _ _ T). destruct (1 <? many (lit "STATUS") ps)%nat eqn:C; [|eauto].
  destruct doFix; [|eauto]. apply Nat.ltb_lt in C. specialize (H eq_refl C). rewrite named_get in H by assumption.
  destruct (has_cancelled_spec _ H) as (b & -> & _). destruct b; eauto.
Qed.
Lemma status_readonly k ps : fst (check_STATUS k false ps) = ps.
Proof. unfold check_STATUS. destruct (1 <? countProperty _ _)%nat; reflexivity. Qed.
Lemma status_none k doFix ps ps' u : check_STATUS k doFix ps = (ps', Ok ([], u)) -> ps' = ps.
Proof.
  unfold check_STATUS. destruct (1 <? countProperty _ _)%nat; [|congruence]. destruct doFix; [|congruence].
  destruct (has_cancelled _) as [[|]|]; congruence.
Qed.

(** ** Values. *)
Lemma upper_lower c : upper_char (lower_char c) = upper_char c /\ lower_char (upper_char c) = lower_char c.
Proof. destruct c as [[|] [|] [|] [|] [|] [|] [|] [|]]; split; reflexivity. Qed.
Lemma letters a b : lower a = lower b <-> upper a = upper b.
Proof.
  assert (U : forall s, upper (lower s) = upper s) by (induction s as [|c s IH]; cbn; [reflexivity|]; f_equal; [apply upper_lower|exact IH]).
  assert (L : forall s, lower (upper s) = lower s) by (induction s as [|c s IH]; cbn; [reflexivity|]; f_equal; [apply upper_lower|exact IH]).
  split; intro H; [rewrite <- U, H; apply U|rewrite <- L, H; apply L].
Qed.
Lemma string_value text v b : upper text = text -> stringValue text v = Ok b -> b = true <-> exists t, is_text v t /\ upper t = text.
Proof.
  intros U H. assert (E : forall t, is_text v t -> b = beq (lower t) (lower text)).
  { intros t [->|[[c ->]| ->]]; cbn in H; injection H; congruence. }
  split.
  - intros ->. destruct (text_dec v) as [[t I]|N].
    + exists t. split; [assumption|]. specialize (E t I). symmetry in E. apply beq_eq, letters in E. congruence.
    + exfalso. destruct v as [[i|l]|]; try discriminate H.
      destruct i; try discriminate H; cbn in H.
      * apply (N s). left. reflexivity.
      * destruct s as [t|]; [|discriminate]. apply (N t). right. left. eexists. reflexivity.
      * destruct s as [t|]; [|discriminate]. apply (N t). right. right. reflexivity.
  - intros (t & I & J). rewrite (E t I). apply beq_eq, letters. congruence.
Qed.
Lemma value_right n v : match assoc n value_checks with
  | None => right_value n v = None
  | Some f => exists R, right_value n v = Some R /\ forall b, f v = Ok b -> b = true <-> R
  end.
Proof.
  assert (UTC : forall b, alwaysUTC v = Ok b -> b = true <-> exists d, v = Some (Single (VDateTime d)) /\ mTZUTC d = true).
  { intros b H. unfold alwaysUTC in H. apply (f_equal (fun r => match r with Ok x => x | _ => b end)) in H. cbn in H. subst b.
    unfold datetime_of. destruct v as [[i|l]|]; [destruct i| |]; split; try discriminate; (intros (yy & E & F) || intro E); try discriminate.
    - eexists. split; [reflexivity|exact E].
    - injection E as ->. exact F. }
  assert (POS : forall b, positiveIntegerOrZero v = Ok b -> b = true <-> exists x, v = Some (Single (VInteger x)) /\ 0 <= x).
  { intros b H. unfold positiveIntegerOrZero in H. apply (f_equal (fun r => match r with Ok x => x | _ => b end)) in H. cbn in H. subst b.
    unfold integer_of. destruct v as [[i|l]|]; [destruct i| |]; split; try discriminate; (intros (yy & E & F) || intro E); try discriminate.
    - eexists. split; [reflexivity|]. apply Z.leb_le. exact E.
    - injection E as ->. apply Z.leb_le. exact F. }
  assert (RNG : forall lo hi b, numericRange lo hi v = Ok b -> b = true <-> exists x, v = Some (Single (VInteger x)) /\ lo <= x <= hi).
  { intros lo hi b H. unfold numericRange in H. apply (f_equal (fun r => match r with Ok x => x | _ => b end)) in H. cbn in H. subst b.
    unfold integer_of. destruct v as [[i|l]|]; [destruct i| |]; split; try discriminate; (intros (yy & E & F) || intro E); try discriminate.
    - eexists. split; [reflexivity|]. lia.
    - injection E as ->. lia. }
  unfold value_checks. cbn [assoc].
  repeat match goal with |- context [beq ?a n] => let H := fresh "E" in destruct (beq_case a n) as [[<- H]|[_ H]]; rewrite H end.
  all: try (eexists; split; [reflexivity|]; first [exact UTC | exact POS | apply RNG | intros b H; exact (string_value _ v b eq_refl H)]).
  repeat match goal with H : beq (lit _) n = false |- _ => rewrite beq_sym in H end. unfold right_value. cbn [existsb].
  repeat match goal with H : beq n _ = false |- _ => rewrite H; clear H end. reflexivity.
Qed.
