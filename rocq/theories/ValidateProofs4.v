(** Proofs about validation: the extra constraints, and the whole of one component. *)
From Coq Require Import Lia ZifyBool ZifyNat.
From Verif Require Import PyProofs LineProofs PropertyProofs ComponentProofs2 ComponentProofs3 ValidateModel ValidateSpec ValidateProofs ValidateProofs2 ValidateProofs3.

Lemma family_kind k s : (family_of k s = Event <-> k = VEVENT) /\ (family_of k s = ToDo <-> k = VTODO) /\
  (family_of k s = Availability <-> k = VAVAILABILITY) /\ (family_of k s = Available <-> k = AVAILABLE).
Proof.
  destruct k; cbn [family_of]; try (repeat split; congruence).
  destruct (sAction s) as [|p|p]; try (repeat split; congruence). destruct p as [[[p|p|]|[p|p|]|]|[[p|p|]|[p|p|]|]|]; repeat split; congruence.
Qed.
Definition ends_twice (k : kind) : bool := match k with VEVENT | VAVAILABILITY | AVAILABLE => true | _ => false end.
Lemma exclusive_kind k s a b n : (exists fs, In (a, b, n, fs) exclusive /\ In (family_of k s) fs) <->
  (ends_twice k = true /\ (a, b, n) = (lit "DTEND", lit "DURATION", lit "DTEND")) \/
  (k = VTODO /\ (a, b, n) = (lit "DUE", lit "DURATION", lit "DURATION")).
Proof.
  destruct (family_kind k s) as (F1 & F2 & F3 & F4). unfold exclusive. split.
  - intros (fs & [H|[H|[]]] & I); symmetry in H; pose proof (f_equal fst H) as E1; pose proof (f_equal snd H) as E2; cbn [fst snd] in E1, E2; subst fs.
    + left. split; [|exact E1]. destruct I as [I|[I|[I|[]]]]; symmetry in I; [apply F1 in I|apply F3 in I|apply F4 in I]; subst k; reflexivity.
    + right. split; [|exact E1]. destruct I as [I|[]]. symmetry in I. apply F2 in I. exact I.
  - intros [[K E]|[-> E]]; rewrite E; eexists.
    + split; [left; reflexivity|]. destruct k; try discriminate; cbn; tauto.
    + split; [right; left; reflexivity|]. left. reflexivity.
Qed.
Definition excluded (k : kind) (s : cstate) (ps : props) (n m : bytes) : Prop :=
  exists a b fs, In (a, b, n, fs) exclusive /\ In (family_of k s) fs /\ named a ps <> [] /\ named b ps <> [] /\
    m = says k (lit "Properties must not both be present") (a ++ lit ", " ++ b).
Lemma gives_way_kind k s ps n : gives_way (family_of k s) ps n <->
  (ends_twice k = true /\ n = lit "DTEND" /\ named (lit "DTEND") ps <> [] /\ named (lit "DURATION") ps <> []) \/
  (k = VTODO /\ n = lit "DURATION" /\ named (lit "DUE") ps <> [] /\ named (lit "DURATION") ps <> []).
Proof.
  unfold gives_way. split.
  - intros (a & b & fs & I & J & K & L). destruct (proj1 (exclusive_kind k s a b n)) as [[H E]|[H E]]; [exists fs; split; assumption|left|right];
      pose proof (f_equal snd E) as E1; pose proof (f_equal (fun x => fst (fst x)) E) as E2; pose proof (f_equal (fun x => snd (fst x)) E) as E3; cbn [fst snd] in *; subst; repeat split; assumption.
  - intros [(H & -> & K & L)|(H & -> & K & L)].
    + destruct (proj2 (exclusive_kind k s _ _ _) (or_introl (conj H eq_refl))) as (fs & I & J). do 3 eexists. repeat split; eassumption.
    + destruct (proj2 (exclusive_kind k s _ _ _) (or_intror (conj H eq_refl))) as (fs & I & J). do 3 eexists. repeat split; eassumption.
Qed.
Lemma empty_dec (l : list prop) : {l = []} + {l <> []}.
Proof. destruct l; [left; reflexivity|right; discriminate]. Qed.
Lemma and_dec (A B : Prop) : A \/ ~ A -> B \/ ~ B -> A /\ B \/ ~ (A /\ B).
Proof. tauto. Qed.
Lemma or_dec (A B : Prop) : A \/ ~ A -> B \/ ~ B -> (A \/ B) \/ ~ (A \/ B).
Proof. tauto. Qed.
Lemma name_dec (a b : bytes) : a = b \/ a <> b.
Proof. destruct (beq_case a b) as [[H _]|[H _]]; [left|right]; exact H. Qed.
Lemma some_dec (l : list prop) : l <> [] \/ ~ l <> [].
Proof. destruct l; [right; intro H; apply H; reflexivity|left; discriminate]. Qed.
Lemma gives_way_dec k s ps n : gives_way (family_of k s) ps n \/ ~ gives_way (family_of k s) ps n.
Proof.
  rewrite gives_way_kind. apply or_dec; (apply and_dec; [|apply and_dec; [apply name_dec|apply and_dec; apply some_dec]]).
  - destruct (ends_twice k); [left; reflexivity|right; discriminate].
  - destruct k; try (right; discriminate); left; reflexivity.
Qed.

Lemma pair_report {A B C : Type} (a a' : A) (b b' : B) (c c' : C) : (a, (b, c)) = (a', (b', c')) -> a = a' /\ b = b' /\ c = c'.
Proof. intro H. injection H as -> -> ->. auto. Qed.
Lemma not_both_ok k doFix a b g ps ps' f u : tidy_props ps -> (g = a \/ g = b) -> not_both k doFix a b g ps = (ps', (f, u)) ->
  let both := named a ps <> [] /\ named b ps <> [] in
  let m0 := says k (lit "Properties must not both be present") (a ++ lit ", " ++ b) in
  tidy_props ps' /\ (forall n, doFix = true -> both -> getProperties n ps' = if beq g n then [] else getProperties n ps) /\
  (~ (doFix = true /\ both) -> ps' = ps) /\
  (forall m, In m f <-> doFix = true /\ both /\ m = m0) /\ (forall m, In m u <-> doFix = false /\ both /\ m = m0).
Proof.
  intros T G H. cbv zeta. unfold not_both in H. destruct (hasProperty a ps && hasProperty b ps) eqn:E.
  - apply Bool.andb_true_iff in E as [E1 E2]. rewrite has_true in E1, E2 by assumption. destruct doFix.
    + apply pair_report in H as (<- & <- & <-). split; [apply tidy_remove; assumption|]. split; [intros n _ _; apply get_remove; assumption|].
      split; [intro N; exfalso; apply N; split; [reflexivity|split; assumption]|]. split; intro m; cbn [In].
      * split; [intros [<-|[]]; split; [reflexivity|split; [split; assumption|reflexivity]]|intros (_ & _ & ->); left; reflexivity].
      * split; [intros []|intros [Q _]; discriminate].
    + apply pair_report in H as (<- & <- & <-). split; [assumption|]. split; [discriminate|]. split; [reflexivity|]. split; intro m; cbn [In].
      * split; [intros []|intros [Q _]; discriminate].
      * split; [intros [<-|[]]; split; [reflexivity|split; [split; assumption|reflexivity]]|intros (_ & _ & ->); left; reflexivity].
  - assert (N : ~ (named a ps <> [] /\ named b ps <> [])).
    { intros [A B]. rewrite <- has_true in A, B by assumption. rewrite A, B in E. discriminate. }
    apply pair_report in H as (<- & <- & <-). split; [assumption|]. split; [intros n _ Q; contradiction|]. split; [reflexivity|].
    split; intro m; cbn [In]; (split; [intros []|intros (_ & Q & _); contradiction]).
Qed.
Lemma not_both_none k doFix a b g ps ps' u : not_both k doFix a b g ps = (ps', ([], u)) -> ps' = ps.
Proof. unfold not_both. destruct (_ && _); [|congruence]. destruct doFix; congruence. Qed.
Lemma not_both_readonly k a b g ps : fst (not_both k false a b g ps) = ps.
Proof. unfold not_both. destruct (_ && _); reflexivity. Qed.

Definition lacks_start (parent : option props) (k : kind) (s : cstate) (ps : props) (m : bytes) : Prop :=
  exists pp, family_of k s = Event /\ parent = Some pp /\ named (lit "METHOD") pp = [] /\ named (lit "DTSTART") ps = [] /\
    m = says k (lit "Missing required property") (lit "DTSTART").
Definition todo_lacks (due : bool) (k : kind) (s : cstate) (ps : props) (m : bytes) : Prop :=
  family_of k s = ToDo /\ named (lit "DURATION") ps <> [] /\ named (lit "DTSTART") ps = [] /\ (due = false -> named (lit "DUE") ps = []) /\
  m = says k (lit "Property must be present") (lit "DTSTART with DURATION").
Definition apart (k : kind) (ps : props) (m : bytes) : Prop :=
  k = VALARM /\ (named (lit "DURATION") ps = [] <-> named (lit "REPEAT") ps <> []) /\
  m = says k (lit "Properties must be present together") (lit "DURATION, REPEAT").
Definition no_observance (k : kind) (subs : list comp) (m : bytes) : Prop :=
  k = VTIMEZONE /\ (forall c, In c subs -> getType (cKind c) <> lit "STANDARD" /\ getType (cKind c) <> lit "DAYLIGHT") /\
  m = says k (lit "At least one component must be present") (lit "STANDARD or DAYLIGHT").

Lemma extra_ok k s doFix parent subs ps ps' f u : tidy_props ps -> (forall pp, parent = Some pp -> tidy_props pp) ->
  extra k doFix parent subs ps = (ps', (f, u)) ->
  tidy_props ps' /\
  (forall n, doFix = true -> gives_way (family_of k s) ps n -> getProperties n ps' = []) /\
  (forall n, ~ (doFix = true /\ gives_way (family_of k s) ps n) -> getProperties n ps' = getProperties n ps) /\
  (forall m, In m f <-> doFix = true /\ exists n, excluded k s ps n m) /\
  (forall m, In m u <-> (doFix = false /\ exists n, excluded k s ps n m) \/ lacks_start parent k s ps m \/
                        todo_lacks (negb doFix) k s ps m \/ apart k ps m \/ no_observance k subs m).
Proof.
  intros T TP H. destruct (family_kind k s) as (F1 & F2 & F3 & F4).
  assert (X : forall n m, excluded k s ps n m <->
    (ends_twice k = true /\ n = lit "DTEND" /\ (named (lit "DTEND") ps <> [] /\ named (lit "DURATION") ps <> []) /\
       m = says k (lit "Properties must not both be present") (lit "DTEND" ++ lit ", " ++ lit "DURATION")) \/
    (k = VTODO /\ n = lit "DURATION" /\ (named (lit "DUE") ps <> [] /\ named (lit "DURATION") ps <> []) /\
       m = says k (lit "Properties must not both be present") (lit "DUE" ++ lit ", " ++ lit "DURATION"))).
  { intros n m. unfold excluded. split.
    - intros (a & b & fs & I & J & K & L & ->). destruct (proj1 (exclusive_kind k s a b n)) as [[E1 E]|[E1 E]]; [exists fs; split; assumption|left|right];
        pose proof (f_equal snd E) as E4; pose proof (f_equal (fun x => fst (fst x)) E) as E2; pose proof (f_equal (fun x => snd (fst x)) E) as E3; cbn [fst snd] in *; subst; repeat split; assumption.
    - intros [(E & -> & [K L] & ->)|(E & -> & [K L] & ->)].
      + destruct (proj2 (exclusive_kind k s _ _ _) (or_introl (conj E eq_refl))) as (fs & I & J). do 3 eexists. repeat split; eassumption.
      + destruct (proj2 (exclusive_kind k s _ _ _) (or_intror (conj E eq_refl))) as (fs & I & J). do 3 eexists. repeat split; eassumption. }
  assert (S : forall m, lacks_start parent k s ps m -> k = VEVENT) by (intros m (pp & E & _); apply F1; exact E).
  assert (D : forall b m, todo_lacks b k s ps m -> k = VTODO) by (intros b m (E & _); apply F2; exact E).
  assert (ENDS : forall f0 u0, not_both k doFix (lit "DTEND") (lit "DURATION") (lit "DTEND") ps = (ps', (f0, u0)) -> ends_twice k = true ->
    tidy_props ps' /\ (forall n, doFix = true -> gives_way (family_of k s) ps n -> getProperties n ps' = []) /\
    (forall n, ~ (doFix = true /\ gives_way (family_of k s) ps n) -> getProperties n ps' = getProperties n ps) /\
    (forall m, In m f0 <-> doFix = true /\ exists n, excluded k s ps n m) /\
    (forall m, In m u0 <-> doFix = false /\ exists n, excluded k s ps n m)).
  { clear H. intros f0 u0 H E. assert (K : k <> VTODO) by (intros ->; discriminate).
    destruct (not_both_ok _ _ _ _ _ _ _ _ _ T (or_introl eq_refl) H) as (T' & G & R & A & B). split; [assumption|]. split; [|split; [|split]].
    - intros n -> W. apply gives_way_kind in W as [(_ & -> & N1 & N2)|(N & _)]; [|contradiction].
      rewrite G by (try reflexivity; split; assumption). rewrite beq_refl. reflexivity.
    - intros n N. destruct doFix; [|rewrite R by (intros [Q _]; discriminate); reflexivity].
      destruct (empty_dec (named (lit "DTEND") ps)) as [N1|N1]; [rewrite R by tauto; reflexivity|].
      destruct (empty_dec (named (lit "DURATION") ps)) as [N2|N2]; [rewrite R by tauto; reflexivity|].
      rewrite G by (try reflexivity; split; assumption). destruct (beq_case (lit "DTEND") n) as [[<- _]|[_ ->]]; [|reflexivity].
      exfalso. apply N. split; [reflexivity|]. apply gives_way_kind. left. repeat split; assumption.
    - intro m. rewrite A. split.
      + intros (-> & N & ->). split; [reflexivity|]. exists (lit "DTEND"). apply X. left. repeat split; try assumption; apply N.
      + intros (-> & n & Q). apply X in Q as [(_ & _ & N & ->)|(Q & _)]; [|contradiction]. repeat split; apply N.
    - intro m. rewrite B. split.
      + intros (-> & N & ->). split; [reflexivity|]. exists (lit "DTEND"). apply X. left. repeat split; try assumption; apply N.
      + intros (-> & n & Q). apply X in Q as [(_ & _ & N & ->)|(Q & _)]; [|contradiction]. repeat split; apply N. }
  assert (NONE : ends_twice k = false -> k <> VTODO -> ps' = ps -> f = [] ->
    tidy_props ps' /\ (forall n, doFix = true -> gives_way (family_of k s) ps n -> getProperties n ps' = []) /\
    (forall n, ~ (doFix = true /\ gives_way (family_of k s) ps n) -> getProperties n ps' = getProperties n ps) /\
    (forall m, In m f <-> doFix = true /\ exists n, excluded k s ps n m) /\ (forall m n, ~ excluded k s ps n m)).
  { clear H. intros E K -> ->. split; [assumption|]. split; [intros n _ W; apply gives_way_kind in W as [(W & _)|(W & _)]; congruence|].
    split; [reflexivity|]. assert (Q : forall m n, ~ excluded k s ps n m) by (intros m n W; apply X in W as [(W & _)|(W & _)]; congruence).
    split; [|exact Q]. intro m. split; [intros []|intros (_ & n & W); exfalso; exact (Q _ _ W)]. }
  assert (REST : ends_twice k = false -> k <> VTODO -> k <> VALARM -> k <> VTIMEZONE -> ps' = ps -> f = [] -> u = [] ->
    tidy_props ps' /\ (forall n, doFix = true -> gives_way (family_of k s) ps n -> getProperties n ps' = []) /\
    (forall n, ~ (doFix = true /\ gives_way (family_of k s) ps n) -> getProperties n ps' = getProperties n ps) /\
    (forall m, In m f <-> doFix = true /\ exists n, excluded k s ps n m) /\
    (forall m, In m u <-> (doFix = false /\ exists n, excluded k s ps n m) \/ lacks_start parent k s ps m \/
                          todo_lacks (negb doFix) k s ps m \/ apart k ps m \/ no_observance k subs m)).
  { clear H. intros E K1 K2 K3 P1 P2 ->. destruct (NONE E K1 P1 P2) as (A & B & C & G & Q). split; [assumption|]. split; [assumption|]. split; [assumption|].
    split; [assumption|]. intro m. split; [intros []|]. intros [(_ & n & W)|[W|[W|[(W & _)|(W & _)]]]]; [exact (Q _ _ W)|apply S in W; subst; discriminate|apply D in W; contradiction|contradiction|contradiction]. }
  unfold extra in H. destruct k; try (apply pair_report in H as (<- & <- & <-); apply REST; (discriminate || reflexivity)).
  - (* VEVENT *)
    destruct (not_both _ _ _ _ _ _) as [ps0 [f0 u0]] eqn:E. apply pair_report in H as (-> & -> & <-).
    destruct (ENDS _ _ eq_refl eq_refl) as (A & B & C & G & Q). split; [assumption|]. split; [assumption|]. split; [assumption|]. split; [assumption|].
    intro m. rewrite in_app_iff, Q. assert (W : In m (needs_start VEVENT parent ps) <-> lacks_start parent VEVENT s ps m).
    { unfold needs_start, lacks_start. destruct parent as [pp|]; [|split; [intros []|intros (pp & _ & W & _); discriminate]].
      specialize (TP pp eq_refl). destruct (negb (hasProperty (lit "METHOD") pp) && negb (hasProperty (lit "DTSTART") ps)) eqn:W.
      - apply Bool.andb_true_iff in W as [W1 W2]. apply Bool.negb_true_iff in W1, W2. rewrite has_false in W1, W2 by assumption.
        split; [intros [<-|[]]; exists pp; repeat split; assumption|intros (pp' & _ & _ & _ & _ & ->); left; reflexivity].
      - split; [intros []|]. intros (pp' & _ & W0 & W1 & W2 & _). injection W0 as <-. rewrite <- has_false in W1, W2 by assumption. rewrite W1, W2 in W. discriminate. }
    rewrite W. clear - S D. split; [intros [R|R]; [right; left|left]; exact R|]. intros [R|[R|[R|[(R & _)|(R & _)]]]]; [right; exact R|left; exact R|apply D in R; discriminate|discriminate|discriminate].
  - (* VTODO *)
    destruct (not_both _ _ _ _ _ _) as [ps0 [f0 u0]] eqn:E. apply pair_report in H as (-> & -> & <-).
    destruct (not_both_ok _ _ _ _ _ _ _ _ _ T (or_intror eq_refl) E) as (T' & G & R & A & B). split; [assumption|].
    assert (G1 : forall n, doFix = true -> gives_way (family_of VTODO s) ps n -> getProperties n ps' = []).
    { intros n -> W. apply gives_way_kind in W as [(N & _)|(_ & -> & N1 & N2)]; [discriminate|].
      rewrite G by (try reflexivity; split; assumption). rewrite beq_refl. reflexivity. }
    assert (G2 : forall n, ~ (doFix = true /\ gives_way (family_of VTODO s) ps n) -> getProperties n ps' = getProperties n ps).
    { intros n N. destruct doFix; [|rewrite R by (intros [Q _]; discriminate); reflexivity].
      destruct (empty_dec (named (lit "DUE") ps)) as [N1|N1]; [rewrite R by tauto; reflexivity|].
      destruct (empty_dec (named (lit "DURATION") ps)) as [N2|N2]; [rewrite R by tauto; reflexivity|].
      rewrite G by (try reflexivity; split; assumption). destruct (beq_case (lit "DURATION") n) as [[<- _]|[_ ->]]; [|reflexivity].
      exfalso. apply N. split; [reflexivity|]. apply gives_way_kind. right. repeat split; assumption. }
    split; [assumption|]. split; [assumption|]. split.
    + intro m. rewrite A. split.
      * intros (-> & N & ->). split; [reflexivity|]. exists (lit "DURATION"). apply X. right. repeat split; apply N.
      * intros (-> & n & Q). apply X in Q as [(Q & _)|(_ & _ & N & ->)]; [discriminate|]. repeat split; apply N.
    + intro m. rewrite in_app_iff, B.
      assert (B' : (doFix = false /\ (named (lit "DUE") ps <> [] /\ named (lit "DURATION") ps <> []) /\
        m = says VTODO (lit "Properties must not both be present") (lit "DUE" ++ lit ", " ++ lit "DURATION")) <-> (doFix = false /\ exists n, excluded VTODO s ps n m)).
      { split.
        - intros (-> & N & ->). split; [reflexivity|]. exists (lit "DURATION"). apply X. right. repeat split; apply N.
        - intros (-> & n & Q). apply X in Q as [(Q & _)|(_ & _ & N & ->)]; [discriminate|]. repeat split; apply N. }
      rewrite B'.
      assert (W : In m (if hasProperty (lit "DURATION") ps' && negb (hasProperty (lit "DTSTART") ps')
          then [msg VTODO (lit "Property must be present") (lit "DTSTART with DURATION")] else []) <-> todo_lacks (negb doFix) VTODO s ps m).
      { assert (S0 : getProperties (lit "DTSTART") ps' = getProperties (lit "DTSTART") ps).
        { apply G2. intros [_ W]. apply gives_way_kind in W as [(_ & W & _)|(_ & W & _)]; discriminate. }
        assert (HS : hasProperty (lit "DTSTART") ps' = hasProperty (lit "DTSTART") ps) by (rewrite !has_get, S0 by assumption; reflexivity).
        assert (HD : hasProperty (lit "DURATION") ps' = true <-> named (lit "DURATION") ps <> [] /\ (negb doFix = false -> named (lit "DUE") ps = [])).
        { rewrite has_get by assumption. rewrite named_get by assumption. destruct doFix.
          - destruct (empty_dec (named (lit "DUE") ps)) as [N1|N1].
            + rewrite R by tauto. destruct (getProperties (lit "DURATION") ps); [split; [discriminate|tauto]|split; [intros _; split; [discriminate|intros _; assumption]|reflexivity]].
            + destruct (empty_dec (named (lit "DURATION") ps)) as [N2|N2].
              * rewrite R by tauto. rewrite <- (named_get _ ps T), N2. split; [discriminate|tauto].
              * rewrite G, beq_refl by (try reflexivity; split; assumption). split; [discriminate|]. intros [_ Q]. specialize (Q eq_refl). contradiction.
          - rewrite R by (intros [Q _]; discriminate). destruct (getProperties (lit "DURATION") ps); [split; [discriminate|tauto]|split; [intros _; split; discriminate|reflexivity]]. }
        rewrite HS. unfold todo_lacks. destruct (hasProperty (lit "DURATION") ps') eqn:W1.
        - destruct (proj1 HD eq_refl) as [W2 W3]. destruct (hasProperty (lit "DTSTART") ps) eqn:W4; cbn [andb negb].
          + split; [intros []|]. intros (_ & _ & W5 & _). rewrite <- has_false in W5 by assumption. congruence.
          + rewrite has_false in W4 by assumption. split; [intros [<-|[]]; repeat split; assumption|intros (_ & _ & _ & _ & ->); left; reflexivity].
        - cbn [andb]. split; [intros []|]. intros (_ & W2 & _ & W3 & _). assert (false = true) by (apply HD; split; assumption). discriminate. }
      rewrite W. clear - S D. split; [intros [Q|Q]; [left|right; right; left]; exact Q|]. intros [Q|[Q|[Q|[(Q & _)|(Q & _)]]]]; [left; exact Q|apply S in Q; discriminate|right; exact Q|discriminate|discriminate].
  - (* VTIMEZONE *)
    apply pair_report in H as (<- & <- & <-). destruct (NONE eq_refl ltac:(discriminate) eq_refl eq_refl) as (A & B & C & G & Q).
    split; [assumption|]. split; [assumption|]. split; [assumption|]. split; [assumption|]. intro m.
    assert (W : In m (if existsb (fun c => beq (getType (cKind c)) (lit "STANDARD") || beq (getType (cKind c)) (lit "DAYLIGHT")) subs then []
                     else [msg VTIMEZONE (lit "At least one component must be present") (lit "STANDARD or DAYLIGHT")]) <-> no_observance VTIMEZONE subs m).
    { unfold no_observance. destruct (existsb _ subs) eqn:E.
      - split; [intros []|]. intros (_ & W & _). apply existsb_exists in E as (c & I & J). apply W in I as [I1 I2].
        apply Bool.orb_true_iff in J as [J|J]; apply beq_eq in J; contradiction.
      - split; [|intros (_ & _ & ->); left; reflexivity]. intros [<-|[]]. split; [reflexivity|]. split; [|reflexivity]. intros c I.
        assert (J : (beq (getType (cKind c)) (lit "STANDARD") || beq (getType (cKind c)) (lit "DAYLIGHT"))%bool = false).
        { apply Bool.not_true_iff_false. intro J. apply Bool.not_true_iff_false in E. apply E. apply existsb_exists. exists c. split; assumption. }
        apply Bool.orb_false_iff in J as [J1 J2]. split; intro J; [rewrite J in J1|rewrite J in J2]; discriminate. }
    rewrite W. clear - S D Q. split; [intro R; right; right; right; right; exact R|]. intros [(_ & n & R)|[R|[R|[(R & _)|R]]]]; [exfalso; exact (Q _ _ R)|apply S in R; discriminate|apply D in R; discriminate|discriminate|assumption].
  - (* VALARM *)
    apply pair_report in H as (<- & <- & <-). destruct (NONE eq_refl ltac:(discriminate) eq_refl eq_refl) as (A & B & C & G & Q).
    split; [assumption|]. split; [assumption|]. split; [assumption|]. split; [assumption|]. intro m.
    assert (W : In m (if xorb (hasProperty (lit "DURATION") ps) (hasProperty (lit "REPEAT") ps)
                     then [msg VALARM (lit "Properties must be present together") (lit "DURATION, REPEAT")] else []) <-> apart VALARM ps m).
    { unfold apart. rewrite !has_get by assumption. rewrite !named_get by assumption.
      destruct (getProperties (lit "DURATION") ps) as [|a la], (getProperties (lit "REPEAT") ps) as [|b lb]; cbn [xorb].
      - split; [intros []|]. intros (_ & W & _). destruct W as [W _]. exfalso. apply W; reflexivity.
      - split; [intros [<-|[]]; repeat split; congruence|intros (_ & _ & ->); left; reflexivity].
      - split; [intros [<-|[]]; repeat split; congruence|intros (_ & _ & ->); left; reflexivity].
      - split; [intros []|]. intros (_ & W & _). destruct W as [_ W]. discriminate W. discriminate. }
    rewrite W. clear - S D Q. split; [intro R; right; right; right; left; exact R|]. intros [(_ & n & R)|[R|[R|[R|(R & _)]]]]; [exfalso; exact (Q _ _ R)|apply S in R; discriminate|apply D in R; discriminate|assumption|discriminate].
  - (* VAVAILABILITY *)
    destruct (ENDS _ _ H eq_refl) as (A & B & C & G & Q). split; [assumption|]. split; [assumption|]. split; [assumption|]. split; [assumption|].
    intro m. rewrite Q. clear - S D. split; [intro R; left; exact R|]. intros [R|[R|[R|[(R & _)|(R & _)]]]]; [exact R|apply S in R; discriminate|apply D in R; discriminate|discriminate|discriminate].
  - (* AVAILABLE *)
    destruct (ENDS _ _ H eq_refl) as (A & B & C & G & Q). split; [assumption|]. split; [assumption|]. split; [assumption|]. split; [assumption|].
    intro m. rewrite Q. clear - S D. split; [intro R; left; exact R|]. intros [R|[R|[R|[(R & _)|(R & _)]]]]; [exact R|apply S in R; discriminate|apply D in R; discriminate|discriminate|discriminate].
Qed.
Lemma extra_readonly k parent subs ps : fst (extra k false parent subs ps) = ps.
Proof.
  unfold extra. destruct k; try reflexivity; try apply not_both_readonly.
  all: match goal with |- context [not_both ?k ?b ?x ?y ?z ?w] => pose proof (not_both_readonly k x y z w) as H; destruct (not_both k b x y z w) as [ps0 [f0 u0]] end; exact H.
Qed.
Lemma extra_none k doFix parent subs ps ps' u : extra k doFix parent subs ps = (ps', ([], u)) -> ps' = ps.
Proof.
  unfold extra. destruct k; try congruence; try (apply not_both_none).
  all: match goal with |- context [not_both ?k ?b ?x ?y ?z ?w] => pose proof (fun u => not_both_none k b x y z w ps' u) as H; destruct (not_both k b x y z w) as [ps0 [f0 u0]] end;
    intro Q; apply pair_report in Q as (-> & -> & _); apply (H u0); reflexivity.
Qed.
