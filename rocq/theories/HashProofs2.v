(** Proofs about sets of hashed objects, and == of vCards. *)
From Coq Require Import Lia.
From Verif Require Import PyBase PyProofs LineProofs PropertyModel PropertyProofs PropertyProofs3 ComponentProofs2 EqProofs2 HashModel HashSpec HashProofs.

(** ** Sets *)
Section Sets.
Context {A : Type}.
Variable hash : A -> res Z.
Variable eq : A -> A -> res bool.
Variable U : A -> Prop.
Variable E : A -> A -> Prop.
Hypothesis Eh : forall x, U x -> exists h, hash x = Ok h.
Hypothesis Et : forall x y, U x -> U y -> exists b, eq x y = Ok b.
Hypothesis Es : forall x y, U x -> U y -> (E x y <-> hash y = hash x /\ eq y x = Ok true).
Hypothesis Er : forall x, U x -> E x x.
Hypothesis Ey : forall x y, U x -> U y -> E x y -> E y x.
Hypothesis En : forall x y z, U x -> U y -> U z -> E x y -> E y z -> E x z.

Definition stored (s : list (Z * A)) : Prop := forall h x, In (h, x) s -> U x /\ hash x = Ok h.
Definition within (x : A) (l : list A) : Prop := exists y, In y l /\ E x y.
Lemma stored_tail hx s : stored (hx :: s) -> stored s.
Proof. intros F h x H. apply F. right. exact H. Qed.
Lemma stored_U s x : stored s -> In x (map snd s) -> U x.
Proof. intros F H. apply in_map_iff in H. destruct H as ([h y] & <- & H). apply (F h y H). Qed.
Lemma is_in_spec h x s : U x -> hash x = Ok h -> stored s -> exists b, is_in eq h x s = Ok b /\ (b = true <-> within x (map snd s)).
Proof.
  intros Ux Hx. induction s as [|[h' y] s IH]; intro F; cbn [is_in map snd].
  - exists false. split; [reflexivity|]. split; [discriminate|]. intros (y & [] & _).
  - destruct (IH (stored_tail _ _ F)) as (b & B & Sb). destruct (F h' y (or_introl eq_refl)) as [Uy Hy].
    assert (No : ~ E x y -> b = true <-> within x (y :: map snd s)).
    { intro N. rewrite Sb. split; intros (z & I & K); exists z; (split; [|exact K]); [right; exact I|]. destruct I as [->|I]; [contradiction|exact I]. }
    destruct (Z.eqb_spec h' h) as [->|N].
    + destruct (Et y x Uy Ux) as [c C]. rewrite C. cbn [rbind]. destruct c.
      * exists true. split; [reflexivity|]. split; [|reflexivity]. intros _. exists y. split; [left; reflexivity|]. apply Es; auto. split; [congruence|exact C].
      * exists b. split; [exact B|]. apply No. intro K. apply Es in K; auto. destruct K as [_ K]. congruence.
    + exists b. split; [exact B|]. apply No. intro K. apply Es in K; auto. destruct K as [K _]. apply N. rewrite Hx, Hy in K. apply Ok_inj in K. exact K.
Qed.
Inductive apart : list A -> Prop :=
| apart_nil : apart []
| apart_cons x l : ~ within x l -> apart l -> apart (x :: l).
Lemma apart_snoc l x : (forall y, In y l -> U y) -> U x -> apart l -> ~ within x l -> apart (l ++ [x]).
Proof.
  intros F Ux P. induction P as [|y l Y P IH]; intro N; cbn [app].
  - constructor; [intros (z & [] & _)|constructor].
  - constructor.
    + intros (z & I & K). apply in_app_iff in I. destruct I as [I|[<-|[]]]; [apply Y; exists z; split; assumption|]. apply N. exists y. split; [left; reflexivity|]. apply Ey; auto. apply F. left. reflexivity.
    + apply IH; [intros z I; apply F; right; exact I|]. intros (z & I & K). apply N. exists z. split; [right; exact I|exact K].
Qed.
Lemma updated_spec l : forall acc, stored acc -> (forall x, In x l -> U x) -> apart (map snd acc) ->
  exists s, updated hash eq acc l = Ok s /\ stored s /\ apart (map snd s) /\ incl (map snd s) (map snd acc ++ l) /\ forall x, In x (map snd acc ++ l) -> within x (map snd s).
Proof.
  induction l as [|x l IH]; intros acc Fa Fl P; cbn [updated].
  - exists acc. split; [reflexivity|]. split; [exact Fa|]. split; [exact P|]. rewrite app_nil_r. split; [apply incl_refl|]. intros y Y. exists y. split; [exact Y|]. apply Er. exact (stored_U _ _ Fa Y).
  - assert (Ux : U x) by (apply Fl; left; reflexivity). assert (Fl' : forall y, In y l -> U y) by (intros y Y; apply Fl; right; exact Y).
    destruct (Eh x Ux) as [h Hx]. rewrite Hx. cbn [rbind]. destruct (is_in_spec h x acc Ux Hx Fa) as (b & B & Sb). rewrite B. cbn [rbind]. destruct b.
    + destruct (IH acc Fa Fl' P) as (s & Hs & Fs & Ps & I & C). exists s. split; [exact Hs|]. split; [exact Fs|]. split; [exact Ps|]. split.
      * intros y Y. apply I in Y. apply in_app_iff in Y. apply in_app_iff. cbn [In]. tauto.
      * intros y Y. apply in_app_iff in Y. destruct Y as [Y|[<-|Y]]; [apply C, in_app_iff; auto| |apply C, in_app_iff; auto].
        destruct (proj1 Sb eq_refl) as (z & Z & K). destruct (C z) as (w & W & K'); [apply in_app_iff; auto|]. exists w. split; [exact W|]. pose proof (stored_U _ _ Fa Z). pose proof (stored_U _ _ Fs W). apply (En x z w); auto.
    + assert (Fs : stored (acc ++ [(h, x)])) by (intros k y Y; apply in_app_iff in Y; destruct Y as [Y|[Y|[]]]; [apply Fa; exact Y|injection Y as <- <-; split; assumption]).
      destruct (IH (acc ++ [(h, x)]) Fs Fl') as (s & Hs & Fs' & Ps & I & C).
      { rewrite map_app. apply apart_snoc; auto; [intros y Y; exact (stored_U _ _ Fa Y)|]. intro W. apply Sb in W. discriminate. }
      exists s. rewrite map_app, <- app_assoc in I, C. cbn [map snd app] in I, C. auto.
Qed.
Lemma subset_spec s t : stored s -> stored t -> exists b, subset eq s t = Ok b /\ (b = true <-> forall x, In x (map snd s) -> within x (map snd t)).
Proof.
  intros Fs Ft. induction s as [|[h x] s IH]; cbn [subset map snd].
  - exists true. split; [reflexivity|]. split; [intros _ x []|reflexivity].
  - destruct (Fs h x (or_introl eq_refl)) as [Ux Hx]. destruct (is_in_spec h x t Ux Hx Ft) as (b & B & Sb). rewrite B. cbn [rbind]. destruct b.
    + destruct (IH (stored_tail _ _ Fs)) as (c & C & Sc). exists c. split; [exact C|]. rewrite Sc. split.
      * intros K y [<-|Y]; [apply Sb; reflexivity|auto].
      * intros K y Y. apply K. right. exact Y.
    + exists false. split; [reflexivity|]. split; [discriminate|]. intro K. apply Sb. apply K. left. reflexivity.
Qed.
Definition all_within (l m : list A) : Prop := forall x, In x l -> within x m.
Definition inU (l : list A) : Prop := forall x, In x l -> U x.
Lemma fewer l : forall m, inU l -> inU m -> apart l -> all_within l m -> (List.length l <= List.length m)%nat.
Proof.
  induction l as [|x l IH]; intros m Fl Fm P W; [cbn; lia|]. inversion P as [|? ? P1 P2]; subst. destruct (W x (or_introl eq_refl)) as (y & Y & K).
  apply in_split in Y. destruct Y as (a & b & ->).
  assert (L : (List.length l <= List.length (a ++ b))%nat).
  { apply IH; [intros z Z; apply Fl; right; exact Z| |exact P2|].
    - intros z Z. apply Fm. apply in_app_iff in Z. apply in_app_iff. cbn [In]. tauto.
    - intros z Z. destruct (W z (or_intror Z)) as (w & I & K'). exists w. split; [|exact K']. apply in_app_iff in I. apply in_app_iff.
      destruct I as [I|[<-|I]]; [auto| |auto]. exfalso. apply P1. exists z. split; [exact Z|].
      assert (Ux : U x) by (apply Fl; left; reflexivity). assert (Uz : U z) by (apply Fl; right; exact Z). assert (Uy : U y) by (apply Fm, in_app_iff; right; left; reflexivity).
      apply (En x y z); auto. }
  rewrite app_length in *. cbn [List.length] in *. lia.
Qed.
Lemma all_trans l m n : inU l -> inU m -> inU n -> all_within l m -> all_within m n -> all_within l n.
Proof. intros Fl Fm Fn P Q x X. destruct (P x X) as (y & Y & K). destruct (Q y Y) as (z & Z & K'). exists z. split; [exact Z|]. apply (En x y z); auto. Qed.
Lemma incl_within l m : inU l -> incl l m -> all_within l m.
Proof. intros F I x X. exists x. split; [auto|]. apply Er. auto. Qed.
Lemma set_eq_spec l m : inU l -> inU m -> exists b, set_eq hash eq l m = Ok b /\ (b = true <-> all_within l m /\ all_within m l).
Proof.
  intros Fl Fm. unfold set_eq. assert (S0 : stored []) by (intros h x []).
  destruct (updated_spec l [] S0 Fl apart_nil) as (s & Hs & Fs & Ps & Is & Cs). destruct (updated_spec m [] S0 Fm apart_nil) as (t & Ht & Ft & Pt & It & Ct).
  rewrite Hs, Ht. cbn [rbind map app] in *. assert (Us : inU (map snd s)) by (intros x X; exact (stored_U _ _ Fs X)). assert (Ut : inU (map snd t)) by (intros x X; exact (stored_U _ _ Ft X)).
  assert (Sl : all_within (map snd s) l) by (apply incl_within; assumption). assert (Tm : all_within (map snd t) m) by (apply incl_within; assumption).
  assert (Ls : all_within l (map snd s)) by exact Cs. assert (Mt : all_within m (map snd t)) by exact Ct.
  destruct (subset_spec s t Fs Ft) as (b & B & Sb). destruct (Nat.eqb_spec (List.length s) (List.length t)) as [L|L].
  - exists b. split; [exact B|]. rewrite Sb. split.
    + intro W. assert (W' : all_within (map snd t) (map snd s)).
      { intros q Q. assert (Uq : U q) by auto. destruct (Eh q Uq) as [h Hq]. destruct (is_in_spec h q s Uq Hq Fs) as (c & _ & Sc). destruct c; [apply Sc; reflexivity|]. exfalso.
        apply in_split in Q. destruct Q as (x & y & Q).
        assert (Len : (List.length (map snd s) <= List.length (x ++ y))%nat).
        { apply fewer; auto.
          - intros z Z. apply Ut. rewrite Q. apply in_app_iff in Z. apply in_app_iff. cbn [In]. tauto.
          - intros p P. destruct (W p P) as (r & I & K). exists r. split; [|exact K]. rewrite Q in I. apply in_app_iff in I. apply in_app_iff. destruct I as [I|[<-|I]]; [auto| |auto]. exfalso.
            assert (false = true); [|discriminate]. apply Sc. exists p. split; [exact P|]. apply Ey; auto. }
        assert (Len' : List.length (map snd t) = S (List.length (x ++ y))) by (rewrite Q, !app_length; cbn [List.length]; lia). rewrite !map_length in *. lia. }
      split.
      * apply (all_trans l (map snd s) m); auto. apply (all_trans (map snd s) (map snd t) m); auto.
      * apply (all_trans m (map snd t) l); auto. apply (all_trans (map snd t) (map snd s) l); auto.
    + intros [K _]. apply (all_trans (map snd s) l (map snd t)); auto. apply (all_trans l m (map snd t)); auto.
  - exists false. split; [reflexivity|]. split; [discriminate|]. intros [K1 K2]. exfalso. apply L. rewrite <- (map_length snd s), <- (map_length snd t). apply Nat.le_antisymm; apply fewer; auto.
    + apply (all_trans (map snd s) l (map snd t)); auto. apply (all_trans l m (map snd t)); auto.
    + apply (all_trans (map snd t) m (map snd s)); auto. apply (all_trans m l (map snd s)); auto.
Qed.
End Sets.

(** ** Values *)
Section Fair.
Variable tzo : tzid -> Z -> Z -> Z -> Z -> Z -> Z -> bool -> bool -> Z.
Variable fl : floats.
Lemma dates_eq x y : bare_date x -> bare_date y ->
  exists b, dt_eq tzo x y = Ok b /\ (b = true <-> [mYear x; mMonth x; mDay x; mHours x; mMinutes x; mSeconds x] = [mYear y; mMonth y; mDay y; mHours y; mMinutes y; mSeconds y]).
Proof.
  intros (D1 & D2 & D3 & D4 & D5 & D6) (D1' & D2' & D3' & D4' & D5' & D6'). unfold dt_eq, compareDateTime. rewrite D1. cbn [orb rbind]. eexists. split; [reflexivity|]. rewrite Z.eqb_eq. split.
  - intro H. apply cmp_date_0 in H. unfold DateTimeSpec.ymd in H. injection H as -> -> ->. congruence.
  - intro H. injection H as H1 H2 H3 _ _ _. unfold cmp_date, pycmp. rewrite H1, H2, H3, !Z.ltb_irrefl, !Z.eqb_refl. reflexivity.
Qed.
Definition is_time (i : item) : option dt := match i with VDateTime d => Some d | _ => None end.
Lemma time_is i d : is_time i = Some d -> i = VDateTime d.
Proof. destruct i; cbn; intro H; try discriminate H. injection H as ->. reflexivity. Qed.
Lemma differ x y : item_type x <> item_type y -> exists b, item_eq tzo fl x y = Ok b /\ (b = true <-> image x = image y).
Proof.
  intro N. exists false. unfold item_eq. destruct (veqb (item_type x) (item_type y)) eqn:T; [apply veqb_iff in T; contradiction|]. split; [reflexivity|]. split; [discriminate|].
  intro H. exfalso. apply N. unfold image in H. exact (f_equal (fun t => fst (fst t)) H).
Qed.
Lemma fair_decides : decides (item_eq tzo fl) image fair_item.
Proof.
  intros x y Fx Fy. destruct (is_time x) as [d|] eqn:X, (is_time y) as [e|] eqn:Y.
  - apply time_is in X, Y. subst x y. destruct Fx as [_ Fx], Fy as [_ Fy]. destruct Fx as [Fx|D], Fy as [Fy|E].
    + apply item_decides; assumption.
    + unfold item_eq, image. cbn [item_type]. rewrite (proj1 Fx), (proj1 E). cbn [veqb]. exists false. split; [reflexivity|]. split; discriminate.
    + unfold item_eq, image. cbn [item_type]. rewrite (proj1 Fy), (proj1 D). cbn [veqb]. exists false. split; [reflexivity|]. split; discriminate.
    + unfold item_eq, image. cbn [item_type]. rewrite (proj1 D), (proj1 E). cbn [veqb]. destruct (dates_eq d e D E) as (b & Hb & Sb). exists b. split; [exact Hb|]. rewrite Sb.
      split; [intro H; rewrite H; reflexivity|]. intro H. exact (f_equal snd H).
  - apply time_is in X. subst x. apply differ. intro T. cbn [item_type] in T. destruct y as [|[]| | | | | | | | | |]; try discriminate Y; cbn [item_type] in T; destruct (mDateOnly d); discriminate T.
  - apply time_is in Y. subst y. apply differ. intro T. cbn [item_type] in T. destruct x as [|[]| | | | | | | | | |]; try discriminate X; cbn [item_type] in T; destruct (mDateOnly e); discriminate T.
  - apply item_decides; [destruct x; try assumption; discriminate X|destruct y; try assumption; discriminate Y].
Qed.
Definition fair_value (v : value) : Prop := match v with Single i => fair_item i | Multi _ l => Forall fair_item l end.
Lemma fair_value_decides : decides (value_eq tzo fl) value_image fair_value.
Proof.
  intros [i|t l] [j|u m] Sx Sy; cbn [value_eq value_image fair_value] in *.
  - destruct (fair_decides i j Sx Sy) as (b & B & Sb). exists b. split; [assumption|]. rewrite Sb. split; [intros ->; reflexivity|].
    intro H. pose proof (f_equal snd H) as H'. cbn [snd] in H'. exact (f_equal (hd (image i)) H').
  - exists false. split; [reflexivity|]. split; discriminate.
  - exists false. split; [reflexivity|]. split; discriminate.
  - destruct (elements_decide _ _ _ fair_decides l m Sx Sy) as (b & B & Sb). destruct (veqb t u) eqn:T.
    + apply veqb_iff in T. subst u. exists b. split; [assumption|]. rewrite Sb. split; [intros ->; reflexivity|]. intro H. exact (f_equal snd H).
    + exists false. split; [reflexivity|]. split; [discriminate|]. intro H. apply (f_equal fst) in H. cbn [fst] in H. injection H as H. apply veqb_iff in H. congruence.
Qed.
Definition fair_prop (p : prop) : Prop := NoDup (map fst (pParams p)) /\ match pValue p with Some v => fair_value v | None => True end.
Lemma fair_prop_decide p q : fair_prop p -> fair_prop q -> exists b, prop_eq tzo fl p q = Ok b /\ (b = true <-> same_image p q).
Proof.
  destruct p as [n ps v], q as [m qs w]. intros [Np Vp] [Nq Vq]. unfold prop_eq, same_image. cbn [pName pParams pValue] in *.
  destruct (beq_case n m) as [[-> ->]|[N ->]].
  2:{ exists false. split; [reflexivity|]. split; [discriminate|]. intros [H _]. contradiction. }
  destruct (params_decide ps qs Np Nq) as (b & B & Sb).
  assert (X : exists c, match v, w with Some a, Some b => value_eq tzo fl a b | None, None => Ok true | _, _ => Ok false end = Ok c /\
    (c = true <-> option_map value_image v = option_map value_image w)).
  { destruct v as [v|], w as [w|]; cbn [option_map].
    - destruct (fair_value_decides v w Vp Vq) as (c & C & Sc). exists c. split; [assumption|]. rewrite Sc. split; [intros ->; reflexivity|intro H; injection H; auto].
    - exists false. split; [reflexivity|]. split; discriminate.
    - exists false. split; [reflexivity|]. split; discriminate.
    - exists true. split; [reflexivity|]. tauto. }
  destruct X as (c & -> & Sc). cbn [rbind]. destruct c.
  - exists b. split; [assumption|]. rewrite Sb. split; [intro H; split; [reflexivity|split; [apply Sc; reflexivity|assumption]]|intros (_ & _ & H); assumption].
  - exists false. split; [reflexivity|]. split; [discriminate|]. intros (_ & H & _). apply Sc in H. discriminate.
Qed.
Lemma fair_eq p q : fair_prop p -> fair_prop q -> (prop_eq tzo fl p q = Ok true <-> same_image p q).
Proof.
  intros P Q. destruct (fair_prop_decide p q P Q) as (b & B & Sb). rewrite B, <- Sb. split; [intro H; apply Ok_inj in H; assumption|intros ->; reflexivity].
Qed.
Lemma fair_like i j : fair_item i -> fair_item j -> item_type i = item_type j -> like_items i j.
Proof.
  intros Fi Fj T. destruct i, j; cbn [fair_item simple_item like_items item_type] in *; try exact I; try contradiction. destruct Fi as [Ui Fi], Fj as [Uj Fj].
  split; [exact Ui|]. split; [exact Uj|]. destruct Fi as [[Di Ti]|Fi], Fj as [[Dj Tj]|Fj].
  - right. right. unfold fixed_time, floating. rewrite Ti, Tj. repeat split; assumption.
  - exfalso. rewrite Di, (proj1 Fj) in T. discriminate.
  - exfalso. rewrite Dj, (proj1 Fi) in T. discriminate.
  - left. split; assumption.
Qed.
End Fair.

Lemma texts_eqb l : forall m, (Nat.eqb (List.length l) (List.length m) && forallb (fun p => beq (fst p) (snd p)) (combine l m))%bool = true <-> l = m.
Proof.
  induction l as [|x l IH]; intros [|y m]; cbn [List.length Nat.eqb combine forallb fst snd andb]; try (split; (discriminate || reflexivity)).
  specialize (IH m). destruct (beq_case x y) as [[-> ->]|[N ->]].
  - cbn [andb]. rewrite IH. split; [intros ->; reflexivity|intro H; injection H; auto].
  - cbn [andb]. rewrite andb_false_r. split; [discriminate|]. intro H. injection H as H _. contradiction.
Qed.
Lemma nested_eqb_iff a b : nested_eqb a b = true <-> a = b.
Proof.
  destruct a as [s|l], b as [t|m]; cbn [nested_eqb]; try (split; discriminate).
  - rewrite beq_eq. split; [intros ->; reflexivity|intro H; injection H; auto].
  - rewrite texts_eqb. split; [intros ->; reflexivity|intro H; injection H; auto].
Qed.
Lemma parts_eqb_iff l : forall m, parts_eqb l m = true <-> l = m.
Proof.
  unfold parts_eqb. induction l as [|x l IH]; intros [|y m]; cbn [List.length Nat.eqb combine forallb fst snd andb]; try (split; (discriminate || reflexivity)).
  specialize (IH m). destruct (nested_eqb x y) eqn:N.
  - apply nested_eqb_iff in N. subst y. cbn [andb]. rewrite IH. split; [intros ->; reflexivity|intro H; injection H; auto].
  - cbn [andb]. rewrite andb_false_r. split; [discriminate|]. intro H. injection H as H _. apply nested_eqb_iff in H. congruence.
Qed.
Lemma nstr_inj l : forall m, map NStr l = map NStr m -> l = m.
Proof. induction l as [|x l IH]; intros [|y m] H; try discriminate; [reflexivity|]. injection H as -> H. f_equal. auto. Qed.

Section Cards.
Variable tzo : tzid -> Z -> Z -> Z -> Z -> Z -> Z -> bool -> bool -> Z.
Variable fl : floats.
Variable fhash : pyfloat -> Z.
Hypothesis Fh : floats_hash fl fhash.
Notation ceq := (cprop_eq tzo fl).
Notation ckey := (cprop_key tzo fhash).

Definition cimage (i : citem) : option (vtype * list (option bytes) * list Z) * ctype * list TextModel.nested :=
  match i with
  | CItem i => (Some (image i), CT (item_type i), [])
  | CAdr l => (None, CT_ADR, l)
  | CName l => (None, CT_N, l)
  | COrg l => (None, CT_ORG, map NStr l)
  end.
Lemma citem_decides : decides (citem_eq tzo fl) cimage fair_citem.
Proof.
  intros [i|l|l|l] [j|m|m|m] Sx Sy; cbn [citem_eq cimage fair_citem] in *; try (exists false; split; [reflexivity|split; discriminate]).
  - destruct (fair_decides tzo fl i j Sx Sy) as (b & B & Sb). exists b. split; [exact B|]. rewrite Sb. split.
    + intro H. pose proof (f_equal (fun t => fst (fst t)) H) as T. cbn [fst image] in T. unfold image in T. cbn [fst] in T. rewrite H, T. reflexivity.
    + intro H. pose proof (f_equal (fun t => fst (fst t)) H) as T. cbn [fst] in T. injection T. unfold image. congruence.
  - eexists. split; [reflexivity|]. rewrite parts_eqb_iff. split; [intros ->; reflexivity|intro H; injection H; auto].
  - eexists. split; [reflexivity|]. rewrite parts_eqb_iff. split; [intros ->; reflexivity|intro H; injection H; auto].
  - eexists. split; [reflexivity|]. rewrite parts_eqb_iff. split; [intros ->; reflexivity|intro H; injection H; auto].
Qed.
Definition cvalue_image (v : cvalue) : option ctype * list (option (vtype * list (option bytes) * list Z) * ctype * list TextModel.nested) :=
  match v with CSingle i => (None, [cimage i]) | CMulti t l => (Some t, map cimage l) end.
Definition fair_cvalue (v : cvalue) : Prop := match v with CSingle i => fair_citem i | CMulti _ l => Forall fair_citem l end.
Lemma ctype_eqb_iff a b : ctype_eqb a b = true <-> a = b.
Proof.
  destruct a as [s| | | |], b as [t| | | |]; cbn [ctype_eqb]; try (split; (discriminate || reflexivity)). rewrite veqb_iff. split; [intros ->; reflexivity|intro H; injection H; auto].
Qed.
Lemma cvalue_decides : decides (cvalue_eq tzo fl) cvalue_image fair_cvalue.
Proof.
  intros [i|t l] [j|u m] Sx Sy; cbn [cvalue_eq cvalue_image fair_cvalue] in *.
  - destruct (citem_decides i j Sx Sy) as (b & B & Sb). exists b. split; [assumption|]. rewrite Sb. split; [intros ->; reflexivity|].
    intro H. pose proof (f_equal snd H) as H'. cbn [snd] in H'. exact (f_equal (hd (cimage i)) H').
  - exists false. split; [reflexivity|]. split; discriminate.
  - exists false. split; [reflexivity|]. split; discriminate.
  - destruct (elements_decide _ _ _ citem_decides l m Sx Sy) as (b & B & Sb). destruct (ctype_eqb t u) eqn:T.
    + apply ctype_eqb_iff in T. subst u. exists b. split; [assumption|]. rewrite Sb. split; [intros ->; reflexivity|]. intro H. exact (f_equal snd H).
    + exists false. split; [reflexivity|]. split; [discriminate|]. intro H. apply (f_equal fst) in H. cbn [fst] in H. injection H as H. apply ctype_eqb_iff in H. congruence.
Qed.
Definition csame (p q : cprop) : Prop :=
  cpName p = cpName q /\ option_map cvalue_image (cpValue p) = option_map cvalue_image (cpValue q) /\ forall k, params_image (cpParams p) k = params_image (cpParams q) k.
Lemma cprop_decide p q : card_stock tzo fhash p -> card_stock tzo fhash q -> exists b, ceq p q = Ok b /\ (b = true <-> csame p q).
Proof.
  destruct p as [g n ps v], q as [g' m qs w]. intros (Np & _ & Vp) (Nq & _ & Vq). unfold cprop_eq, csame. cbn [cpName cpParams cpValue] in *.
  destruct (beq_case n m) as [[-> ->]|[N ->]].
  2:{ exists false. split; [reflexivity|]. split; [discriminate|]. intros [H _]. contradiction. }
  destruct (params_decide ps qs Np Nq) as (b & B & Sb).
  assert (X : exists c, match v, w with Some a, Some b => cvalue_eq tzo fl a b | None, None => Ok true | _, _ => Ok false end = Ok c /\
    (c = true <-> option_map cvalue_image v = option_map cvalue_image w)).
  { destruct v as [v|], w as [w|]; cbn [option_map].
    - destruct (cvalue_decides v w) as (c & C & Sc); [destruct v; assumption|destruct w; assumption|]. exists c. split; [assumption|]. rewrite Sc.
      split; [intros ->; reflexivity|intro H; injection H; auto].
    - exists false. split; [reflexivity|]. split; discriminate.
    - exists false. split; [reflexivity|]. split; discriminate.
    - exists true. split; [reflexivity|]. tauto. }
  destruct X as (c & -> & Sc). cbn [rbind]. destruct c.
  - exists b. split; [assumption|]. rewrite Sb. split; [intro H; split; [reflexivity|split; [apply Sc; reflexivity|assumption]]|intros (_ & _ & H); assumption].
  - exists false. split; [reflexivity|]. split; [discriminate|]. intros (_ & H & _). apply Sc in H. discriminate.
Qed.
Lemma cprop_same p q : card_stock tzo fhash p -> card_stock tzo fhash q -> (ceq p q = Ok true <-> csame p q).
Proof.
  intros P Q. destruct (cprop_decide p q P Q) as (b & B & Sb). rewrite B, <- Sb. split; [intro H; apply Ok_inj in H; assumption|intros ->; reflexivity].
Qed.
Lemma cprop_refl p : card_stock tzo fhash p -> ceq p p = Ok true.
Proof. intro P. apply cprop_same; auto. repeat split. Qed.
Lemma cprop_sym p q : card_stock tzo fhash p -> card_stock tzo fhash q -> ceq p q = Ok true -> ceq q p = Ok true.
Proof. intros P Q. rewrite !cprop_same by assumption. intros (A & B & C). repeat split; auto. Qed.
Lemma cprop_trans p q r : card_stock tzo fhash p -> card_stock tzo fhash q -> card_stock tzo fhash r -> ceq p q = Ok true -> ceq q r = Ok true -> ceq p r = Ok true.
Proof.
  intros P Q R. rewrite !cprop_same by assumption. intros (A & B & C) (A' & B' & C'). split; [congruence|]. split; [congruence|]. intro k. rewrite C. apply C'.
Qed.

(** ** Keys of vCard properties *)
Lemma citems_key i j : fair_citem i -> fair_citem j -> citem_eq tzo fl i j = Ok true -> citem_key tzo fhash i = citem_key tzo fhash j.
Proof.
  destruct i as [i|l|l|l], j as [j|m|m|m]; cbn [fair_citem citem_eq]; intros Si Sj E; try discriminate E.
  - cbn [citem_key]. apply (items_key tzo fl fhash Fh); [apply fair_like; [exact Si|exact Sj|exact (eq_types _ _ _ _ E)]|exact E].
  - apply Ok_inj, parts_eqb_iff in E. subst. reflexivity.
  - apply Ok_inj, parts_eqb_iff in E. subst. reflexivity.
  - apply Ok_inj, parts_eqb_iff, nstr_inj in E. subst. reflexivity.
Qed.
Lemma cprops_key p q : card_stock tzo fhash p -> card_stock tzo fhash q -> cpGroup p = cpGroup q -> ceq p q = Ok true -> ckey p = ckey q.
Proof.
  intros (Np & _ & Vp) (Nq & _ & Vq) G E. unfold cprop_eq in E. destruct (beq_case (cpName p) (cpName q)) as [[N B]|[_ B]]; rewrite B in E; [|discriminate E].
  unfold cprop_key. rewrite N, G.
  assert (V : match cpValue p with None => Ok HNone | Some v => cvalue_key tzo fhash v end = match cpValue q with None => Ok HNone | Some v => cvalue_key tzo fhash v end).
  { destruct (cpValue p) as [v|], (cpValue q) as [w|]; cbn [rbind] in E; try discriminate E; [|reflexivity].
    destruct (cvalue_eq tzo fl v w) as [[|]|] eqn:X; cbn [rbind] in E; try discriminate E. destruct v as [i|s l], w as [j|t m]; try discriminate X; cbn [cvalue_key cvalue_eq] in *.
    - apply citems_key; assumption.
    - destruct (ctype_eqb s t); [|discriminate X]. rewrite (lists_key (citem_eq tzo fl) (citem_key tzo fhash) l m); [reflexivity| |exact X].
      intros i j I J. rewrite Forall_forall in Vp, Vq. apply citems_key; auto. }
  rewrite V. destruct (match cpValue p, cpValue q with Some a, Some b => cvalue_eq tzo fl a b | None, None => Ok true | _, _ => Ok false end) as [[|]|]; cbn [rbind] in E; try discriminate E.
  rewrite (params_keys _ _ Np Nq E). reflexivity.
Qed.
Lemma key_group p q k : ckey p = Ok k -> ckey q = Ok k -> cpGroup p = cpGroup q.
Proof.
  unfold cprop_key. destruct (match cpValue p with None => Ok HNone | Some v => cvalue_key tzo fhash v end) as [v|]; cbn [rbind]; [|discriminate].
  destruct (match cpValue q with None => Ok HNone | Some v => cvalue_key tzo fhash v end) as [w|]; cbn [rbind]; [|discriminate]. intros A B. rewrite <- A in B. apply Ok_inj in B.
  assert (X : text_key (cpGroup q) = text_key (cpGroup p)) by (injection B as B _; exact B). destruct (cpGroup p), (cpGroup q); cbn in X; try discriminate X; [injection X as ->|]; reflexivity.
Qed.

Variable H : hkey -> Z.
Definition grouped (p q : cprop) : Prop := ceq p q = Ok true /\ cpGroup p = cpGroup q.
Lemma card_spec c d : (forall p, In p (card_props c ++ card_props d) -> card_stock tzo fhash p) -> no_accident tzo fhash H (card_props c ++ card_props d) ->
  exists b, card_eq tzo fl fhash H c d = Ok b /\ (b = true <-> all_found tzo fl c d /\ all_found tzo fl d c).
Proof.
  intros S N. unfold card_eq. fold (card_props c) (card_props d). set (l := card_props c ++ card_props d) in *.
  pose (U := fun p => In p l). assert (KO : forall p, U p -> exists k, ckey p = Ok k) by (intros p P; apply (S p P)).
  destruct (set_eq_spec (cprop_hash tzo fhash H) ceq U grouped) with (l := card_props c) (m := card_props d) as (b & B & Sb).
  - intros p P. destruct (KO p P) as [k K]. unfold cprop_hash. rewrite K. cbn [rbind]. eauto.
  - intros p q P Q. destruct (cprop_decide p q (S p P) (S q Q)) as (b & B & _). eauto.
  - intros p q P Q. destruct (KO p P) as [k K]. destruct (KO q Q) as [m M]. unfold cprop_hash, grouped. rewrite K, M. cbn [rbind]. split.
    + intros [E G]. pose proof (cprops_key p q (S p P) (S q Q) G E) as X. rewrite K, M in X. apply Ok_inj in X. subst m. split; [reflexivity|]. apply cprop_sym; auto.
    + intros [E G]. split; [apply cprop_sym; auto|]. apply Ok_inj in E. symmetry in E. pose proof (N p q k m P Q K M E). subst m. eapply key_group; eassumption.
  - intros p P. split; [apply cprop_refl; auto|reflexivity].
  - intros p q P Q [E G]. split; [apply cprop_sym; auto|auto].
  - intros p q r P Q R [E G] [E' G']. split; [apply (cprop_trans p q r); auto|congruence].
  - intros p P. apply in_app_iff. left. exact P.
  - intros p P. apply in_app_iff. right. exact P.
  - exists b. split; [exact B|exact Sb].
Qed.
End Cards.

(** ** == of a card with itself, whatever the hashes are *)
Section Self.
Variable tzo : tzid -> Z -> Z -> Z -> Z -> Z -> Z -> bool -> bool -> Z.
Variable fl : floats.
Variable fhash : pyfloat -> Z.
Variable H : hkey -> Z.
Lemma card_self c : (forall p, In p (card_props c) -> card_stock tzo fhash p) -> card_eq tzo fl fhash H c c = Ok true.
Proof.
  intro S. unfold card_eq. fold (card_props c). pose (U := fun p => In p (card_props c)).
  destruct (set_eq_spec (cprop_hash tzo fhash H) (cprop_eq tzo fl) U (fun p q => cprop_hash tzo fhash H q = cprop_hash tzo fhash H p /\ cprop_eq tzo fl q p = Ok true))
    with (l := card_props c) (m := card_props c) as (b & B & Sb).
  - intros p P. destruct (S p P) as (_ & [k K] & _). unfold cprop_hash. rewrite K. cbn [rbind]. eauto.
  - intros p q P Q. destruct (cprop_decide tzo fl fhash p q (S p P) (S q Q)) as (b & B & _). eauto.
  - tauto.
  - intros p P. split; [reflexivity|]. apply (cprop_refl tzo fl fhash); auto.
  - intros p q P Q [E G]. split; [auto|]. apply (cprop_sym tzo fl fhash); auto.
  - intros p q r P Q R [E G] [E' G']. split; [congruence|]. apply (cprop_trans tzo fl fhash r q p); auto.
  - intros p P. exact P.
  - intros p P. exact P.
  - rewrite B. f_equal. apply Sb. split; intros p P; exists p; (split; [exact P|]); (split; [reflexivity|]); apply (cprop_refl tzo fl fhash); auto.
Qed.
(** ** Components *)
Hypothesis Fh : floats_hash fl fhash.
Definition hash_or_0 (p : prop) : Z := match prop_hash tzo fhash H p with Ok h => h | Raise _ => 0 end.
Lemma stock_fair p : hash_stock tzo fhash p -> fair_prop p.
Proof. intros (N & _ & V). split; [exact N|]. destruct (pValue p) as [[i|t l]|]; exact V. Qed.
Lemma stock_regular : regular tzo fl hash_or_0 (hash_stock tzo fhash).
Proof.
  split; [|split; [|split; [|split]]].
  - intros p q P Q. destruct (fair_prop_decide tzo fl p q (stock_fair p P) (stock_fair q Q)) as (b & B & _). eauto.
  - intros p P. apply fair_eq; auto using stock_fair. repeat split.
  - intros p q P Q. rewrite !fair_eq by auto using stock_fair. intros (A & B & C). repeat split; auto.
  - intros p q r P Q R. rewrite !fair_eq by auto using stock_fair. intros (A & B & C) (A' & B' & C'). split; [congruence|]. split; [congruence|]. intro k. rewrite C. apply C'.
  - intros p q P Q E. unfold hash_or_0, prop_hash.
    destruct P as (Np & _ & Vp), Q as (Nq & _ & Vq). rewrite (props_key tzo fl fhash Fh p q Np Nq); [reflexivity| |exact E]. clear E Np Nq.
    destruct (pValue p) as [[i|s l]|], (pValue q) as [[j|t m]|]; cbn [like_values]; try exact I.
    + apply fair_like; assumption.
    + intros i j Hi Hj. rewrite Forall_forall in Vp, Vq. apply fair_like; auto.
Qed.
End Self.
