(** Proofs about equality of properties: simple values. *)
From Coq Require Import Lia.
From Verif Require Import PyBase PyProofs LineProofs DateTimeModel DurationModel PropertyModel PropertyProofs PropertyProofs3 ComponentModel
  ComponentProofs2 CalendarModel DupModel DupSpec.

(** A comparison that never raises and says whether two images are equal. *)
Definition decides {A B} (f : A -> A -> res bool) (img : A -> B) (P : A -> Prop) : Prop :=
  forall x y, P x -> P y -> exists b, f x y = Ok b /\ (b = true <-> img x = img y).
Lemma elements_decide {A B} (f : A -> A -> res bool) (img : A -> B) P : decides f img P ->
  decides (list_eq f) (map img) (Forall P).
Proof.
  intros D x. unfold list_eq. induction x as [|a x IH]; intros [|b y] Fx Fy; cbn [List.length Nat.eqb elements_eq map].
  - exists true. tauto.
  - exists false. split; [reflexivity|]. split; discriminate.
  - exists false. split; [reflexivity|]. split; discriminate.
  - inversion Fx as [|? ? Pa Px]; subst. inversion Fy as [|? ? Pb Py]; subst. destruct (D a b Pa Pb) as (c & C & Sc).
    destruct (IH y Px Py) as (d & E & Sd). destruct (Nat.eqb (List.length x) (List.length y)) eqn:L.
    + rewrite C. cbn [rbind]. destruct c.
      * exists d. split; [assumption|]. rewrite Sd. split; [intro H; f_equal; [apply Sc; reflexivity|assumption]|intro H; injection H; auto].
      * exists false. split; [reflexivity|]. split; [discriminate|]. intro H. injection H as H _. apply Sc in H. discriminate.
    + exists false. split; [reflexivity|]. split; [discriminate|]. intro H. injection H as _ H. apply Sd in H. subst d. discriminate.
Qed.
Lemma beq_decides : decides (fun u w : bytes => Ok (beq u w)) (fun u => u) (fun _ => True).
Proof. intros x y _ _. eexists. split; [reflexivity|]. split; [apply beq_eq|intros ->; apply beq_refl]. Qed.

(** Parameters. *)
Definition param_image (p : param) : bytes * list bytes := (upper (fst p), snd p).
Lemma param_decides : decides param_eq param_image (fun _ => True).
Proof.
  intros [n l] [m r] _ _. unfold param_eq, param_image. cbn [fst snd].
  assert (F : forall l : list bytes, Forall (fun _ => True) l) by (intro l0; induction l0; constructor; auto).
  destruct (elements_decide _ _ _ beq_decides l r (F l) (F r)) as (b & B & Sb). rewrite !map_id in Sb.
  destruct (beq_case (upper n) (upper m)) as [[E ->]|[N ->]].
  - exists b. split; [assumption|]. rewrite Sb, E. split; [intros ->; reflexivity|intro H; injection H; auto].
  - exists false. split; [reflexivity|]. split; [discriminate|]. intro H. injection H as H _. contradiction.
Qed.
Definition params_image (ps : params) (k : bytes) : option (list (bytes * list bytes)) := option_map (map param_image) (assoc k ps).
Lemma keys_decide qs ps : NoDup (map fst ps) -> exists b, keys_eq ps qs = Ok b /\
  (b = true <-> forall k, In k (map fst ps) -> params_image ps k = params_image qs k).
Proof.
  assert (F : forall l : list param, Forall (fun _ => True) l) by (intro l0; induction l0; constructor; auto).
  induction ps as [|[k l] ps IH]; intro N; cbn [keys_eq map fst] in *.
  - exists true. split; [reflexivity|]. split; [intros _ k []|reflexivity].
  - inversion N as [|? ? N1 N2]; subst. destruct (IH N2) as (b & B & Sb).
    assert (X : forall j, In j (map fst ps) -> params_image ((k, l) :: ps) j = params_image ps j).
    { intros j J. unfold params_image. cbn [assoc]. destruct (beq_case k j) as [[-> _]|[Q ->]]; [contradiction|reflexivity]. }
    assert (Y : params_image ((k, l) :: ps) k = Some (map param_image l)).
    { unfold params_image. cbn [assoc]. rewrite beq_refl. reflexivity. }
    unfold params_image at 2 in Sb. destruct (assoc k qs) as [l'|] eqn:A.
    + destruct (elements_decide _ _ _ param_decides l l' (F l) (F l')) as (c & C & Sc). rewrite C. cbn [rbind].
      assert (Z : params_image qs k = Some (map param_image l')) by (unfold params_image; rewrite A; reflexivity). destruct c.
      * exists b. split; [assumption|]. rewrite Sb. split.
        -- intros H j [<-|J]; [rewrite Y, Z; f_equal; apply Sc; reflexivity|]. rewrite X by assumption. apply H; assumption.
        -- intros H j J. rewrite <- X by assumption. apply H. right; assumption.
      * exists false. split; [reflexivity|]. split; [discriminate|]. intro H. specialize (H k (or_introl eq_refl)). rewrite Y, Z in H. injection H as H.
        apply Sc in H. discriminate.
    + exists false. split; [reflexivity|]. split; [discriminate|]. intro H. specialize (H k (or_introl eq_refl)). rewrite Y in H.
      unfold params_image in H. rewrite A in H. discriminate.
Qed.
Lemma assoc_key {A} k (l : list (bytes * A)) : In k (map fst l) <-> assoc k l <> None.
Proof.
  induction l as [|[j v] l IH]; cbn [map fst assoc In]; [tauto|]. destruct (beq_case j k) as [[-> ->]|[N ->]]; [split; [discriminate|left; reflexivity]|].
  rewrite IH. split; [intros [H|H]; [contradiction|assumption]|auto].
Qed.
Lemma params_decide ps qs : NoDup (map fst ps) -> NoDup (map fst qs) -> exists b, params_eq ps qs = Ok b /\
  (b = true <-> forall k, params_image ps k = params_image qs k).
Proof.
  intros Np Nq. unfold params_eq. assert (K : forall r k, In k (map fst r) <-> params_image r k <> None).
  { intros r k. rewrite assoc_key. unfold params_image. destruct (assoc k r); cbn [option_map]; [split; discriminate|tauto]. }
  assert (Inc : (forall k, params_image ps k = params_image qs k) -> incl (map fst qs) (map fst ps) /\ incl (map fst ps) (map fst qs)).
  { intro H. split; intros k I; apply K; apply K in I; [rewrite H|rewrite <- H]; assumption. }
  destruct (Nat.eqb_spec (List.length ps) (List.length qs)) as [L|L].
  - destruct (keys_decide qs ps Np) as (b & B & Sb). exists b. split; [assumption|]. rewrite Sb. split; [|auto].
    intros H k. destruct (in_dec (list_eq_dec ascii_dec) k (map fst ps)) as [I|I]; [apply H; assumption|].
    assert (I2 : incl (map fst qs) (map fst ps)).
    { apply NoDup_length_incl; [assumption|rewrite !map_length; lia|]. intros j J. apply K. rewrite <- (H j J). apply K. assumption. }
    assert (E1 : params_image ps k = None) by (destruct (params_image ps k) eqn:E; [exfalso; apply I, K; congruence|reflexivity]).
    assert (E2 : params_image qs k = None) by (destruct (params_image qs k) eqn:E; [exfalso; apply I, I2, K; congruence|reflexivity]).
    congruence.
  - exists false. split; [reflexivity|]. split; [discriminate|]. intro H. destruct (Inc H) as [I1 I2]. exfalso. apply L.
    rewrite <- (map_length fst ps), <- (map_length fst qs). apply Nat.le_antisymm; apply NoDup_incl_length; assumption.
Qed.

(** Values. *)
Section Values.
Variable tzo : tzid -> Z -> Z -> Z -> Z -> Z -> Z -> bool -> bool -> Z.
Variable fl : floats.
Definition image (i : item) : vtype * list (option bytes) * list Z :=
  (item_type i,
   match i with VText s => [Some s] | VPlain _ s | VUri s => [s] | VStatus l => map Some l | _ => [] end,
   match i with
   | VInteger n | VOffset n => [n]
   | VDuration d => [getTotalSeconds d]
   | VDateTime d => [mYear d; mMonth d; mDay d; mHours d; mMinutes d; mSeconds d]
   | _ => []
   end).
Lemma veqb_iff a b : veqb a b = true <-> a = b.
Proof. split; [destruct a, b; (reflexivity || discriminate)|intros ->; destruct b; reflexivity]. Qed.
Lemma text_eq_iff a b : text_eq a b = true <-> a = b.
Proof.
  destruct a as [a|], b as [b|]; cbn [text_eq]; try (split; discriminate || reflexivity).
  - split; [intro H; f_equal; apply beq_eq; assumption|intro H; injection H as ->; apply beq_refl].
Qed.
Lemma utc_eq x y : mDateOnly x = false /\ mTZUTC x = true -> mDateOnly y = false /\ mTZUTC y = true ->
  exists b, dt_eq tzo x y = Ok b /\ (b = true <-> [mYear x; mMonth x; mDay x; mHours x; mMinutes x; mSeconds x] = [mYear y; mMonth y; mDay y; mHours y; mMinutes y; mSeconds y]).
Proof.
  intros [Dx Ux] [Dy Uy]. unfold dt_eq, compareDateTime. rewrite Dx, Dy, Ux, Uy. cbn [orb tz_same andb].
  assert (E : tz_same true (mTZID x) true (mTZID y) = true) by reflexivity. rewrite E. cbn [rbind]. eexists. split; [reflexivity|].
  rewrite Z.eqb_eq. split.
  - intro H. apply DateTimeProofs4.cmp_fields_0 in H. destruct H as (Y & -> & -> & ->). unfold DateTimeSpec.ymd in Y. injection Y as -> -> ->. reflexivity.
  - intro H. injection H as H1 H2 H3 H4 H5 H6. unfold cmp_fields, cmp_date, pycmp. rewrite H1, H2, H3, H4, H5, H6, !Z.ltb_irrefl, !Z.eqb_refl. reflexivity.
Qed.
Lemma map_some_inj (a b : list bytes) : map Some a = map Some b -> a = b.
Proof. revert b. induction a as [|x a IH]; intros [|y b] H; try discriminate; [reflexivity|]. injection H as -> H. f_equal. auto. Qed.
Lemma item_decides : decides (item_eq tzo fl) image simple_item.
Proof.
  intros x y Sx Sy. unfold item_eq. destruct (veqb (item_type x) (item_type y)) eqn:T.
  2:{ exists false. split; [reflexivity|]. split; [discriminate|]. intro H. unfold image in H. injection H as H _ _. apply veqb_iff in H. congruence. }
  apply veqb_iff in T. unfold image. rewrite T.
  assert (F : forall l : list bytes, Forall (fun _ => True) l) by (intro l0; induction l0; constructor; auto).
  destruct x, y; cbn [simple_item] in Sx, Sy; try contradiction;
    try (exfalso; revert T; cbn [item_type]; try rewrite (proj1 Sx); try rewrite (proj1 Sy); repeat match goal with k : plain |- _ => destruct k end; discriminate).
  - eexists. split; [reflexivity|]. split; [intro H|intro H].
    + apply beq_eq in H. subst. reflexivity.
    + injection H as ->. apply beq_refl.
  - eexists. split; [reflexivity|]. rewrite text_eq_iff. split; [intros ->; reflexivity|intro H; injection H; auto].
  - eexists. split; [reflexivity|]. rewrite text_eq_iff. split; [intros ->; reflexivity|intro H; injection H; auto].
  - eexists. split; [reflexivity|]. rewrite Z.eqb_eq. split; [intros ->; reflexivity|intro H; injection H; auto].
  - eexists. split; [reflexivity|]. rewrite Z.eqb_eq. split; [intros ->; reflexivity|intro H; injection H; auto].
  - destruct (utc_eq d d0 Sx Sy) as (b & B & Sb). exists b. split; [assumption|]. rewrite Sb. split; [intros ->; reflexivity|].
    intro H. pose proof (f_equal snd H) as H'. exact H'.
  - eexists. split; [reflexivity|]. rewrite Z.eqb_eq. split; [intros ->; reflexivity|intro H; injection H; auto].
  - destruct (elements_decide _ _ _ beq_decides l l0 (F l) (F l0)) as (b & B & Sb). rewrite !map_id in Sb. exists b. split; [assumption|].
    rewrite Sb. split; [intros ->; reflexivity|]. intro H. pose proof (f_equal (fun t => snd (fst t)) H) as H'. cbn [fst snd] in H'. apply map_some_inj; assumption.
Qed.
Definition value_image (v : value) : option vtype * list (vtype * list (option bytes) * list Z) :=
  match v with Single i => (None, [image i]) | Multi t l => (Some t, map image l) end.
Definition simple_value (v : value) : Prop := match v with Single i => simple_item i | Multi _ l => Forall simple_item l end.
Lemma value_decides : decides (value_eq tzo fl) value_image simple_value.
Proof.
  intros [i|t l] [j|u m] Sx Sy; cbn [value_eq value_image simple_value] in *.
  - destruct (item_decides i j Sx Sy) as (b & B & Sb). exists b. split; [assumption|]. rewrite Sb. split; [intros ->; reflexivity|].
    intro H. pose proof (f_equal snd H) as H'. cbn [snd] in H'. pose proof (f_equal (hd (image i)) H') as H2. exact H2.
  - exists false. split; [reflexivity|]. split; discriminate.
  - exists false. split; [reflexivity|]. split; discriminate.
  - destruct (elements_decide _ _ _ item_decides l m Sx Sy) as (b & B & Sb). destruct (veqb t u) eqn:T.
    + apply veqb_iff in T. subst u. exists b. split; [assumption|]. rewrite Sb. split; [intros ->; reflexivity|]. intro H. exact (f_equal snd H).
    + exists false. split; [reflexivity|]. split; [discriminate|]. intro H. apply (f_equal fst) in H. cbn [fst] in H. injection H as H. apply veqb_iff in H. congruence.
Qed.
Definition same_image (p q : prop) : Prop :=
  pName p = pName q /\ option_map value_image (pValue p) = option_map value_image (pValue q) /\
  forall k, params_image (pParams p) k = params_image (pParams q) k.
Lemma prop_decide p q : simple_prop p -> simple_prop q -> exists b, prop_eq tzo fl p q = Ok b /\ (b = true <-> same_image p q).
Proof.
  destruct p as [n ps v], q as [m qs w]. intros [Np Vp] [Nq Vq]. unfold prop_eq, same_image. cbn [pName pParams pValue] in *.
  destruct (beq_case n m) as [[-> ->]|[N ->]].
  2:{ exists false. split; [reflexivity|]. split; [discriminate|]. intros [H _]. contradiction. }
  destruct (params_decide ps qs Np Nq) as (b & B & Sb).
  assert (X : exists c, match v, w with Some a, Some b => value_eq tzo fl a b | None, None => Ok true | _, _ => Ok false end = Ok c /\
    (c = true <-> option_map value_image v = option_map value_image w)).
  { destruct v as [v|], w as [w|]; cbn [option_map].
    - destruct (value_decides v w) as (c & C & Sc); [destruct v; assumption|destruct w; assumption|]. exists c. split; [assumption|]. rewrite Sc.
      split; [intros ->; reflexivity|intro H; injection H; auto].
    - exists false. split; [reflexivity|]. split; discriminate.
    - exists false. split; [reflexivity|]. split; discriminate.
    - exists true. split; [reflexivity|]. tauto. }
  destruct X as (c & -> & Sc). cbn [rbind]. destruct c.
  - exists b. split; [assumption|]. rewrite Sb. split; [intro H; split; [reflexivity|split; [apply Sc; reflexivity|assumption]]|intros (_ & _ & H); assumption].
  - exists false. split; [reflexivity|]. split; [discriminate|]. intros (_ & H & _). apply Sc in H. discriminate.
Qed.
Lemma simple_eq p q : simple_prop p -> simple_prop q -> (prop_eq tzo fl p q = Ok true <-> same_image p q).
Proof.
  intros P Q. destruct (prop_decide p q P Q) as (b & B & Sb). rewrite B, <- Sb. split; [intro H; apply Ok_inj in H; assumption|intros ->; reflexivity].
Qed.
Lemma simple_regular phash : (forall p q, simple_prop p -> simple_prop q -> prop_eq tzo fl p q = Ok true -> phash p = phash q) ->
  regular tzo fl phash simple_prop.
Proof.
  intro Hh. split; [|split; [|split; [|split]]].
  - intros p q P Q. destruct (prop_decide p q P Q) as (b & B & _). eauto.
  - intros p P. apply simple_eq; auto. repeat split.
  - intros p q P Q. rewrite !simple_eq by assumption. intros (A & B & C). repeat split; auto.
  - intros p q r P Q S. rewrite !simple_eq by assumption. intros (A & B & C) (A' & B' & C'). split; [congruence|]. split; [congruence|].
    intro k. rewrite C. apply C'.
  - exact Hh.
Qed.
End Values.
