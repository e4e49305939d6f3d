(** Proofs about component trees: the orders in which properties and sub-components are written. *)
From Coq Require Import Lia ZifyBool ZifyNat Sorted.
From Verif Require Import PyBase PyProofs ParserCtx TextModel LineModel LineSpec LineProofs RecurModel RecurTextProofs2
  PropertyModel PropertySpec PropertyProofs PropertyProofs3 ComponentModel ComponentSpec.
Ltac Zify.zify_post_hook ::= Z.div_mod_to_equations.

(** ** Property names. *)
Lemma existsb_beq x l : existsb (beq x) l = true <-> In x l.
Proof.
  rewrite existsb_exists. split.
  - intros (y & I & E). destruct (beq_case x y) as [[-> _]|[_ E']]; [assumption|congruence].
  - intro I. exists x. split; [assumption|apply beq_refl].
Qed.
Lemma remove_key_perm x l : In x l -> Permutation (x :: remove_key x l) l.
Proof.
  induction l as [|y l IH]; [contradiction|]. intros I. cbn [remove_key]. destruct (beq_case y x) as [[-> ->]|[N ->]].
  - reflexivity.
  - destruct I as [->|I]; [congruence|]. rewrite perm_swap. constructor. apply IH; assumption.
Qed.
Lemma remove_key_sub x y l : In y (remove_key x l) -> In y l.
Proof.
  induction l as [|z l IH]; cbn [remove_key]; [auto|]. destruct (beq z x); [right; assumption|].
  intros [->|I]; [left; reflexivity|right; auto].
Qed.
Lemma remove_key_keep x y l : y <> x -> (In y (remove_key x l) <-> In y l).
Proof.
  intro N. split; [apply remove_key_sub|]. induction l as [|z l IH]; [auto|]. cbn [remove_key].
  destruct (beq_case z x) as [[-> ->]|[Nz ->]]; intros [->|I]; [congruence|assumption|left; reflexivity|right; auto].
Qed.
Lemma remove_key_order x l : in_order (fun y => y) l -> in_order (fun y => y) (remove_key x l).
Proof.
  induction 1 as [|y l H L IH]; [constructor|]. cbn [remove_key]. destruct (beq y x); [assumption|].
  constructor; [|assumption]. rewrite Forall_forall in *. intros z I. apply H. eapply remove_key_sub; exact I.
Qed.

Lemma keys_in_order_spec order : forall keys, NoDup order -> NoDup keys -> in_order (fun y => y) keys ->
  exists rest, keys_in_order order keys = filter (fun n => existsb (beq n) keys) order ++ rest /\
    in_order (fun y => y) rest /\ (forall n, In n rest <-> In n keys /\ ~ In n order) /\
    Permutation (keys_in_order order keys) keys.
Proof.
  induction order as [|s order IH]; intros keys No Nk Ho; cbn [keys_in_order filter].
  - exists keys. repeat split; auto; tauto.
  - inversion No as [|? ? N1 N2]; subst. destruct (existsb (beq s) keys) eqn:E.
    + apply existsb_beq in E. pose proof (remove_key_perm s keys E) as P.
      assert (Nr : NoDup (s :: remove_key s keys)) by (eapply Permutation_NoDup; [symmetry; exact P|assumption]).
      inversion Nr as [|? ? R1 R2]; subst.
      destruct (IH (remove_key s keys)) as (rest & E1 & O1 & I1 & P1); [assumption|assumption|apply remove_key_order; assumption|].
      exists rest. rewrite E1. split; [|split; [assumption|split]].
      * cbn [app]. f_equal. f_equal. apply filter_ext_in. intros a Ia. apply Bool.eq_iff_eq_true. rewrite !existsb_beq.
        apply remove_key_keep. intros ->. contradiction.
      * intro n. rewrite I1. split.
        -- intros [H1 H2]. pose proof (remove_key_sub _ _ _ H1). split; [assumption|]. intros [->|H3]; [contradiction|tauto].
        -- intros [H1 H2]. split; [|intro; apply H2; right; assumption].
           apply remove_key_keep; [intros ->; apply H2; left; reflexivity|assumption].
      * rewrite <- E1, P1. exact P.
    + destruct (IH keys) as (rest & E1 & O1 & I1 & P1); [assumption|assumption|assumption|].
      exists rest. rewrite E1. split; [reflexivity|]. split; [assumption|]. split; [|rewrite <- E1; assumption].
      intro n. rewrite I1. assert (~ In s keys) by (intro H; apply existsb_beq in H; congruence).
      split; [intros [H1 H2]; split; [assumption|]; intros [->|H3]; contradiction|].
      intros [H1 H2]; split; [assumption|]. intro; apply H2; right; assumption.
Qed.

Lemma order_NoDup k : NoDup (sortedPropertyKeyOrder k).
Proof.
  destruct k; cbn [sortedPropertyKeyOrder]; repeat constructor; cbn [In]; intros H;
    repeat match type of H with _ \/ _ => destruct H as [H|H] end; try discriminate; contradiction.
Qed.

(** ** Sorting sub-components. *)
Section Stable.
Context {A : Type}.
Variable lt : A -> A -> bool.
Definition calm (l : list A) : Prop := forall a x y b, l = a ++ x :: y :: b -> lt y x = false.
Lemma calm_cons x l : calm (x :: l) <-> (match l with y :: _ => lt y x = false | [] => True end) /\ calm l.
Proof.
  split.
  - intro H. split; [destruct l as [|y l]; [exact I|apply (H [] x y l); reflexivity]|].
    intros a u v b ->. apply (H (x :: a) u v b). reflexivity.
  - intros [H1 H2] [|z a] u v b E; injection E as -> ->; [exact H1|]. apply (H2 a u v b). reflexivity.
Qed.
Lemma calm_id l : calm l -> isort lt l = l.
Proof.
  induction l as [|x l IH]; intro H; [reflexivity|]. apply calm_cons in H as [H1 H2]. cbn [isort]. rewrite IH by assumption.
  destruct l as [|y l]; [reflexivity|]. cbn [insert]. rewrite H1. reflexivity.
Qed.
Hypothesis asym : forall x y, lt x y = true -> lt y x = false.
Lemma insert_calm x l : calm l -> calm (insert lt x l).
Proof.
  induction l as [|y l IH]; intro H; cbn [insert]; [apply calm_cons; split; [exact I|]; intros [|? [|]] ? ? ? E; discriminate|].
  destruct (lt y x) eqn:E.
  - apply calm_cons in H as [H1 H2]. apply calm_cons. split; [|apply IH; assumption].
    destruct l as [|z l]; cbn [insert]; [apply asym; assumption|]. destruct (lt z x); [assumption|apply asym; assumption].
  - apply calm_cons. split; assumption.
Qed.
Lemma isort_calm l : calm (isort lt l).
Proof. induction l as [|x l IH]; [intros [|? [|]] ? ? ? E; discriminate|]. cbn [isort]. apply insert_calm; assumption. Qed.
Lemma isort_idem l : isort lt (isort lt l) = isort lt l.
Proof. apply calm_id, isort_calm. Qed.

Lemma insert_left x l r : (forall y, In y r -> lt y x = false) -> insert lt x (l ++ r) = insert lt x l ++ r.
Proof.
  intro H. induction l as [|y l IH]; cbn [app insert].
  - destruct r as [|y r]; [reflexivity|]. cbn [insert]. rewrite (H y) by (left; reflexivity). reflexivity.
  - destruct (lt y x); [rewrite IH|]; reflexivity.
Qed.
Lemma insert_right x l r : (forall y, In y l -> lt y x = true) -> insert lt x (l ++ r) = l ++ insert lt x r.
Proof.
  intro H. induction l as [|y l IH]; cbn [app insert]; [reflexivity|]. rewrite (H y) by (left; reflexivity).
  rewrite IH; [reflexivity|]. intros z I; apply H; right; assumption.
Qed.
Lemma isort_in x l : In x (isort lt l) <-> In x l.
Proof.
  split; intro H.
  - eapply Permutation_in; [symmetry; apply isort_perm|exact H].
  - eapply Permutation_in; [apply isort_perm|exact H].
Qed.
Lemma isort_split (P : A -> bool) l : (forall x y, In x l -> In y l -> P x = true -> P y = false -> lt x y = true) ->
  isort lt l = isort lt (filter P l) ++ isort lt (filter (fun x => negb (P x)) l).
Proof.
  induction l as [|x l IH]; intro H; [reflexivity|]. cbn [isort filter].
  rewrite IH by (intros; apply H; auto; right; assumption). destruct (P x) eqn:E; cbn [negb isort].
  - apply insert_left. intros y I. apply isort_in, filter_In in I. destruct I as [I K]. apply asym.
    apply H; [left; reflexivity|right; assumption|assumption|]. destruct (P y); [discriminate|reflexivity].
  - apply insert_right. intros y I. apply isort_in, filter_In in I. destruct I as [I K].
    apply H; [right; assumption|left; reflexivity|assumption|assumption].
Qed.
(** Elements that are equal keep their order. *)
Lemma isort_filter (P : A -> bool) l : (forall x y, P x = true -> P y = true -> lt x y = false) ->
  filter P (isort lt l) = filter P l.
Proof.
  intros H. induction l as [|x l IH]; [reflexivity|]. cbn [isort filter]. rewrite <- IH. clear IH.
  induction (isort lt l) as [|y m IH]; cbn [insert filter]; [destruct (P x); reflexivity|].
  destruct (lt y x) eqn:E; [|cbn [filter]; reflexivity]. cbn [filter]. rewrite IH. destruct (P x) eqn:Px, (P y) eqn:Py; try reflexivity.
  rewrite (H y x Py Px) in E. discriminate.
Qed.
End Stable.

Lemma insert_ext {A} (lt lt' : A -> A -> bool) x l : (forall y, In y l -> lt y x = lt' y x) -> insert lt x l = insert lt' x l.
Proof.
  induction l as [|y l IH]; intro H; [reflexivity|]. cbn [insert]. rewrite (H y) by (left; reflexivity).
  destruct (lt' y x); [rewrite IH|]; try reflexivity. intros z I; apply H; right; assumption.
Qed.
Lemma isort_ext {A} (lt lt' : A -> A -> bool) l : (forall x y, In x l -> In y l -> lt x y = lt' x y) -> isort lt l = isort lt' l.
Proof.
  induction l as [|x l IH]; intro H; [reflexivity|]. cbn [isort]. rewrite IH by (intros; apply H; right; assumption).
  apply insert_ext. intros y I. apply isort_in in I. apply H; [right; assumption|left; reflexivity].
Qed.
Lemma insert_map {A B} (f : A -> B) lt x l : insert lt (f x) (map f l) = map f (insert (fun a b => lt (f a) (f b)) x l).
Proof. induction l as [|y l IH]; [reflexivity|]. cbn [map insert]. destruct (lt (f y) (f x)); [rewrite IH|]; reflexivity. Qed.
Lemma isort_map {A B} (f : A -> B) lt l : isort lt (map f l) = map f (isort (fun a b => lt (f a) (f b)) l).
Proof. induction l as [|x l IH]; [reflexivity|]. cbn [map isort]. rewrite IH. apply insert_map. Qed.

Lemma key_irr a : key_lt a a = false.
Proof. destruct a; cbn [key_lt]; [reflexivity|lia|]. rewrite ble_refl; reflexivity. Qed.
Lemma key_asym a b : key_lt a b = true -> key_lt b a = false.
Proof.
  destruct a, b; cbn [key_lt]; try discriminate; try reflexivity; [lia|].
  intros H. destruct (ble s0 s) eqn:E; [discriminate|]. rewrite (ble_total _ _ E). reflexivity.
Qed.
Lemma key_tot a b : key_lt a b = false -> key_lt b a = false -> a = b.
Proof.
  destruct a, b; cbn [key_lt]; try discriminate; try reflexivity; intros H1 H2.
  - f_equal; lia.
  - f_equal. apply ble_antisym; [destruct (ble s s0)|destruct (ble s0 s)]; try reflexivity; discriminate.
Qed.
Lemma key_tr a b c : key_lt a b = true -> key_lt b c = true -> key_lt a c = true.
Proof.
  destruct a, b, c; cbn [key_lt]; try discriminate; try reflexivity; [lia|]. intros H1 H2.
  destruct (ble s1 s) eqn:E; [|reflexivity]. destruct (ble s0 s) eqn:E1; [discriminate|]. destruct (ble s1 s0) eqn:E2; [discriminate|].
  apply ble_total in E1. rewrite (ble_trans _ _ _ E E1) in E2. discriminate.
Qed.
Lemma keys_irr a : keys_lt a a = false.
Proof. induction a as [|x a IH]; [reflexivity|]. cbn [keys_lt]. rewrite key_irr. assumption. Qed.
Lemma keys_asym a : forall b, keys_lt a b = true -> keys_lt b a = false.
Proof.
  induction a as [|x a IH]; intros [|y b]; cbn [keys_lt]; try discriminate; try reflexivity.
  destruct (key_lt x y) eqn:E1; [rewrite (key_asym _ _ E1); reflexivity|]. destruct (key_lt y x); [discriminate|apply IH].
Qed.
Lemma keys_tot a : forall b, keys_lt a b = false -> keys_lt b a = false -> a = b.
Proof.
  induction a as [|x a IH]; intros [|y b]; cbn [keys_lt]; try discriminate; try reflexivity.
  destruct (key_lt x y) eqn:E1; [discriminate|]. destruct (key_lt y x) eqn:E2; [discriminate|].
  intros H1 H2. rewrite (key_tot _ _ E1 E2), (IH _ H1 H2). reflexivity.
Qed.
Lemma keys_tr a : forall b c, keys_lt a b = true -> keys_lt b c = true -> keys_lt a c = true.
Proof.
  induction a as [|x a IH]; intros [|y b] [|z c]; cbn [keys_lt]; try discriminate; try reflexivity.
  destruct (key_lt x y) eqn:E1; destruct (key_lt y z) eqn:E2.
  - rewrite (key_tr _ _ _ E1 E2). reflexivity.
  - destruct (key_lt z y) eqn:E3; [discriminate|]. rewrite <- (key_tot _ _ E2 E3), E1. reflexivity.
  - destruct (key_lt y x) eqn:E3; [discriminate|]. rewrite (key_tot _ _ E1 E3), E2. reflexivity.
  - destruct (key_lt y x) eqn:E3; [discriminate|]. destruct (key_lt z y) eqn:E4; [discriminate|].
    rewrite (key_tot _ _ E1 E3), E2, E4. apply IH.
Qed.

Lemma place_nonneg names t : 0 <= place names t.
Proof. induction names as [|n r IH]; cbn [place]; [lia|]. destruct (beq t n); lia. Qed.
Lemma named_first_rank {A} (of : A -> comp) (names : list bytes) : NoDup names -> forall l,
  named_first of names (by_keys of (fun c => [KStr (upper_type c); KStr (getSortKey c)])) l =
  by_keys of (fun c => [KInt (place names (upper_type c)); KStr (upper_type c); KStr (getSortKey c)]) l.
Proof.
  induction names as [|n names IH]; intros N l.
  - cbn [named_first place]. unfold by_keys. apply isort_ext. intros x y _ _. cbn [keys_lt key_lt].
    rewrite Z.ltb_irrefl. reflexivity.
  - inversion N as [|? ? N1 N2]; subst. cbn [named_first]. rewrite IH by assumption. unfold by_keys.
    rewrite (isort_split _ (fun x y => keys_asym _ _) (fun a => beq (upper_type (of a)) n) l).
    + f_equal; apply isort_ext; intros x y Ix Iy; apply filter_In in Ix; apply filter_In in Iy; destruct Ix as [_ Ex], Iy as [_ Ey].
      * cbn [place]. rewrite Ex, Ey. destruct (beq_case (upper_type (of x)) n) as [[E1 _]|[_ E1]]; [|congruence].
        destruct (beq_case (upper_type (of y)) n) as [[E2 _]|[_ E2]]; [|congruence]. rewrite E1, E2. cbn [keys_lt].
        rewrite !key_irr. reflexivity.
      * cbn [place]. destruct (beq (upper_type (of x)) n); [discriminate|]. destruct (beq (upper_type (of y)) n); [discriminate|].
        cbn [keys_lt key_lt].
        replace (1 + place names (upper_type (of x)) <? 1 + place names (upper_type (of y))) with
          (place names (upper_type (of x)) <? place names (upper_type (of y))) by lia.
        replace (1 + place names (upper_type (of y)) <? 1 + place names (upper_type (of x))) with
          (place names (upper_type (of y)) <? place names (upper_type (of x))) by lia. reflexivity.
    + intros x y _ _ Ex Ey. cbn [place]. rewrite Ex, Ey. cbn [keys_lt key_lt]. pose proof (place_nonneg names (upper_type (of y))).
      destruct (Z.ltb_spec 0 (1 + place names (upper_type (of y)))); [reflexivity|lia].
Qed.
Lemma calendar_NoDup : NoDup calendar_order.
Proof. unfold calendar_order. repeat constructor; cbn [In]; intros H; repeat match type of H with _ \/ _ => destruct H as [H|H] end; try discriminate; contradiction. Qed.
Lemma sorted_rank {A} (of : A -> comp) k l : sortedComponents of k l = by_keys of (rank k) l.
Proof.
  destruct k; try reflexivity.
  - exact (named_first_rank of calendar_order calendar_NoDup l).
  - cbn [sortedComponents sortedComponentNames named_first rank]. unfold by_keys. symmetry. apply calm_id.
    intros a x y b _. reflexivity.
Qed.

Lemma ble_lt s : forall t, text_lt s t <-> ble t s = false.
Proof.
  induction s as [|c s IH]; intros [|d t]; cbn [ble]; split; intro H; try discriminate; try (inversion H; fail); try apply tl_nil; try reflexivity.
  - inversion H as [|? ? ? ? L|? ? ? L]; subst.
    + destruct (Nat.ltb_spec (nat_of_ascii d) (nat_of_ascii c)); [lia|]. destruct (Nat.ltb_spec (nat_of_ascii c) (nat_of_ascii d)); [reflexivity|lia].
    + rewrite Nat.ltb_irrefl. apply IH; assumption.
  - destruct (Nat.ltb_spec (nat_of_ascii d) (nat_of_ascii c)); [discriminate|].
    destruct (Nat.ltb_spec (nat_of_ascii c) (nat_of_ascii d)); [apply tl_head; assumption|].
    assert (E : nat_of_ascii c = nat_of_ascii d) by lia. apply (f_equal ascii_of_nat) in E. rewrite !ascii_nat_embedding in E. subst d.
    apply tl_tail, IH; assumption.
Qed.
Lemma key_val a b : key_lt a b = true <-> val_lt a b.
Proof.
  split.
  - destruct a, b; cbn [key_lt]; try discriminate; try (intros; constructor; fail); intro H; constructor; [lia|].
    apply ble_lt. destruct (ble s0 s); [discriminate|reflexivity].
  - destruct 1 as [| |m n H| |s t H]; cbn [key_lt]; try reflexivity; [lia|]. apply ble_lt in H. rewrite H. reflexivity.
Qed.
Lemma keys_rank a : forall b, keys_lt a b = true <-> rank_lt a b.
Proof.
  induction a as [|x a IH]; intros [|y b]; cbn [keys_lt]; split; intro H; try discriminate; try (inversion H; fail); try apply rl_nil; try reflexivity.
  - destruct (key_lt x y) eqn:E1; [apply rl_head, key_val; assumption|]. destruct (key_lt y x) eqn:E2; [discriminate|].
    rewrite (key_tot _ _ E1 E2). apply rl_tail, IH; assumption.
  - inversion H as [|? ? ? ? L|? ? ? L]; subst.
    + apply key_val in L. rewrite L. reflexivity.
    + rewrite key_irr. apply IH; assumption.
Qed.

Lemma sorted_all {A} (lt : A -> A -> bool) : (forall x y, lt x y = true -> lt y x = false) ->
  (forall x y z, lt y x = false -> lt z y = false -> lt z x = false) ->
  forall l a x b y c, isort lt l = a ++ x :: b ++ y :: c -> lt y x = false.
Proof.
  intros asym tr l a x b y c E.
  assert (H : calm lt (x :: b ++ y :: c)).
  { intros a' u v b' E'. apply (isort_calm lt asym l (a ++ a') u v b'). rewrite E, E', <- app_assoc. reflexivity. }
  clear E. revert x H. induction b as [|z b IH]; intros x H; cbn [app] in H; apply calm_cons in H as [H1 H2]; [assumption|].
  specialize (IH z H2). eapply tr; eassumption.
Qed.
Lemma keys_le_tr a b c : keys_lt b a = false -> keys_lt c b = false -> keys_lt c a = false.
Proof.
  intros H1 H2. destruct (keys_lt c a) eqn:E; [|reflexivity]. destruct (keys_lt a b) eqn:F.
  - rewrite (keys_tr _ _ _ E F) in H2. discriminate.
  - rewrite (keys_tot _ _ F H1) in E. congruence.
Qed.

Lemma components_sorted k l r : r = sortedComponents (fun c => c) k l ->
  Permutation r l /\
  (forall a x b y c, r = a ++ x :: b ++ y :: c -> ~ rank_lt (rank k y) (rank k x)) /\
  (forall P, (forall x y, P x = true -> P y = true -> rank k x = rank k y) -> filter P r = filter P l).
Proof.
  intros ->. rewrite sorted_rank. unfold by_keys. split; [symmetry; apply isort_perm|]. split.
  - intros a x b y c E. rewrite <- keys_rank. apply Bool.not_true_iff_false.
    apply (sorted_all (fun a b => keys_lt (rank k a) (rank k b)) (fun x y => keys_asym _ _) (fun x y z => keys_le_tr _ _ _) l a x b y c E).
  - intros P H. apply isort_filter. intros x y Hx Hy. rewrite (H x y Hx Hy). apply keys_irr.
Qed.
