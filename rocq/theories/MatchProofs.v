(** Proofs for C86. *)
From Coq Require Import Lia ZifyBool.
From Verif Require Import LineProofs PyBase PyProofs DateTimeModel RecurModel RecurTextProofs2 PropertyModel PropertyProofs ComponentModel MatchModel MatchSpec.

Section Match.
Variable tzo : tzid -> Z -> Z -> Z -> Z -> Z -> Z -> bool -> bool -> Z.
Variable fl : floats.

(** ** removeProperty. *)
Lemma take_ok obj p l : forall i m, take_out tzo fl obj p i l = Ok m ->
  exists a x b, l = a ++ x :: b /\ m = a ++ b /\ (obj = Some (i + List.length a)%nat \/ prop_eq tzo fl x p = Ok true) /\
    Forall (fun y => prop_eq tzo fl y p = Ok false) a.
Proof.
  induction l as [|x l IH]; intros i m; cbn [take_out]; [discriminate|].
  destruct (match obj with Some j => Nat.eqb i j | None => false end) eqn:O.
  - intro H. injection H as <-. exists [], x, l. split; [reflexivity|]. split; [reflexivity|]. split; [|constructor]. left.
    destruct obj as [j|]; [|discriminate]. apply Nat.eqb_eq in O. subst. cbn. f_equal. lia.
  - unfold rbind. destruct (prop_eq tzo fl x p) as [[]|] eqn:E; [| |discriminate].
    + intro H. injection H as <-. exists [], x, l. split; [reflexivity|]. split; [reflexivity|]. split; [right; exact E|constructor].
    + destruct (take_out tzo fl obj p (S i) l) as [r|] eqn:T; [|discriminate]. intro H. injection H as <-.
      destruct (IH _ _ T) as (a & y & b & -> & -> & H & F). exists (x :: a), y, b. split; [reflexivity|]. split; [reflexivity|].
      split; [|constructor; assumption]. destruct H as [H|H]; [left|right; exact H]. rewrite H. f_equal. cbn [List.length]. lia.
Qed.
Lemma take_none obj p l : forall i, (forall y, In y l -> exists b, prop_eq tzo fl y p = Ok b) ->
  match take_out tzo fl obj p i l with
  | Ok _ => True
  | Raise e => e = ValueError /\ (forall j, obj = Some j -> (j < i)%nat \/ (i + List.length l <= j)%nat) /\ Forall (fun y => prop_eq tzo fl y p = Ok false) l
  end.
Proof.
  induction l as [|x l IH]; intros i D; cbn [take_out].
  - split; [reflexivity|]. split; [intros j _; cbn; lia|constructor].
  - destruct (match obj with Some j => Nat.eqb i j | None => false end) eqn:O; [exact I|].
    destruct (D x (or_introl eq_refl)) as [b E]. rewrite E. cbn [rbind]. destruct b; [exact I|].
    specialize (IH (S i) (fun y H => D y (or_intror H))). destruct (take_out tzo fl obj p (S i) l); [exact I|]. cbn [rbind]. destruct IH as (-> & J & F).
    split; [reflexivity|]. split; [|constructor; assumption]. intros j H. specialize (J j H). subst obj. apply Nat.eqb_neq in O. cbn [List.length]. lia.
Qed.

Lemma put_get key l ps k : In key (map fst ps) -> getProperties k (put_props key l ps) = if beq k key then l else getProperties k ps.
Proof.
  unfold getProperties. induction ps as [|[k' m] ps IH]; cbn [put_props PropertyModel.assoc map fst In]; [intros []|]. intro H.
  destruct (beq_case k' key) as [[-> E]|[N E]]; rewrite E; cbn [PropertyModel.assoc].
  - rewrite (beq_sym k key). destruct (beq key k); reflexivity.
  - destruct H as [H|H]; [congruence|]. specialize (IH H). destruct (beq_case k' k) as [[-> E']|[N' E']]; rewrite ?E'; [|exact IH].
    destruct (beq_case k key) as [[X _]|[_ ->]]; [congruence|reflexivity].
Qed.
Lemma put_has key l ps k : hasProperty k (put_props key l ps) = hasProperty k ps.
Proof.
  unfold hasProperty. induction ps as [|[k' m] ps IH]; cbn [put_props PropertyModel.assoc]; [reflexivity|].
  destruct (beq_case k' key) as [[-> E]|[N E]]; rewrite E; cbn [PropertyModel.assoc]; [destruct (beq key k); reflexivity|]. destruct (beq k' k); [reflexivity|exact IH].
Qed.
Lemma removed_assoc key ps k : NoDup (map fst ps) -> assoc k (removeProperties key ps) = if beq k key then None else assoc k ps.
Proof.
  induction ps as [|[k' m] ps IH]; cbn [removeProperties PropertyModel.assoc map fst]; intro N; [destruct (beq k key); reflexivity|]. inversion N as [|? ? NI N']; subst.
  destruct (beq_case k' key) as [[-> E]|[NK E]]; rewrite E; cbn [PropertyModel.assoc].
  - rewrite (beq_sym key k). destruct (beq_case k key) as [[-> ->]|[_ ->]]; [|reflexivity].
    destruct (assoc key ps) as [l|] eqn:A; [|reflexivity]. exfalso. apply NI. apply assoc_some in A. apply (in_map fst) in A. exact A.
  - rewrite IH by exact N'. destruct (beq_case k' k) as [[-> E']|[N2 E']]; rewrite ?E'; [|reflexivity]. destruct (beq_case k key) as [[X _]|[_ ->]]; [congruence|reflexivity].
Qed.
Lemma assoc_key {A} key (ps : list (bytes * A)) l : assoc key ps = Some l -> In key (map fst ps).
Proof. intro H. apply assoc_some in H. apply (in_map fst) in H. exact H. Qed.

Lemma remove_cases obj p ps m : dict_props ps ->
  let key := upper (pName p) in
  (match assoc key ps with Some l => take_out tzo fl obj p 0 l = Ok m | None => m = [] end) ->
  exists qs, removeProperty tzo fl obj p ps = Ok qs /\ getProperties key qs = m /\ (forall k, k <> key -> getProperties k qs = getProperties k ps) /\
    (hasProperty key qs = true <-> m <> []) /\ (assoc key ps = None -> qs = ps).
Proof.
  intros [N F] key H. unfold removeProperty. fold key. destruct (assoc key ps) as [l|] eqn:A.
  - rewrite H. cbn [rbind]. eexists. split; [reflexivity|]. destruct m as [|x m].
    + unfold getProperties, hasProperty. split; [|split; [|split; [|discriminate]]].
      * rewrite removed_assoc by exact N. rewrite (proj2 (beq_eq _ _) eq_refl). reflexivity.
      * intros k NK. rewrite removed_assoc by exact N. destruct (beq_case k key) as [[X _]|[_ ->]]; [contradiction|reflexivity].
      * rewrite removed_assoc by exact N. rewrite (proj2 (beq_eq _ _) eq_refl). split; [discriminate|congruence].
    + pose proof (assoc_key _ _ _ A) as K. split; [|split; [|split; [|discriminate]]].
      * rewrite put_get by exact K. rewrite (proj2 (beq_eq _ _) eq_refl). reflexivity.
      * intros k NK. rewrite put_get by exact K. destruct (beq_case k key) as [[X _]|[_ ->]]; [contradiction|reflexivity].
      * rewrite put_has. unfold hasProperty. rewrite A. split; [discriminate|reflexivity].
  - subst m. exists ps. split; [reflexivity|]. unfold getProperties, hasProperty. rewrite A. split; [reflexivity|]. split; [reflexivity|]. split; [split; [discriminate|congruence]|reflexivity].
Qed.

(** ** Added and removed. *)
Lemma take_last p l i : Forall (fun y => prop_eq tzo fl y p = Ok false) l ->
  take_out tzo fl (Some (i + List.length l)%nat) p i (l ++ [p]) = Ok l.
Proof.
  revert i. induction l as [|x l IH]; intros i F; cbn [app take_out List.length].
  - replace (i + 0)%nat with i by lia. rewrite Nat.eqb_refl. reflexivity.
  - inversion F as [|? ? E F']; subst. replace (Nat.eqb i (i + S (List.length l))) with false by (symmetry; apply Nat.eqb_neq; lia). rewrite E. cbn [rbind].
    replace (i + S (List.length l))%nat with (S i + List.length l)%nat by lia. rewrite IH by exact F'. reflexivity.
Qed.
Lemma added_assoc key p ps : assoc key (add_prop key p ps) = Some (getProperties key ps ++ [p]).
Proof.
  unfold getProperties. induction ps as [|[k' m] ps IH]; cbn [add_prop PropertyModel.assoc]; [rewrite (proj2 (beq_eq _ _) eq_refl); reflexivity|].
  destruct (beq k' key) eqn:E; cbn [PropertyModel.assoc]; rewrite E; [reflexivity|exact IH].
Qed.
Lemma added_put key p ps l : assoc key ps = Some l -> put_props key l (add_prop key p ps) = ps.
Proof.
  induction ps as [|[k' m] ps IH]; cbn [add_prop PropertyModel.assoc put_props]; [discriminate|]. destruct (beq k' key) eqn:E; cbn [put_props]; rewrite E.
  - intro H. injection H as <-. reflexivity.
  - intro H. rewrite (IH H). reflexivity.
Qed.
Lemma added_removed key p ps : assoc key ps = None -> removeProperties key (add_prop key p ps) = ps.
Proof.
  induction ps as [|[k' m] ps IH]; cbn [add_prop PropertyModel.assoc removeProperties]; [rewrite (proj2 (beq_eq _ _) eq_refl); reflexivity|].
  destruct (beq k' key) eqn:E; cbn [removeProperties]; [discriminate|]. rewrite E. intro H. rewrite (IH H). reflexivity.
Qed.
Lemma add_remove p ps : Forall (fun kl => snd kl <> []) ps ->
  let key := upper (pName p) in
  Forall (fun y => prop_eq tzo fl y p = Ok false) (getProperties key ps) ->
  removeProperty tzo fl (Some (List.length (getProperties key ps))) p (addProperty p ps) = Ok ps.
Proof.
  intros F key H. unfold removeProperty, addProperty. cbv zeta. fold key. rewrite added_assoc.
  change (List.length (getProperties key ps)) with (0 + List.length (getProperties key ps))%nat. rewrite (take_last p (getProperties key ps) 0 H). cbn [rbind]. f_equal. unfold getProperties. destruct (assoc key ps) as [[|x l]|] eqn:A.
  - exfalso. apply assoc_some in A. rewrite Forall_forall in F. apply (F _ A). reflexivity.
  - apply added_put. exact A.
  - apply added_removed. exact A.
Qed.

(** ** equalsRules. *)
Lemma pycmp_zero a b : pycmp a b = 0 <-> a = b.
Proof. unfold pycmp. repeat match goal with |- context [if ?b then _ else _] => destruct b eqn:? end; lia. Qed.
Lemma step_zero p q : (if p =? 0 then q else p) = 0 <-> p = 0 /\ q = 0.
Proof. destruct (Z.eqb_spec p 0); intuition. Qed.
Lemma fields_zero d e : cmp_fields d e = 0 <-> fields d = fields e.
Proof.
  unfold cmp_fields, cmp_date, fields. cbv zeta. rewrite !step_zero, !pycmp_zero. split.
  - intros ((-> & -> & ->) & -> & -> & ->). reflexivity.
  - intro K. injection K as A B C D E F. tauto.
Qed.
Lemma until_decide a b : until_utc a -> until_utc b ->
  exists u, until_eq tzo (rUntil a) (rUntil b) = Ok u /\ (u = true <-> option_map fields (rUntil a) = option_map fields (rUntil b)).
Proof.
  unfold until_utc, until_eq. destruct (rUntil a) as [d|], (rUntil b) as [e|]; intros A B; cbn [option_map].
  - destruct A as [A1 A2], B as [B1 B2]. unfold dt_eq, compareDateTime. rewrite A1, B1, A2, B2. cbn [orb]. 
    assert (T : tz_same true (mTZID d) true (mTZID e) = true) by (unfold tz_same; destruct (is_float true (mTZID d) || is_float true (mTZID e)); reflexivity).
    rewrite T. cbn [rbind]. eexists. split; [reflexivity|]. rewrite Z.eqb_eq, fields_zero. split; [intros ->; reflexivity|intro H; exact (f_equal (fun o => match o with Some x => x | None => fields d end) H)].
  - exists false. split; [reflexivity|]. split; discriminate.
  - exists false. split; [reflexivity|]. split; discriminate.
  - exists true. split; [reflexivity|]. split; reflexivity.
Qed.
Lemma rules_decide a b : until_utc a -> until_utc b -> exists v, rule_equals tzo a b = Ok v /\ (v = true <-> rules_same a b).
Proof.
  intros A B. destruct (until_decide a b A B) as (u & E & U). destruct (rule_equals_spec tzo a b u E) as (v & R & V). exists v. split; [exact R|].
  unfold rules_same. rewrite V, U. reflexivity.
Qed.
Lemma same_rule_sym a b : same_rule a b -> same_rule b a.
Proof. unfold same_rule, same_values. intros (A1&A2&A3&A4&A5&A6&A7&A8&A9&A10&A11&A12&A13&A14&A15). repeat split; symmetry; assumption. Qed.
Lemma same_rule_trans a b c : same_rule a b -> same_rule b c -> same_rule a c.
Proof.
  unfold same_rule, same_values. intros (A1&A2&A3&A4&A5&A6&A7&A8&A9&A10&A11&A12&A13&A14&A15) (B1&B2&B3&B4&B5&B6&B7&B8&B9&B10&B11&B12&B13&B14&B15).
  repeat split; etransitivity; eassumption.
Qed.
Lemma rules_sym a b : rules_same a b -> rules_same b a.
Proof. intros [A B]. split; [apply same_rule_sym; exact A|congruence]. Qed.
Lemma rules_trans a b c : rules_same a b -> rules_same b c -> rules_same a c.
Proof. intros [A B] [C D]. split; [eapply same_rule_trans; eassumption|congruence]. Qed.

Lemma remove_is r1 r2 pre t : until_utc r2 -> Forall until_utc pre -> rules_same r1 r2 -> Forall (fun x => ~ rules_same r1 x) pre ->
  remove_rule tzo r2 pre t = Ok (pre ++ t).
Proof.
  intros U2. induction pre as [|x pre IH]; intros U S N; [reflexivity|]. inversion U; subst. inversion N as [|? ? N1 N2]; subst. cbn [remove_rule].
  destruct (rules_decide x r2) as (v & -> & V); [assumption|assumption|]. cbn [rbind]. destruct v.
  - exfalso. apply N1. eapply rules_trans; [exact S|]. apply rules_sym. apply V. reflexivity.
  - rewrite IH by assumption. reflexivity.
Qed.
Lemma find_is r1 l : until_utc r1 -> Forall until_utc l -> forall pre, Forall until_utc pre -> Forall (fun x => ~ rules_same r1 x) pre ->
  (exists a x b, l = a ++ x :: b /\ rules_same r1 x /\ find_rule tzo r1 pre l = Ok (Some (pre ++ a ++ b))) \/
  (Forall (fun x => ~ rules_same r1 x) l /\ find_rule tzo r1 pre l = Ok None).
Proof.
  intros U1 U. induction U as [|r2 t U2 U IH]; intros pre P N; [right; split; [constructor|reflexivity]|]. cbn [find_rule].
  destruct (rules_decide r1 r2 U1 U2) as (v & -> & V). cbn [rbind]. destruct v.
  - left. exists [], r2, t. split; [reflexivity|]. assert (S : rules_same r1 r2) by (apply V; reflexivity). split; [exact S|].
    rewrite (remove_is r1 r2 pre t U2 P S N). reflexivity.
  - assert (S : ~ rules_same r1 r2) by (intro S; apply V in S; discriminate).
    destruct (IH (pre ++ [r2])) as [(a & x & b & -> & X & E)|[F E]]; [apply Forall_app; split; [exact P|repeat constructor; exact U2]|apply Forall_app; split; [exact N|repeat constructor; exact S]| |].
    + left. exists (r2 :: a), x, b. split; [reflexivity|]. split; [exact X|]. rewrite E, <- !app_assoc. reflexivity.
    + right. split; [constructor; assumption|exact E].
Qed.
Lemma match_is l1 : forall l2, Forall until_utc l1 -> Forall until_utc l2 -> List.length l1 = List.length l2 ->
  exists b, match_rules tzo l1 l2 = Ok b /\ (b = true <-> exists m, Permutation m l2 /\ Forall2 rules_same l1 m).
Proof.
  induction l1 as [|r1 l1 IH]; intros l2 U1 U2 L; cbn [match_rules].
  - exists true. split; [reflexivity|]. split; [|reflexivity]. intros _. destruct l2; [|discriminate]. exists []. split; constructor.
  - inversion U1 as [|? ? V1 U1']; subst. destruct (find_is r1 l2 V1 U2 [] (Forall_nil _) (Forall_nil _)) as [(a & x & b & -> & S & E)|[N E]]; rewrite E; cbn [rbind app].
    + apply Forall_app in U2. destruct U2 as [Ua Ub]. inversion Ub as [|? ? Ux Ub']; subst.
      destruct (IH (a ++ b)) as (v & -> & V); [assumption|apply Forall_app; split; assumption|rewrite app_length in *; cbn [List.length] in L; lia|].
      exists v. split; [reflexivity|]. rewrite V. split.
      * intros (m & P & F). exists (x :: m). split; [|constructor; assumption]. rewrite P. apply Permutation_middle.
      * intros (m & P & F). inversion F as [|? m0 ? m' S0 F']; subst.
        assert (I : In x (m0 :: m')) by (eapply Permutation_in; [symmetry; exact P|apply in_elt]). apply in_split in I. destruct I as (c & d & D).
        destruct c as [|c0 c].
        -- cbn in D. injection D as -> ->. exists d. split; [|exact F']. eapply Permutation_cons_app_inv. exact P.
        -- cbn in D. injection D as <- ->. exists (c ++ m0 :: d). split.
           ++ apply (Permutation_cons_inv (a := x)). etransitivity; [|etransitivity; [exact P|symmetry; apply Permutation_middle]].
              rewrite <- (Permutation_middle c d m0). rewrite <- (Permutation_middle c d x). apply perm_swap.
           ++ apply Forall2_app_inv_r in F'. destruct F' as (l & r & F1 & F2 & ->). inversion F2 as [|y ? r' ? S1 F3]; subst.
              apply Forall2_app; [exact F1|]. constructor; [|exact F3]. eapply rules_trans; [exact S1|]. eapply rules_trans; [apply rules_sym; exact S|exact S0].
    + exists false. split; [reflexivity|]. split; [discriminate|]. intros (m & P & F). exfalso. inversion F as [|? m0 ? m' S0 F']; subst.
      rewrite Forall_forall in N. apply (N m0); [eapply Permutation_in; [exact P|left; reflexivity]|exact S0].
Qed.
End Match.
