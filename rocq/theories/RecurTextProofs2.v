(** Equality of rules, JSON round trip, and what the parser accepts. *)
From Coq Require Import Lia ZifyBool ZifyNat Permutation Sorting.Sorted.
From Verif Require Import PyBase PyProofs DateTimeModel DateTimeSpec DateTimeSpec2 DateTimeText DateTimeTextProofs.
From Verif Require Import RecurModel RecurSpec RecurTextProofs.
Ltac Zify.zify_post_hook ::= Z.div_mod_to_equations.

(** ** Sorting *)
Section SortP.
Variable A : Type.
Variable lt : A -> A -> bool.
Hypothesis lt_irr : forall x, lt x x = false.
Hypothesis lt_tr : forall x y z, lt x y = true -> lt y z = true -> lt x z = true.
Hypothesis lt_tot : forall x y, lt x y = false -> lt y x = false -> x = y.
Let le x y := lt y x = false.

Lemma insert_perm x l : Permutation (x :: l) (insert lt x l).
Proof.
  induction l as [|y l IH]; cbn; [reflexivity|]. destruct (lt y x); [|reflexivity].
  rewrite perm_swap. constructor. exact IH.
Qed.
Lemma isort_perm l : Permutation l (isort lt l).
Proof. induction l as [|x l IH]; cbn; [constructor|]. rewrite <- insert_perm. constructor. exact IH. Qed.
Lemma le_tr x y z : le x y -> le y z -> le x z.
Proof.
  unfold le. intros H1 H2. destruct (lt z x) eqn:E; auto.
  destruct (lt x y) eqn:F.
  - rewrite (lt_tr z x y E F) in H2. discriminate.
  - rewrite (lt_tot x y F H1) in E. congruence.
Qed.
Lemma insert_sorted x l : StronglySorted le l -> StronglySorted le (insert lt x l).
Proof.
  induction l as [|y l IH]; cbn; intro S; [repeat constructor|].
  inversion S as [|? ? S' F]; subst. destruct (lt y x) eqn:E.
  - constructor; [auto|]. apply Forall_forall. intros z Hz.
    apply (Permutation_in _ (Permutation_sym (insert_perm x l))) in Hz. destruct Hz as [<-|Hz].
    + unfold le. destruct (lt x y) eqn:G; auto. rewrite <- (lt_irr x). symmetry. eapply lt_tr; eauto.
    + rewrite Forall_forall in F. auto.
  - constructor; [exact S|]. constructor; [exact E|]. apply Forall_forall. intros z Hz. rewrite Forall_forall in F.
    eapply le_tr; [exact E|]. auto.
Qed.
Lemma isort_sorted l : StronglySorted le (isort lt l).
Proof. induction l; cbn; [constructor|]. apply insert_sorted. assumption. Qed.
Lemma sorted_perm_eq l1 l2 : StronglySorted le l1 -> StronglySorted le l2 -> Permutation l1 l2 -> l1 = l2.
Proof.
  revert l2; induction l1 as [|x l1 IH]; intros l2 S1 S2 P.
  - apply Permutation_nil in P. auto.
  - destruct l2 as [|y l2]; [apply Permutation_sym, Permutation_nil in P; discriminate|].
    inversion S1 as [|? ? S1' F1]; subst. inversion S2 as [|? ? S2' F2]; subst. rewrite Forall_forall in F1, F2.
    assert (E : x = y).
    { assert (Hx : In x (y :: l2)) by (eapply Permutation_in; [exact P|left; reflexivity]).
      assert (Hy : In y (x :: l1)) by (eapply Permutation_in; [exact (Permutation_sym P)|left; reflexivity]).
      destruct Hx as [->|Hx]; [reflexivity|]. destruct Hy as [->|Hy]; [reflexivity|].
      apply lt_tot; [apply (F2 x Hx)|apply (F1 y Hy)]. }
    subst y. f_equal. apply IH; auto. eapply Permutation_cons_inv; exact P.
Qed.
Lemma isort_eq l1 l2 : isort lt l1 = isort lt l2 <-> Permutation l1 l2.
Proof.
  split; intro H.
  - etransitivity; [apply isort_perm|]. rewrite H. apply Permutation_sym, isort_perm.
  - apply sorted_perm_eq; try apply isort_sorted. etransitivity; [apply Permutation_sym, isort_perm|].
    etransitivity; [exact H|apply isort_perm].
Qed.

Variable eqb : A -> A -> bool.
Hypothesis eqb_eq : forall x y, eqb x y = true <-> x = y.
Lemma list_eqb_eq l1 : forall l2, list_eqb eqb l1 l2 = true <-> l1 = l2.
Proof.
  induction l1 as [|x l1 IH]; destruct l2 as [|y l2]; cbn; try (split; congruence).
  rewrite andb_true_iff, eqb_eq, IH. split; [intros [-> ->]; reflexivity|intro H; injection H; auto].
Qed.
Lemma equalsList_spec a b : equalsList lt eqb a b = true <-> same_values a b.
Proof.
  unfold equalsList, same_values, elems. set (l1 := match a with Some l => l | None => [] end).
  set (l2 := match b with Some l => l | None => [] end). clearbody l1 l2.
  destruct (Nat.eqb_spec (List.length l1) (List.length l2)) as [E|E]; cbn [negb].
  - destruct (Nat.eqb_spec (List.length l1) 0) as [Z0|Z0].
    + destruct l1; [|discriminate]. destruct l2; [|discriminate]. split; auto.
    + rewrite list_eqb_eq. apply isort_eq.
  - split; [discriminate|]. intro P. apply Permutation_length in P. congruence.
Qed.
End SortP.

Lemma equalsNum_spec a b : equalsNum a b = true <-> same_values a b.
Proof. apply equalsList_spec; intros; lia. Qed.
Lemma equalsDayNum_spec a b : equalsDayNum a b = true <-> same_values a b.
Proof.
  apply equalsList_spec; unfold day_lt, day_eqb; intros; repeat match goal with p : (Z * Z)%type |- _ => destruct p end; cbn [fst snd] in *;
    try lia.
  - f_equal; lia.
  - split; [intro H; f_equal; lia|]. intro H. injection H as -> ->. lia.
Qed.

(** ** Equality of rules *)
Section Eq.
Variable tzo : tzid -> Z -> Z -> Z -> Z -> Z -> Z -> bool -> bool -> Z.

Lemma pycmp_refl a : pycmp a a = 0.
Proof. unfold pycmp. rewrite Z.ltb_irrefl, Z.eqb_refl. reflexivity. Qed.
Lemma until_eq_said d : until_ok d -> dt_eq tzo d (said d) = Ok true.
Proof.
  intros [_ Z0]. unfold dt_eq, compareDateTime. destruct (mDateOnly d) eqn:D.
  - cbn [orb rbind]. unfold cmp_date, said. rewrite D. cbn [mYear mMonth mDay newDate]. rewrite !pycmp_refl. reflexivity.
  - unfold said. rewrite D. cbn [orb mDateOnly newDateTime mTZUTC mTZID].
    replace (tz_same (mTZUTC d) (mTZID d) (mTZUTC d) _) with true.
    + cbn [rbind]. unfold cmp_fields, cmp_date. cbn [mYear mMonth mDay mHours mMinutes mSeconds newDateTime].
      rewrite !pycmp_refl. reflexivity.
    + specialize (Z0 eq_refl). unfold tz_same, is_float. destruct (mTZUTC d) eqn:U; cbn; [reflexivity|].
      specialize (Z0 eq_refl). destruct (mTZID d); cbn; try reflexivity; rewrite ?orb_true_r; try reflexivity.
      exfalso; eapply Z0; reflexivity.
Qed.

Lemma freq_eqb_eq a b : freq_eqb a b = true <-> a = b.
Proof. destruct a, b; cbn; split; congruence. Qed.
Lemma rule_equals_spec a b u : until_eq tzo (rUntil a) (rUntil b) = Ok u ->
  exists v, rule_equals tzo a b = Ok v /\ (v = true <-> same_rule a b /\ u = true).
Proof.
  intro HU. unfold rule_equals, same_rule. rewrite HU. cbn [rbind].
  destruct (freq_eqb (rFreq a) (rFreq b) && Bool.eqb (rUseCount a) (rUseCount b) && (rCount a =? rCount b) &&
     Bool.eqb (rUseUntil a) (rUseUntil b)) eqn:E.
  - apply andb_prop in E as [E E4]. apply andb_prop in E as [E E3]. apply andb_prop in E as [E1 E2].
    apply freq_eqb_eq in E1. apply Bool.eqb_prop in E2, E4. eexists; split; [reflexivity|].
    rewrite !andb_true_iff, !equalsNum_spec, equalsDayNum_spec. assert (rCount a = rCount b) by lia.
    rewrite !Z.eqb_eq. tauto.
  - eexists; split; [reflexivity|]. split; [discriminate|]. intros [(E1 & E2 & E3 & E4 & _) _]. exfalso.
    rewrite E1, E2, E3, E4 in E. rewrite !Bool.eqb_reflx, Z.eqb_refl in E.
    replace (freq_eqb (rFreq b) (rFreq b)) with true in E by (destruct (rFreq b); reflexivity). discriminate.
Qed.
Lemma same_nonempty {A} (l : option (list A)) : same_values l (nonempty l).
Proof. destruct l as [[|x l]|]; cbn; apply Permutation_refl. Qed.
Lemma canon_equal r : rule_ok r -> rule_equals tzo r (canon r) = Ok true.
Proof.
  intros (_ & _ & U).
  destruct (rule_equals_spec r (canon r) true) as (v & -> & H).
  - cbn [canon rUntil]. destruct (rUntil r) as [d|]; cbn; [apply until_eq_said; exact U|reflexivity].
  - f_equal. apply H. split; [|reflexivity]. unfold same_rule; cbn. repeat (split; [reflexivity || apply same_nonempty|]). apply same_nonempty.
Qed.
End Eq.

(** ** The text of the canonical rule *)
Lemma getText_said d : until_ok d -> getText (said d) = getText d.
Proof.
  intros [_ Z0]. unfold getText, said. destruct (mDateOnly d) eqn:D; [reflexivity|].
  cbn. destruct (mTZUTC d) eqn:U; [reflexivity|]. specialize (Z0 eq_refl eq_refl).
  destruct (mTZID d); try reflexivity.
Qed.
Lemma genlist_nonempty {A} t (f : A -> bytes) l : generateList t (option_map (map f) (nonempty l)) = generateList t (option_map (map f) l).
Proof. destruct l as [[|x l]|]; reflexivity. Qed.
Lemma generate_canon r : rule_ok r -> rule_generate (canon r) = rule_generate r.
Proof.
  intros (_ & _ & U). unfold rule_generate, num_texts, day_texts. cbn [canon rFreq rUseCount rCount rUseUntil rUntil rInterval rBySeconds rByMinutes
    rByHours rByDay rByMonthDay rByYearDay rByWeekNo rByMonth rBySetPos rWeekstart].
  rewrite !genlist_nonempty. destruct (rUntil r) as [d|]; [|reflexivity]. cbn [option_map]. rewrite getText_said by exact U. reflexivity.
Qed.

(** ** JSON *)
Lemma remove_app c a b : remove_char c (a ++ b) = remove_char c a ++ remove_char c b.
Proof. apply filter_app. Qed.
Lemma remove_none c s : cin c s = false -> remove_char c s = s.
Proof.
  induction s as [|x s IH]; cbn; auto. intro H. apply orb_false_iff in H as [-> H2]. cbn. f_equal. apply IH. exact H2.
Qed.
Lemma remove_digits c w n : 0 <= n -> is_digit c = false -> remove_char c (fmt0 w n) = fmt0 w n.
Proof. intros. apply remove_none, fmt0_cin; assumption. Qed.
Lemma xml_to_text d : until_ok d -> remove_char ":" (remove_char "-" (getXMLText d)) = getText d.
Proof.
  intros [(A & B & C & D & E & F) Z0]. unfold getXMLText, getText. destruct (mDateOnly d) eqn:DO.
  - repeat first [rewrite remove_app | rewrite remove_digits by (lia || reflexivity)]. reflexivity.
  - specialize (Z0 eq_refl). destruct (mTZUTC d) eqn:U; [|specialize (Z0 eq_refl); destruct (mTZID d); [| |exfalso; eapply Z0; reflexivity]];
    repeat first [rewrite remove_app | rewrite remove_digits by (lia || reflexivity)]; reflexivity.
Qed.

Definition lower_name (p : part) : bytes :=
  match p with
  | PFreq => lit "freq" | PUntil => lit "until" | PCount => lit "count" | PInterval => lit "interval"
  | PBySecond => lit "bysecond" | PByMinute => lit "byminute" | PByHour => lit "byhour" | PByDay => lit "byday"
  | PByMonthDay => lit "bymonthday" | PByYearDay => lit "byyearday" | PByWeekNo => lit "byweekno"
  | PByMonth => lit "bymonth" | PBySetPos => lit "bysetpos" | PWkst => lit "wkst"
  end.

Definition json_ok (jl : list (bytes * jval)) (pl : list (part * bytes)) : Prop :=
  mapr json_item jl = Ok (map tok pl).
Lemma mapr_app {A B} (f : A -> res B) a b : mapr f (a ++ b) = do x <- mapr f a; do y <- mapr f b; Ok (x ++ y).
Proof.
  induction a as [|x a IH]; cbn; [destruct (mapr f b); reflexivity|]. destruct (f x); [|reflexivity]. cbn. rewrite IH.
  destruct (mapr f a); [|reflexivity]. cbn. destruct (mapr f b); reflexivity.
Qed.
Lemma json_ok_app a b x y : json_ok a x -> json_ok b y -> json_ok (a ++ b) (x ++ y).
Proof. unfold json_ok. intros H1 H2. rewrite mapr_app, H1. cbn. rewrite H2. cbn. rewrite map_app. reflexivity. Qed.
Lemma json_ok_list p l : In p [PBySecond; PByMinute; PByHour; PByMonthDay; PByYearDay; PByWeekNo; PByMonth; PBySetPos] ->
  json_ok (json_list (lower_name p) l) (lpart p pystr l).
Proof.
  intro H. destruct l as [[|x l]|]; [reflexivity| |reflexivity]. unfold json_ok, json_list, lpart. cbn [mapr map].
  replace (json_item (lower_name p, JInts (x :: l))) with (Ok (tok (p, join_char "," (map pystr (x :: l))))); [reflexivity|].
  cbn in H. repeat (destruct H as [<-|H]; [reflexivity|]). contradiction.
Qed.

Lemma weekday_text_some w : 0 <= w <= 6 -> weekday_text w <> [].
Proof. intro H. destruct (wd_cases w H) as [->|[->|[->|[->|[->|[->| ->]]]]]]; discriminate. Qed.

Lemma json_parts r : rule_ok r -> exists jl, rule_json r = Ok jl /\ json_ok jl (parts r).
Proof.
  intros ((_ & _ & _ & _ & _ & _ & _ & _ & _ & _ & RW) & (L1 & L2 & L3) & U).
  assert (LJ : exists u, (if rUseCount r then Ok [(lit "count", JInt (rCount r))]
           else if rUseUntil r then
             match rUntil r with
             | Some d => Ok [(lit "until", JStr (getXMLText d))]
             | None => Raise AttributeError
             end
           else Ok []) = Ok u /\ json_ok u (limit_parts r)).
  { unfold limit_parts. destruct (rUseCount r); [eexists; split; reflexivity|].
    destruct (rUseUntil r) eqn:UU.
    - destruct (rUntil r) as [d|]; [|exfalso; apply L3; reflexivity]. eexists; split; [reflexivity|].
      unfold json_ok. cbn [mapr map]. unfold json_item. cbn [existsb]. 
      change (existsb (beq (lit "until")) json_list_names) with false. cbn [rbind].
      change (beq (lit "until") (lit "until")) with true. cbn [rbind]. rewrite xml_to_text by exact U. reflexivity.
    - eexists; split; [reflexivity|]. destruct (rUntil r); reflexivity. }
  destruct LJ as (u & EJ & LJ). unfold rule_json. rewrite EJ. cbn [rbind]. eexists; split; [reflexivity|].
  unfold parts. change (?a :: ?b) with ([a] ++ b).
  apply (json_ok_app [_] _ [_]). { destruct (rFreq r); reflexivity. }
  apply json_ok_app; [exact LJ|].
  apply json_ok_app. { destruct (1 <? rInterval r); reflexivity. }
  apply json_ok_app; [apply (json_ok_list PBySecond); cbn; tauto|].
  apply json_ok_app; [apply (json_ok_list PByMinute); cbn; tauto|].
  apply json_ok_app; [apply (json_ok_list PByHour); cbn; tauto|].
  apply json_ok_app. { destruct (rByDay r) as [[|x l]|]; reflexivity. }
  apply json_ok_app; [apply (json_ok_list PByMonthDay); cbn; tauto|].
  apply json_ok_app; [apply (json_ok_list PByYearDay); cbn; tauto|].
  apply json_ok_app; [apply (json_ok_list PByWeekNo); cbn; tauto|].
  apply json_ok_app; [apply (json_ok_list PByMonth); cbn; tauto|].
  apply json_ok_app; [apply (json_ok_list PBySetPos); cbn; tauto|].
  destruct (negb _); [|reflexivity]. pose proof (weekday_text_some _ RW) as N.
  destruct (weekday_text (rWeekstart r)) as [|c t] eqn:E; [congruence|].
  unfold json_ok. cbn [mapr map]. unfold json_item.
  change (existsb (beq (lit "wkst")) json_list_names) with false. change (beq (lit "wkst") (lit "until")) with false.
  cbn [rbind jval_str]. reflexivity.
Qed.
Lemma mapr_perm {A B} (f : A -> res B) l1 l2 ys : Permutation l1 l2 -> mapr f l1 = Ok ys ->
  exists zs, mapr f l2 = Ok zs /\ Permutation ys zs.
Proof.
  intro P. revert ys; induction P as [|x l l' P IH|x y l|l l' l'' P1 IH1 P2 IH2]; intros ys E; cbn in *.
  - injection E as <-. eexists; split; [reflexivity|constructor].
  - destruct (f x); [|discriminate]. cbn in *. destruct (mapr f l); [|discriminate]. cbn in *. injection E as <-.
    destruct (IH _ eq_refl) as (zs & -> & H). eexists; split; [reflexivity|constructor; exact H].
  - destruct (f y); [|discriminate]. cbn in *. destruct (f x); [|discriminate]. cbn in *. destruct (mapr f l); [|discriminate]. cbn in *.
    injection E as <-. eexists; split; [reflexivity|constructor].
  - destruct (IH1 _ E) as (zs & E1 & H1). destruct (IH2 _ E1) as (ws & E2 & H2). eexists; split; [exact E2|]. etransitivity; eauto.
Qed.
Theorem json_round_trip ctx r jl jl' : rule_ok r -> rule_json r = Ok jl -> Permutation jl jl' ->
  rule_parseJSON ctx jl' = Ok (canon r).
Proof.
  intros H E P. destruct (json_parts r H) as (jl0 & E0 & J). rewrite E0 in E. injection E as ->.
  destruct (mapr_perm _ _ _ _ P J) as (zs & Ez & Pz). unfold rule_parseJSON. rewrite Ez. cbn [rbind].
  apply any_order; [exact H|]. apply Permutation_sym. exact Pz.
Qed.
Lemma json_total r : rule_ok r -> exists jl, rule_json r = Ok jl.
Proof. intro H. destruct (json_parts r H) as (jl & E & _). eauto. Qed.

(** ** What is accepted *)
Section Accept.
Variable ctx : pctx.
Definition inv (r : rule) : Prop :=
  in_ranges r /\ limits_ok r.
Lemma parse_num_ok mn mx neg s n : parse_num mn mx neg s = Ok n ->
  (neg = false -> 0 <= n) /\ (forall m, mn = Some m -> m <= Z.abs n) /\ (forall m, mx = Some m -> Z.abs n <= m).
Proof.
  unfold parse_num. destruct (pyint s) as [k|]; cbn [rbind]; [|discriminate].
  destruct (negb neg && (k <? 0)) eqn:E; [discriminate|].
  destruct (match mn with Some _ => _ | None => _ end) eqn:F; [discriminate|].
  destruct (match mx with Some _ => _ | None => _ end) eqn:G; [discriminate|]. intro K; injection K as <-.
  repeat split; intros; subst; cbn in *; lia.
Qed.
Lemma assoc_wd s w : assoc s cWeekdayMap = Some w -> 0 <= w <= 6.
Proof. cbn. repeat match goal with |- context [if ?b then _ else _] => destruct b end; intro H; try discriminate; injection H as <-; lia. Qed.
Lemma parse_dw_ok s nw : parse_dw s = Ok nw -> Z.abs (fst nw) <= 53 /\ 0 <= snd nw <= 6.
Proof.
  unfold parse_dw. destruct (span_num s) as [ns rest].
  assert (K : forall n, match ns with
             | [] => Ok 0
             | _ => do n <- pyint ns;
                    if Z.abs n <? 1 then Raise ValueError
                    else if 53 <? Z.abs n then Raise ValueError
                    else Ok n
             end = Ok n -> Z.abs n <= 53).
  { intros n. destruct ns as [|c ns]; [intro H; injection H as <-; lia|]. destruct (pyint (c :: ns)) as [k|]; cbn [rbind]; [|discriminate].
    destruct (Z.abs k <? 1); [discriminate|]. destruct (53 <? Z.abs k) eqn:E53; [discriminate|]. intro H; injection H as <-. lia. }
  destruct (match ns with [] => _ | _ => _ end) as [n|x]; cbn [rbind]; [|discriminate].
  destruct (assoc rest cWeekdayMap) as [w|] eqn:E; [|discriminate]. intro H; injection H as <-. cbn [fst snd].
  split; [apply K; reflexivity|eapply assoc_wd; exact E].
Qed.
Lemma parseList_ok s mn mx neg l (P : Z -> Prop) : parseList s mn mx neg = Ok l ->
  (forall n, (neg = false -> 0 <= n) -> (forall m, mn = Some m -> m <= Z.abs n) -> (forall m, mx = Some m -> Z.abs n <= m) -> P n) ->
  Forall P l.
Proof.
  intros E H. eapply mapr_Forall; [|exact E]. intros x y K. apply parse_num_ok in K as (A & B & C). auto.
Qed.
Lemma parse_part_inv p v r r' : inv r -> parse_part ctx p v r = Ok r' -> inv r'.
Proof.
  intros ((R1 & R2 & R3 & R4 & R5 & R6 & R7 & R8 & R9 & R10 & R11) & (L1 & L2 & L3)) E.
  destruct p; cbn [parse_part] in E; unfold once in E.
  1: { destruct (assoc v cFreqMap) as [f|]; [|discriminate]. injection E as <-. repeat split; cbn; tauto. }
  1: { destruct (rUseCount r) eqn:C; [discriminate|]. destruct (dt_parse ctx false v _) as [d [u|]]; [|discriminate].
       injection E as <-. unfold inv, in_ranges, limits_ok; cbn. rewrite C. intuition; try discriminate; congruence. }
  1: { destruct (rUseUntil r) eqn:C; [discriminate|]. destruct (pyint v) as [n|]; cbn [rbind] in E; [|discriminate].
       destruct (Z.ltb_spec n 1); [discriminate|]. injection E as <-. unfold inv, in_ranges, limits_ok; cbn. rewrite C.
       intuition; try discriminate; lia. }
  1: { destruct (pyint v) as [n|]; cbn [rbind] in E; [|discriminate].
       destruct (Z.ltb_spec n 1); [discriminate|]. injection E as <-. unfold inv, in_ranges, limits_ok; cbn. intuition. }
  all: try match type of E with match ?o with Some _ => _ | None => _ end = _ => destruct o eqn:O; [try discriminate|try discriminate] end.
  all: try match type of E with (do l <- ?x; _) = _ => destruct x as [l|] eqn:P; [|discriminate]; cbn [rbind] in E; injection E as <- end.
  all: try (unfold inv, in_ranges, limits_ok; cbn; split; [|tauto]).
  all: try (assert (F : forall Q, (forall n, _ -> _ -> _ -> Q n) -> Forall Q l) by (intros Q HQ; eapply parseList_ok; [exact P|exact HQ])).
  1: assert (G : Forall (fun n => 0 <= n <= 60) l) by (eapply parseList_ok; [exact P|]; intros n A B C; specialize (A eq_refl); specialize (C _ eq_refl); lia).
  2: assert (G : Forall (fun n => 0 <= n <= 59) l) by (eapply parseList_ok; [exact P|]; intros n A B C; specialize (A eq_refl); specialize (C _ eq_refl); lia).
  3: assert (G : Forall (fun n => 0 <= n <= 23) l) by (eapply parseList_ok; [exact P|]; intros n A B C; specialize (A eq_refl); specialize (C _ eq_refl); lia).
  4: assert (G : Forall (fun nw : Z * Z => Z.abs (fst nw) <= 53 /\ 0 <= snd nw <= 6) l) by (eapply mapr_Forall; [|exact P]; intros x y K; eapply parse_dw_ok; exact K).
  5: assert (G : Forall (fun n => 1 <= Z.abs n <= 31) l) by (eapply parseList_ok; [exact P|]; intros n A B C; specialize (B _ eq_refl); specialize (C _ eq_refl); lia).
  6: assert (G : Forall (fun n => 1 <= Z.abs n <= 366) l) by (eapply parseList_ok; [exact P|]; intros n A B C; specialize (B _ eq_refl); specialize (C _ eq_refl); lia).
  7: assert (G : Forall (fun n => 1 <= Z.abs n <= 53) l) by (eapply parseList_ok; [exact P|]; intros n A B C; specialize (B _ eq_refl); specialize (C _ eq_refl); lia).
  8: assert (G : Forall (fun n => 1 <= n <= 12) l) by (eapply parseList_ok; [exact P|]; intros n A B C; specialize (A eq_refl); specialize (B _ eq_refl); specialize (C _ eq_refl); lia).
  1-9: tauto.
  injection E as <-. unfold inv, in_ranges, limits_ok; cbn. pose proof (assoc_wd _ _ O). tauto.
Qed.
Lemma parse_token_inv t r r' : inv r -> parse_token ctx t r = Ok r' -> inv r'.
Proof.
  intros H E. unfold parse_token in E. destruct (split_char "=" t) as [|n [|v [|? ?]]]; try discriminate.
  destruct (assoc n cRecurMap) as [p|]; [|discriminate]. eapply parse_part_inv; eauto.
Qed.
Lemma inv_init : inv rule_init.
Proof. unfold inv, in_ranges, limits_ok; cbn. intuition; try discriminate; congruence. Qed.
Theorem parse_inv s r : rule_parse ctx s = Ok r -> in_ranges r /\ limits_ok r.
Proof.
  unfold rule_parse. pose proof inv_init as H. revert H. generalize rule_init. induction (split_char ";" s) as [|t l IH]; intros r0 H0 E; cbn in E.
  - injection E as <-. exact H0.
  - destruct (parse_token ctx t r0) as [r1|] eqn:E1; [|discriminate]. cbn in E. eapply IH; [|exact E]. eapply parse_token_inv; eauto.
Qed.

(** No BY part twice. *)
Definition is_set (p : part) (r : rule) : bool :=
  match p with
  | PBySecond => match rBySeconds r with Some _ => true | None => false end
  | PByMinute => match rByMinutes r with Some _ => true | None => false end
  | PByHour => match rByHours r with Some _ => true | None => false end
  | PByDay => match rByDay r with Some _ => true | None => false end
  | PByMonthDay => match rByMonthDay r with Some _ => true | None => false end
  | PByYearDay => match rByYearDay r with Some _ => true | None => false end
  | PByWeekNo => match rByWeekNo r with Some _ => true | None => false end
  | PByMonth => match rByMonth r with Some _ => true | None => false end
  | PBySetPos => match rBySetPos r with Some _ => true | None => false end
  | _ => false
  end.
Definition is_by (p : part) : bool :=
  match p with PFreq | PUntil | PCount | PInterval | PWkst => false | _ => true end.
Lemma part_sets p q v r r' : parse_part ctx p v r = Ok r' -> is_set q r = true -> is_set q r' = true.
Proof.
  Local Opaque assoc.
  intros E S. destruct r as [fr uc ct uu ul iv bs bm bh bd bmd byd bwn bmo bsp ws].
  destruct p; cbn in E; unfold once in E;
  repeat match type of E with
    | context [assoc ?a ?b] => destruct (assoc a b); [|discriminate]
    | context [if ?x then _ else _] => destruct x; [discriminate|]
    | context [dt_parse ?a ?b ?c ?d] => destruct (dt_parse a b c d) as [? [?|?]]; [|discriminate]
    | context [match ?x with Some _ => Raise _ | None => _ end] => destruct x; [discriminate|]
    | (do _ <- ?x; _) = _ => destruct x; [|discriminate]; cbn [rbind] in E
    end; injection E as <-; destruct q; cbn in *; auto.
Qed.
Lemma part_set p v r r' : is_by p = true -> parse_part ctx p v r = Ok r' -> is_set p r = false /\ is_set p r' = true.
Proof.
  intros B E. destruct r as [fr uc ct uu ul iv bs bm bh bd bmd byd bwn bmo bsp ws].
  destruct p; try discriminate; cbn in E; unfold once in E;
  match type of E with context [match ?x with Some _ => Raise _ | None => _ end] => destruct x; [discriminate|] end;
  match type of E with (do _ <- ?x; _) = _ => destruct x; [|discriminate]; cbn [rbind] in E end; injection E as <-; split; reflexivity.
Qed.
Lemma tokens_split a b r r' : parse_tokens ctx (a ++ b) r = Ok r' -> exists r1, parse_tokens ctx a r = Ok r1 /\ parse_tokens ctx b r1 = Ok r'.
Proof.
  revert r; induction a as [|t a IH]; intros r E; cbn in *; [eauto|].
  destruct (parse_token ctx t r); [|discriminate]. cbn in *. auto.
Qed.
Lemma tokens_sets q l r r' : parse_tokens ctx l r = Ok r' -> is_set q r = true -> is_set q r' = true.
Proof.
  revert r; induction l as [|t l IH]; intros r E S; cbn in E; [injection E as <-; exact S|].
  destruct (parse_token ctx t r) as [r1|] eqn:E1; [|discriminate]. cbn in E. eapply IH; [exact E|].
  unfold parse_token in E1. destruct (split_char "=" t) as [|n [|v [|? ?]]]; try discriminate.
  destruct (assoc n cRecurMap) as [p|]; [|discriminate]. eapply part_sets; eauto.
Qed.
Lemma by_part n : In n by_names -> exists p, assoc n cRecurMap = Some p /\ is_by p = true /\ n = part_name p.
Proof.
  Local Transparent assoc.
  cbn. intros H. repeat (destruct H as [<-|H]; [eexists; split; [reflexivity|split; reflexivity]|]). contradiction.
Qed.
Theorem by_once s a b c n v w : In n by_names ->
  split_char ";" s = a ++ (n ++ "="%char :: v) :: b ++ (n ++ "="%char :: w) :: c -> rule_parse ctx s = Raise ValueError.
Proof.
  intros Hn Hs. destruct (rule_parse ctx s) as [r|e] eqn:E; [|f_equal; eapply rule_parse_err; exact E].
  exfalso. unfold rule_parse in E. rewrite Hs in E. apply tokens_split in E as (r1 & _ & E).
  destruct (by_part n Hn) as (p & Ap & Bp & ->).
  cbn [parse_tokens] in E. destruct (parse_token ctx _ r1) as [r2|] eqn:E2 in E; [|discriminate]. cbn [rbind] in E.
  apply tokens_split in E as (r3 & E3 & E). cbn [parse_tokens] in E.
  destruct (parse_token ctx _ r3) as [r4|] eqn:E4 in E; [|discriminate].
  unfold parse_token in E2, E4. rewrite split_char_app in E2, E4 by apply part_name_noeq.
  destruct (split_char "=" v) as [|v' [|? ?]]; try discriminate. destruct (split_char "=" w) as [|w' [|? ?]]; try discriminate.
  rewrite assoc_part in E2, E4. apply part_set in E2 as [_ S2]; [|exact Bp]. apply part_set in E4 as [S4 _]; [|exact Bp].
  rewrite (tokens_sets p _ _ _ E3 S2) in S4. discriminate.
Qed.
End Accept.

Lemma parse_total ctx s : (exists r, rule_parse ctx s = Ok r) \/ rule_parse ctx s = Raise ValueError.
Proof.
  destruct (rule_parse ctx s) as [r|e] eqn:E; [left; eauto|right]. f_equal. eapply rule_parse_err. exact E.
Qed.
