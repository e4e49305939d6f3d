(** Proofs about hashes: equal objects have equal keys. *)
From Coq Require Import Lia Permutation.
From Verif Require Import PyBase PyProofs LineProofs DateTimeModel DateTimeProofs DateTimeProofs4 DurationModel PropertyModel PropertyProofs3 EqProofs2 HashModel HashSpec.

(** ** Parameters *)
Lemma param_key_image p q : param_image p = param_image q -> param_key p = param_key q.
Proof. unfold param_image, param_key. intro H. injection H as -> ->. reflexivity. Qed.
Lemma assoc_nodup {A} k (v : A) l : NoDup (map fst l) -> In (k, v) l -> assoc k l = Some v.
Proof.
  induction l as [|[j w] l IH]; intros N H; [destruct H|]. cbn [assoc map fst] in *. inversion N as [|? ? N1 N2]; subst. destruct H as [E|H].
  - injection E as -> ->. rewrite beq_refl. reflexivity.
  - destruct (beq_case j k) as [[-> _]|[_ ->]]; [|auto]. exfalso. apply N1. apply in_map_iff. exists (k, v). split; [reflexivity|exact H].
Qed.
Lemma in_assoc {A} k (v : A) l : assoc k l = Some v -> In (k, v) l.
Proof. induction l as [|[j w] l IH]; cbn [assoc]; [discriminate|]. destruct (beq_case j k) as [[-> ->]|[_ ->]]; [intro E; injection E as ->; left; reflexivity|right; auto]. Qed.
(** The groups with their keys. *)
Definition keyed (ps : params) : list (bytes * list hkey) := map (fun kl => (fst kl, map param_key (snd kl))) ps.
Lemma insert_map {A B} (f : bytes * A -> bytes * B) x l : (forall x, fst (f x) = fst x) -> map f (insert_by fst x l) = insert_by fst (f x) (map f l).
Proof. intro F. induction l as [|y l IH]; cbn [insert_by map]; [reflexivity|]. rewrite !F. destruct (ble (fst x) (fst y)); cbn [map]; [reflexivity|f_equal; exact IH]. Qed.
Lemma sort_map {A B} (f : bytes * A -> bytes * B) l : (forall x, fst (f x) = fst x) -> map f (sort_by fst l) = sort_by fst (map f l).
Proof. intro F. induction l as [|x l IH]; cbn [sort_by map]; [reflexivity|]. rewrite insert_map by exact F. rewrite IH. reflexivity. Qed.
Lemma keyed_fst ps : map fst (keyed ps) = map fst ps.
Proof. unfold keyed. rewrite map_map. reflexivity. Qed.
Lemma keyed_nodup ps : NoDup (map fst ps) -> NoDup (keyed ps).
Proof. intro N. apply (NoDup_map_inv fst). rewrite keyed_fst. exact N. Qed.
Lemma params_keys ps qs : NoDup (map fst ps) -> NoDup (map fst qs) -> params_eq ps qs = Ok true -> params_key ps = params_key qs.
Proof.
  intros Np Nq E. destruct (params_decide ps qs Np Nq) as (b & B & Sb). rewrite E in B. injection B as <-. specialize (proj1 Sb eq_refl). intro I.
  assert (P : Permutation (keyed ps) (keyed qs)).
  { apply NoDup_Permutation; [apply keyed_nodup; exact Np|apply keyed_nodup; exact Nq|].
    assert (X : forall rs ss, NoDup (map fst rs) -> NoDup (map fst ss) -> (forall k, params_image rs k = params_image ss k) -> forall x, In x (keyed rs) -> In x (keyed ss)).
    { intros rs ss Nr Ns J x X. unfold keyed in X. apply in_map_iff in X. destruct X as ([k l] & <- & X). cbn [fst snd]. specialize (J k). unfold params_image in J.
      rewrite (assoc_nodup k l rs Nr X) in J. cbn [option_map] in J. destruct (assoc k ss) as [m|] eqn:A; [|discriminate J]. cbn [option_map] in J. injection J as J.
      apply in_assoc in A. unfold keyed. apply in_map_iff. exists (k, m). split; [|exact A]. cbn [fst snd]. f_equal. clear - J. revert m J.
      induction l as [|a l IH]; intros [|b m] J; cbn [map] in *; try discriminate; [reflexivity|]. injection J as Ja Jb Jm. f_equal; [|apply IH; exact Jm].
      apply param_key_image. unfold param_image. congruence. }
    intro x. split; apply X; auto. }
  unfold params_key. f_equal. assert (Y : forall rs, map (fun kl : bytes * list param => HTup (map param_key (snd kl))) (sort_by fst rs) = map (fun kl => HTup (snd kl)) (sort_by fst (keyed rs))).
  { intro rs. unfold keyed. rewrite <- (sort_map (fun kl : bytes * list param => (fst kl, map param_key (snd kl)))) by reflexivity. rewrite map_map. reflexivity. }
  rewrite !Y. f_equal. apply sort_by_perm; [rewrite keyed_fst; exact Np|exact P].
Qed.

(** ** Values *)
Section Values.
Variable tzo : tzid -> Z -> Z -> Z -> Z -> Z -> Z -> bool -> bool -> Z.
Variable fl : floats.
Variable fhash : pyfloat -> Z.
Hypothesis Fh : floats_hash fl fhash.

Lemma uncached_coherent d : uncached d -> coherent tzo d.
Proof. intros [H G]. split; [rewrite G; discriminate|rewrite H; discriminate]. Qed.
Lemma cmp_date_0 a b : cmp_date a b = 0 -> DateTimeSpec.ymd a = DateTimeSpec.ymd b.
Proof.
  unfold cmp_date, DateTimeSpec.ymd. cbv zeta. destruct (Z.eqb_spec (pycmp (mYear a) (mYear b)) 0) as [E1|E1]; [|intros; lia].
  destruct (Z.eqb_spec (pycmp (mMonth a) (mMonth b)) 0) as [E2|E2]; [|intros; lia]. intro E3. rewrite pycmp_0 in E1, E2, E3. rewrite E1, E2, E3. reflexivity.
Qed.
Lemma posix_of d e : uncached d -> uncached e -> DateTimeSpec.ymd d = DateTimeSpec.ymd e -> mHours d = mHours e -> mMinutes d = mMinutes e -> mSeconds d = mSeconds e ->
  mDateOnly d = mDateOnly e -> mTZUTC d = mTZUTC e -> mTZID d = mTZID e -> dt_hash tzo d = dt_hash tzo e.
Proof.
  intros Ud Ue E1 E2 E3 E4 E5 E6 E7. unfold dt_hash. rewrite !getPosixTime_fresh by (apply uncached_coherent; assumption).
  unfold fresh_posix, daysSince1970, DateTimeSpec.secs_of_day, tz_lookup. unfold DateTimeSpec.ymd in E1. injection E1 as A B C. rewrite A, B, C, E2, E3, E4, E5, E6, E7. reflexivity.
Qed.
Lemma times_hash d e : like_times d e -> dt_eq tzo d e = Ok true -> dt_hash tzo d = dt_hash tzo e.
Proof.
  intros (Ud & Ue & L) E. destruct L as [[D D']|[[D D']|[D D']]].
  - destruct D as (D1 & D2 & D3 & D4 & D5 & D6), D' as (D1' & D2' & D3' & D4' & D5' & D6'). unfold dt_eq, compareDateTime in E. rewrite D1 in E. cbn [orb rbind] in E.
    injection E as E. apply Z.eqb_eq in E. apply cmp_date_0 in E. apply posix_of; congruence.
  - destruct D as (D1 & D2 & D3), D' as (D1' & D2' & D3'). unfold dt_eq, compareDateTime in E. rewrite D1, D1', D2, D3 in E. cbn in E.
    injection E as E. apply Z.eqb_eq in E. apply cmp_fields_0 in E as (E1 & E2 & E3 & E4). apply posix_of; congruence.
  - destruct D, D'. apply eq_hash; auto using uncached_coherent.
Qed.
Lemma tup_same {A} (l m : option (list A)) : same_list l m -> tup l = tup m.
Proof. unfold same_list, tup. destruct l as [[|]|], m as [[|]|]; intro H; try discriminate H; try reflexivity; injection H as -> ->; reflexivity. Qed.
Lemma freq_same a b : freq_eqb a b = true -> a = b.
Proof. destruct a, b; (reflexivity || discriminate). Qed.
Lemma rules_hash r s : like_rules r s -> rule_equals tzo r s = Ok true -> rule_hash tzo r = rule_hash tzo s.
Proof.
  intros (U & L1 & L2 & L3 & L4 & L5 & L6 & L7 & L8 & L9) E. unfold rule_equals in E.
  destruct (freq_eqb (rFreq r) (rFreq s) && Bool.eqb (rUseCount r) (rUseCount s) && (rCount r =? rCount s) && Bool.eqb (rUseUntil r) (rUseUntil s)) eqn:B; [|discriminate E].
  apply andb_true_iff in B as [B B4]. apply andb_true_iff in B as [B B3]. apply andb_true_iff in B as [B1 B2]. apply freq_same in B1. apply Bool.eqb_prop in B2, B4. apply Z.eqb_eq in B3.
  destruct (until_eq tzo (rUntil r) (rUntil s)) as [u|] eqn:X; [|discriminate E]. cbn [rbind] in E.
  assert (Q : forall a b : bool, Ok a = Ok b -> a = b) by (intros a b; congruence). apply Q in E. clear Q. rewrite !andb_true_iff in E. destruct E as [[[[[[[[[[[E0 E1] _] _] _] _] _] _] _] _] _] E2]. subst u.
  apply Z.eqb_eq in E1, E2. unfold rule_hash. rewrite B1, B2, B3, B4, E1, E2, (tup_same _ _ L1), (tup_same _ _ L2), (tup_same _ _ L3), (tup_same _ _ L4), (tup_same _ _ L5), (tup_same _ _ L6), (tup_same _ _ L7), (tup_same _ _ L8), (tup_same _ _ L9).
  unfold until_eq in X. destruct (rUntil r) as [d|], (rUntil s) as [e|]; try discriminate X; [|reflexivity]. rewrite (times_hash d e (U d e eq_refl eq_refl) X). reflexivity.
Qed.
Lemma periods_hash p q : like_items (VPeriod p) (VPeriod q) -> period_eq tzo p q = Ok true -> period_hash tzo p = period_hash tzo q.
Proof.
  intros [S L] E. unfold period_eq in E. destruct (dt_eq tzo (pStart p) (pStart q)) as [[|]|] eqn:A; cbn [rbind] in E; try discriminate E.
  unfold period_hash. rewrite (times_hash _ _ S A). destruct (snd (getEnd p)) as [d|] eqn:Ed; cbn [rbind] in E; [|discriminate E]. destruct (snd (getEnd q)) as [e|] eqn:Ee; cbn [rbind] in E; [|discriminate E].
  cbn [rbind]. rewrite (times_hash d e (L d e eq_refl eq_refl) E). reflexivity.
Qed.
Lemma texts_same l : forall m, list_eq (fun u w => Ok (beq u w)) l m = Ok true -> l = m.
Proof.
  intros m E. assert (F : forall l : list bytes, Forall (fun _ => True) l) by (intro l0; induction l0; constructor; auto).
  destruct (elements_decide _ _ _ beq_decides l m (F l) (F m)) as (b & B & Sb). rewrite E in B. injection B as <-. specialize (proj1 Sb eq_refl). rewrite !map_id. auto.
Qed.
Lemma eq_types i j : item_eq tzo fl i j = Ok true -> item_type i = item_type j.
Proof. unfold item_eq. destruct (veqb (item_type i) (item_type j)) eqn:T; [|discriminate]. intros _. apply veqb_iff. exact T. Qed.
Lemma items_key i j : like_items i j -> item_eq tzo fl i j = Ok true -> item_key tzo fhash i = item_key tzo fhash j.
Proof.
  intros L E. unfold item_eq in E. destruct (veqb (item_type i) (item_type j)) eqn:T; [|discriminate E]. apply veqb_iff in T. unfold item_key. rewrite T.
  assert (Q : forall a b : bool, Ok a = Ok b -> a = b) by (intros a b; congruence).
  destruct i, j; try discriminate E; try (apply Q in E).
  - apply beq_eq in E. subst. reflexivity.
  - apply text_eq_iff in E. subst. reflexivity.
  - apply text_eq_iff in E. subst. reflexivity.
  - apply Z.eqb_eq in E. subst. reflexivity.
  - apply Z.eqb_eq in E. subst. reflexivity.
  - rewrite (Fh _ _ E). reflexivity.
  - apply andb_true_iff in E as [E1 E2]. rewrite (Fh _ _ E1), (Fh _ _ E2). reflexivity.
  - rewrite (times_hash _ _ L E). reflexivity.
  - apply Z.eqb_eq in E. rewrite E. reflexivity.
  - rewrite (periods_hash _ _ L E). reflexivity.
  - rewrite (rules_hash _ _ L E). reflexivity.
  - apply texts_same in E. subst. reflexivity.
Qed.
Lemma lists_key {A} (eq : A -> A -> res bool) (key : A -> res hkey) l : forall m,
  (forall i j, In i l -> In j m -> eq i j = Ok true -> key i = key j) -> list_eq eq l m = Ok true -> map_r key l = map_r key m.
Proof.
  unfold list_eq. induction l as [|x l IH]; intros [|y m] L E; cbn [List.length Nat.eqb elements_eq] in E; try discriminate E; [reflexivity|].
  destruct (Nat.eqb (List.length l) (List.length m)) eqn:N; [|discriminate E]. destruct (eq x y) as [[|]|] eqn:X; cbn [rbind] in E; try discriminate E.
  cbn [map_r]. rewrite (L x y (or_introl eq_refl) (or_introl eq_refl) X). rewrite (IH m); [reflexivity| |rewrite N; exact E]. intros i j I J. apply L; right; assumption.
Qed.
Lemma props_key p q : NoDup (map fst (pParams p)) -> NoDup (map fst (pParams q)) -> like_values (pValue p) (pValue q) ->
  prop_eq tzo fl p q = Ok true -> prop_key tzo fhash p = prop_key tzo fhash q.
Proof.
  intros Np Nq L E. unfold prop_eq in E. destruct (beq_case (pName p) (pName q)) as [[N B]|[_ B]]; rewrite B in E; [|discriminate E].
  unfold prop_key. rewrite N.
  assert (V : match pValue p with None => Ok HNone | Some v => value_key tzo fhash v end = match pValue q with None => Ok HNone | Some v => value_key tzo fhash v end).
  { destruct (pValue p) as [v|], (pValue q) as [w|]; cbn [rbind] in E; try discriminate E; [|reflexivity].
    destruct (value_eq tzo fl v w) as [[|]|] eqn:X; cbn [rbind] in E; try discriminate E. destruct v as [i|s l], w as [j|t m]; try discriminate X; cbn [value_key like_values value_eq] in *.
    - apply items_key; [apply L; exact (eq_types _ _ X)|exact X].
    - destruct (veqb s t); [|discriminate X]. rewrite (lists_key (item_eq tzo fl) (item_key tzo fhash) l m); [reflexivity| |exact X]. intros i j I J K. apply items_key; [exact (L i j I J (eq_types _ _ K))|exact K]. }
  rewrite V. destruct (match pValue p, pValue q with Some a, Some b => value_eq tzo fl a b | None, None => Ok true | _, _ => Ok false end) as [[|]|]; cbn [rbind] in E; try discriminate E.
  rewrite (params_keys _ _ Np Nq E). reflexivity.
Qed.
End Values.
