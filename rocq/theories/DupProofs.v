(** Proofs about copies of components. *)
From Coq Require Import Lia ZifyBool ZifyNat.
From Verif Require Import PyBase PyProofs ParserCtx TextModel LineModel PeriodModel RecurModel RecurExpand PropertyModel PropertySpec PropertyProofs PropertyProofs3
  ComponentModel ComponentSpec ComponentProofs ComponentProofs2 ComponentProofs3 ComponentProofs6 ComponentProofs7 DupModel DupSpec.

(** ** Values and properties. *)
Lemma item_copy i : item_ready i -> item_duplicate i = Ok i.
Proof.
  destruct i; try reflexivity; cbn [item_ready item_duplicate].
  - intros [(s & e & ->)|(s & d & ->)]; reflexivity.
  - destruct r as [f uc cn uu un iv b1 b2 b3 b4 b5 b6 b7 b8 b9 ws]. unfold rule_duplicate. cbn [rUseUntil rUntil]. destruct uu; [intros [u ->]|intros ->]; reflexivity.
Qed.
Lemma map_r_id {A} (f : A -> res A) l : (forall x, In x l -> f x = Ok x) -> map_r f l = Ok l.
Proof.
  induction l as [|x l IH]; intro H; [reflexivity|]. cbn [map_r]. rewrite (H x) by (left; reflexivity). cbn [rbind].
  rewrite IH; [reflexivity|]. intros y Y. apply H. right; assumption.
Qed.
Lemma prop_copy p : prop_ready p -> prop_duplicate p = Ok p.
Proof.
  destruct p as [n ps v]. intros (w & E & R). cbn [pValue] in E. subst v. unfold prop_duplicate. cbn [pValue pName pParams].
  destruct w as [i|t l]; cbn [value_ready value_duplicate] in *.
  - rewrite item_copy by assumption. reflexivity.
  - rewrite map_r_id; [reflexivity|]. rewrite Forall_forall in R. intros x X. apply item_copy, R, X.
Qed.
Lemma props_copy ps : Forall (fun kl => Forall prop_ready (snd kl)) ps -> props_duplicate ps = Ok ps.
Proof.
  intro H. unfold props_duplicate. apply map_r_id. intros [k l] I. rewrite Forall_forall in H. specialize (H _ I). cbn [fst snd] in *.
  rewrite map_r_id; [reflexivity|]. rewrite Forall_forall in H. intros x X. apply prop_copy, H, X.
Qed.
Lemma hold_allowed k t : may_hold k (getType t) <-> allowed k t = true.
Proof.
  destruct k; cbn [may_hold allowed]; try tauto; try (split; [intros _; reflexivity|intros _; exact I]).
  all: try (split; [intros ->; apply beq_refl|apply beq_eq]).
  rewrite Bool.orb_true_iff. split; (intros [H|H]; [left|right]).
  - rewrite H; apply beq_refl.
  - rewrite H; apply beq_refl.
  - apply beq_eq; assumption.
  - apply beq_eq; assumption.
Qed.

(** ** Components. *)
Section Copies.
Variable uuid : list nat -> bytes.
Definition each_copy (k : kind) (path : list nat) : nat -> list comp -> res (list comp) :=
  fix each (i : nat) (l : list comp) : res (list comp) :=
    match l with
    | [] => Ok []
    | x :: r => do x' <- duplicate uuid (i :: path) x;
                if allowed k (cKind x') then do r' <- each (S i) r; Ok (x' :: r') else Raise ValueError
    end.
Lemma each_nil k path i : each_copy k path i [] = Ok [].
Proof. reflexivity. Qed.
Lemma each_cons k path i x r : each_copy k path i (x :: r) =
  do x' <- duplicate uuid (i :: path) x; if allowed k (cKind x') then do r' <- each_copy k path (S i) r; Ok (x' :: r') else Raise ValueError.
Proof. reflexivity. Qed.
Lemma duplicate_eq path k s ps subs : duplicate uuid path (Comp k s ps subs) =
  do subs' <- each_copy k path 0 subs; do ps' <- props_duplicate ps; Ok (Comp k (dup_state k (uuid path) s) ps' subs').
Proof. reflexivity. Qed.

Lemma copies c : ready c -> forall path, exists d, duplicate uuid path c = Ok d /\ copy_of c d.
Proof.
  induction c as [k s ps subs IH] using comp_tree_ind. intros R path. inversion R as [? ? ? ? P H S E]; subst. rewrite duplicate_eq.
  assert (X : forall i, exists l, each_copy k path i subs = Ok l /\ Forall2 copy_of subs l).
  { clear - IH H S. induction subs as [|x r IHr]; intro i; [exists []; split; [reflexivity|constructor]|].
    inversion IH as [|? ? I1 I2]; subst. inversion H as [|? ? H1 H2]; subst. inversion S as [|? ? S1 S2]; subst.
    destruct (I1 S1 (i :: path)) as (x' & E & C). destruct (IHr I2 H2 S2 (Datatypes.S i)) as (l & El & Cl).
    exists (x' :: l). split; [|constructor; assumption]. rewrite each_cons, E. cbn [rbind].
    assert (Kx : cKind x' = cKind x) by (destruct C; reflexivity). rewrite Kx.
    apply hold_allowed in H1. rewrite H1, El. reflexivity. }
  destruct (X 0%nat) as (l & -> & C). cbn [rbind]. rewrite (props_copy ps P). cbn [rbind]. eexists. split; [reflexivity|].
  constructor; try assumption.
  - destruct k; try reflexivity; congruence.
  - cbn [In]. intro I. destruct k; try (split; reflexivity); exfalso; intuition discriminate.
  - cbn [In]. intro I. destruct k; try reflexivity; exfalso; intuition discriminate.
  - intros ->. reflexivity.
  - intros ->. reflexivity.
Qed.

(** More than copy_of says: the sort key. *)
Inductive keeps : comp -> comp -> Prop :=
| keeps_intro : forall k s u ps subs subs', Forall2 keeps subs subs' -> keeps (Comp k s ps subs) (Comp k (dup_state k u s) ps subs').
Lemma copies_keep c : ready c -> forall path d, duplicate uuid path c = Ok d -> keeps c d.
Proof.
  induction c as [k s ps subs IH] using comp_tree_ind. intros R path d. inversion R as [? ? ? ? P H S E]; subst. rewrite duplicate_eq.
  unfold rbind. destruct (each_copy k path 0 subs) as [l|] eqn:El; [|discriminate]. rewrite (props_copy ps P). intro Q. apply Ok_inj in Q. subst d.
  constructor. clear - IH S El. revert l El. generalize 0%nat. induction subs as [|x r IHr]; intros i l El; [rewrite each_nil in El|rewrite each_cons in El].
  - apply Ok_inj in El. subst l. constructor.
  - inversion IH as [|? ? I1 I2]; subst. inversion S as [|? ? S1 S2]; subst. unfold rbind in El. destruct (duplicate uuid (i :: path) x) as [x'|] eqn:Ex; [|discriminate].
    destruct (allowed k (cKind x')); [|discriminate]. destruct (each_copy k path (Datatypes.S i) r) as [r'|] eqn:Er; [|discriminate].
    apply Ok_inj in El. subst l. constructor; [eapply I1; eassumption|]. eapply IHr; eassumption.
Qed.
End Copies.

(** ** Text. *)
Lemma insert_f2 {A} (R : A -> A -> Prop) (lt : A -> A -> bool) x x' l m :
  (forall a b a' b', R a a' -> R b b' -> lt a' b' = lt a b) -> R x x' -> Forall2 R l m -> Forall2 R (insert lt x l) (insert lt x' m).
Proof.
  intros H X F. induction F as [|y y' l m Y F IH]; cbn [insert]; [constructor; [assumption|constructor]|].
  rewrite (H y x y' x' Y X). destruct (lt y x); constructor; try assumption. constructor; assumption.
Qed.
Lemma isort_f2 {A} (R : A -> A -> Prop) (lt : A -> A -> bool) l m :
  (forall a b a' b', R a a' -> R b b' -> lt a' b' = lt a b) -> Forall2 R l m -> Forall2 R (isort lt l) (isort lt m).
Proof. intros H F. induction F as [|y y' l m Y F IH]; [constructor|]. cbn [isort]. apply insert_f2; assumption. Qed.
Lemma f2_length {A B} (R : A -> B -> Prop) l m : Forall2 R l m -> List.length l = List.length m.
Proof. induction 1 as [|x y l m H F IH]; cbn; congruence. Qed.
Lemma keeps_key k c d : keeps c d -> In k [VPOLL; VVOTER; VTIMEZONE] \/ own_key c -> rank k d = rank k c.
Proof.
  intros H O. inversion H as [k0 s u ps subs subs' F]; subst. unfold rank, upper_type. cbn [cKind cProps].
  destruct O as [O|O].
  - cbn [In] in O. destruct k; try reflexivity; exfalso; intuition discriminate.
  - assert (E : getSortKey (Comp k0 (dup_state k0 u s) ps subs') = getSortKey (Comp k0 s ps subs)).
    { unfold own_key in O. unfold getSortKey. cbn [cKind cState] in *.
      destruct k0; cbn [dup_state sMapKey sUuid sUID sID]; try reflexivity; try contradiction;
        try (destruct (sMapKey s); [reflexivity|congruence]);
        (destruct O as [-> O]; destruct (sUID s); [congruence|reflexivity]). }
    rewrite E. reflexivity.
Qed.
Lemma sorted_copy k l m : Forall2 keeps l m -> (List.length l <= 1)%nat \/ In k [VPOLL; VVOTER; VTIMEZONE] \/ Forall own_key l ->
  Forall2 keeps (sortedComponents (fun c => c) k l) (sortedComponents (fun c => c) k m).
Proof.
  intros F O. destruct O as [O|O].
  - assert (X : forall l : list comp, (List.length l <= 1)%nat -> sortedComponents (fun c => c) k l = l).
    { intros [|x [|y r]] L; [| |cbn in L; lia]; rewrite sorted_rank; reflexivity. }
    rewrite !X; [assumption| |assumption]. rewrite <- (f2_length _ _ _ F). assumption.
  - assert (R : Forall2 (fun c d => keeps c d /\ rank k d = rank k c) l m).
    { destruct O as [O|O].
      - eapply ComponentProofs5.f2_impl; [|exact F]. intros x y K. split; [assumption|]. apply keeps_key; auto.
      - pose proof (f2_and _ _ _ _ F O) as G. eapply ComponentProofs5.f2_impl; [|exact G]. intros x y [K Q]. split; [assumption|].
        apply keeps_key; auto. }
    rewrite !sorted_rank. unfold by_keys.
    eapply ComponentProofs5.f2_impl with (R := fun c d => keeps c d /\ rank k d = rank k c); [intros x y [K _]; exact K|].
    apply isort_f2; [|exact R]. intros a b a' b' [_ Ea] [_ Eb]. rewrite Ea, Eb. reflexivity.
Qed.
Lemma keeps_text fl c : steady c -> forall d, keeps c d -> generate fl d = generate fl c.
Proof.
  induction c as [k s ps subs IH] using comp_tree_ind. intros St d K. inversion K as [? ? u ? ? subs' F]; subst.
  inversion St as [? O Ss E]; subst. cbn [cSubs cKind] in *. rewrite !generate_eq. f_equal. f_equal. f_equal. f_equal.
  pose proof (sorted_copy k subs subs' F O) as G.
  assert (X : Forall2 (fun x y => generate fl y = generate fl x) (sortedComponents (fun c => c) k subs) (sortedComponents (fun c => c) k subs')).
  { eapply f2_in; [exact G|]. intros x y I Kx. assert (Ix : In x subs) by (eapply Permutation_in; [apply sorted_perm|exact I]).
    rewrite Forall_forall in IH, Ss. apply (IH x Ix); auto. }
  clear - X. induction X as [|x y l m H X IH]; [reflexivity|]. cbn [map]. rewrite H, IH. reflexivity.
Qed.
Lemma copy_text fl uuid path c d : ready c -> steady c -> duplicate uuid path c = Ok d -> generate fl d = generate fl c.
Proof. intros R S E. apply keeps_text; [assumption|]. eapply copies_keep; eassumption. Qed.

(** ** Components that were read. *)
Lemma rule_token_ready ctx t r r' : item_ready (VRecur r) -> parse_token ctx t r = Ok r' -> item_ready (VRecur r').
Proof.
  cbn [item_ready]. unfold parse_token. intro H. destruct (split_char _ t) as [|n [|v [|]]]; try discriminate.
  destruct (RecurModel.assoc n cRecurMap) as [p|]; [|discriminate].
  assert (X : forall A (old : option (list A)) new (set : list A -> rule), (forall l, rUseUntil (set l) = rUseUntil r /\ rUntil (set l) = rUntil r) ->
    once old new set = Ok r' -> if rUseUntil r' then exists u, rUntil r' = Some u else rUntil r' = None).
  { intros A old new set Q. unfold once. destruct old; [discriminate|]. unfold rbind. destruct new as [l|]; [|discriminate].
    intro E. apply Ok_inj in E. subst r'. destruct (Q l) as [-> ->]. assumption. }
  destruct p; cbn [parse_part]; try (apply X; intro; split; reflexivity).
  - destruct (RecurModel.assoc v cFreqMap); [|discriminate]. intro E; apply Ok_inj in E; subst r'. exact H.
  - destruct (rUseCount r); [discriminate|]. destruct (dt_parse _ _ _ _) as [d [?|?]]; [|discriminate]. intro E; apply Ok_inj in E; subst r'.
    cbn [set_until rUseUntil rUntil]. eexists; reflexivity.
  - destruct (rUseUntil r) eqn:U; [discriminate|]. unfold rbind. destruct (pyint v); [|discriminate]. destruct (_ <? 1); [discriminate|].
    intro E; apply Ok_inj in E; subst r'. cbn [set_count rUseUntil rUntil]. rewrite U. assumption.
  - unfold rbind. destruct (pyint v); [|discriminate]. destruct (_ <? 1); [discriminate|]. intro E; apply Ok_inj in E; subst r'. exact H.
  - destruct (RecurModel.assoc v cWeekdayMap); [|discriminate]. intro E; apply Ok_inj in E; subst r'. exact H.
Qed.
Lemma rule_ready ctx s r : rule_parse ctx s = Ok r -> item_ready (VRecur r).
Proof.
  unfold rule_parse. assert (H : item_ready (VRecur rule_init)) by reflexivity. revert H. generalize rule_init (split_char ";" s).
  intros r0 l. revert r0. induction l as [|t l IH]; intros r0 H; cbn [parse_tokens].
  - intro E; apply Ok_inj in E; subst r. exact H.
  - unfold rbind. destruct (parse_token ctx t r0) as [r1|] eqn:E; [|discriminate]. apply IH. eapply rule_token_ready; eassumption.
Qed.
Lemma period_ready ctx s p : period_parseText ctx false s = Ok p -> item_ready (VPeriod p).
Proof.
  unfold period_parseText, period_parse. destruct (split1 _ s) as [[a e]|]; [|discriminate].
  destruct (dt_parse ctx false a _) as [d [?|x]]; [|destruct x; discriminate]. destruct e as [|c e]; [discriminate|].
  destruct (Ascii.eqb c "P").
  - destruct (dur_parseText ctx (c :: e)) as [du|x]; [|destruct x; discriminate]. intro E; apply Ok_inj in E; subst p. right. do 2 eexists. reflexivity.
  - cbn [pEnd newPeriod newPeriodEnd]. destruct (dt_parse ctx false (c :: e) _) as [d2 [?|x]]; [|destruct x; discriminate].
    intro E; apply Ok_inj in E; subst p. left. do 2 eexists. reflexivity.
Qed.
Lemma item_parsed ctx fl t s i : item_parse ctx fl t s = Ok i -> item_ready i.
Proof.
  unfold item_parse, rbind. intro H. destruct t; destruct s as [s|]; try discriminate H;
    try (apply Ok_inj in H; subst i; exact I);
    try (unfold geo_parse in H); try (unfold status_parse, rbind in H);
    repeat (match type of H with context [match ?x with _ => _ end] => destruct x eqn:? end; try discriminate H);
    apply Ok_inj in H; subst i; try exact I; [eapply period_ready|eapply rule_ready]; eassumption.
Qed.
Lemma map_r_all {A B} (f : A -> res B) (P : B -> Prop) l : (forall x y, f x = Ok y -> P y) -> forall m, map_r f l = Ok m -> Forall P m.
Proof.
  intro H. induction l as [|x l IH]; intros m; cbn [map_r].
  - intro E; apply Ok_inj in E; subst m; constructor.
  - unfold rbind. destruct (f x) as [y|] eqn:E; [|discriminate]. destruct (map_r f l) as [m'|]; [|discriminate].
    intro Q; apply Ok_inj in Q; subst m. constructor; eauto.
Qed.
Lemma zone_ready tz i : item_ready i -> item_ready (zone_item tz i).
Proof. destruct i; cbn [zone_item]; auto. Qed.
Lemma prop_parsed ctx fl l p : prop_parse ctx fl l = Ok p -> prop_ready p.
Proof.
  unfold prop_parse. destruct (ical_parseLine _ l) as [[ln|]|]; try discriminate.
  destruct (line_value ctx fl _ _ _) as [v|] eqn:E; [|discriminate]. intro Q; apply Ok_inj in Q; subst p. exists v. split; [reflexivity|].
  unfold line_value, rbind in E. destruct (determineValueType _ _) as [t|]; [|discriminate].
  destruct (if is_multi _ then _ else _) as [w|] eqn:W; [|discriminate].
  assert (Rw : value_ready w).
  { destruct (is_multi _).
    - unfold multi_parse, rbind in W. destruct (lValue ln); [|discriminate]. destruct (map_r _ _) as [m|] eqn:M; [|discriminate].
      apply Ok_inj in W; subst w. eapply (map_r_all _ item_ready); [|exact M]. intros x y. apply item_parsed.
    - destruct (item_parse ctx fl t _) as [i|] eqn:I; [|discriminate]. apply Ok_inj in W; subst w. eapply item_parsed; eassumption. }
  unfold postCreateValue, rbind in E. destruct (_ || _); [|apply Ok_inj in E; subst v; assumption].
  destruct (assoc _ _) as [l0|]; [|apply Ok_inj in E; subst v; assumption]. destruct (first_value l0) as [tz|]; [|discriminate].
  apply Ok_inj in E; subst v. destruct w as [i|m li]; cbn [value_ready] in *; [apply zone_ready; assumption|].
  rewrite Forall_forall in *. intros x X. apply in_map_iff in X as (y & <- & Y). apply zone_ready, Rw, Y.
Qed.
Lemma add_ready p ps : prop_ready p -> Forall (fun kl => Forall prop_ready (snd kl)) ps -> Forall (fun kl => Forall prop_ready (snd kl)) (addProperty p ps).
Proof.
  intros P. unfold addProperty. generalize (upper (pName p)). intro k. induction ps as [|[k' l] ps IH]; intro F; cbn [add_prop].
  - constructor; [constructor; [assumption|constructor]|constructor].
  - inversion F as [|? ? F1 F2]; subst. destruct (beq k' k); constructor; auto. cbn [snd] in *. apply Forall_app. split; [assumption|].
    constructor; [assumption|constructor].
Qed.
Fixpoint ready_nested (c : comp) (R : ready c) {struct R} : nested c :=
  match R with
  | ready_intro k s ps subs _ H F =>
    nested_intro k s ps subs H
      ((fix each (l : list comp) (F : Forall ready l) {struct F} : Forall nested l :=
          match F with Forall_nil _ => Forall_nil _ | Forall_cons x h t => Forall_cons x (ready_nested x h) (each _ t) end) subs F)
  end.

Section Read.
Variable tzo : tzid -> Z -> Z -> Z -> Z -> Z -> Z -> bool -> bool -> Z.
Variable ctx : pctx.
Variable fl : floats.
Variable uuids : nat -> bytes.
Lemma finalise_ready c d : finalise tzo c = Ok d -> ready c -> ready d.
Proof.
  intros E R. pose proof (ComponentProofs4.finalise_shape _ _ _ E) as (K & P & _). pose proof (finalise_subs _ _ _ E) as S. destruct c as [k s ps subs], d as [k' s' ps' subs'].
  cbn [cKind cProps cSubs] in *. subst k' ps'. inversion R; subst. constructor; [assumption|eapply Permutation_Forall; eassumption|eapply Permutation_Forall; eassumption].
Qed.
Lemma added_ready c d e : addComponent c d = Ok e -> ready c -> ready d -> ready e.
Proof.
  destruct c as [k s ps subs]. cbn [addComponent]. destruct (allowed k (cKind d)) eqn:A; [|discriminate]. intro E; apply Ok_inj in E; subst e.
  intros R D. inversion R; subst. constructor; [assumption| |]; apply Forall_app; (split; [assumption|]); (constructor; [|constructor]); [|assumption].
  apply hold_allowed; assumption.
Qed.
Lemma body_ready t n c b m d : body tzo ctx fl uuids t n c b m d -> ready c -> ready d.
Proof.
  induction 1 as [t n c|t n c r m d B H IH|t n c l p r m d L H IH|t n c nm b n1 e e' c1 r m d N Hb IHb Hf Ha Hr IHr]; intro R.
  - assumption.
  - auto.
  - apply IH. destruct c as [k s ps subs]. cbn [set_props cProps]. inversion R; subst. constructor; try assumption.
    apply add_ready; [|assumption]. destruct L as (_ & _ & _ & _ & L & _). eapply prop_parsed; eassumption.
  - apply IHr. eapply added_ready; [exact Ha|assumption|]. eapply finalise_ready; [exact Hf|]. apply IHb. unfold makeComponent. constructor; constructor.
Qed.
Lemma cut_ready t n c x y : cut_body tzo ctx fl uuids t n c x y -> ready c -> ready y.
Proof. destruct 1; intro R; eapply body_ready; eassumption. Qed.
Lemma read_ready text c : parseTextData tzo ctx fl uuids text = Ok (Some c) -> ready c.
Proof.
  intro H. apply accepted_iff in H. cbv zeta in H. destruct H as (i & _ & _ & C & _). eapply cut_ready; [exact C|]. constructor; constructor.
Qed.
End Read.
