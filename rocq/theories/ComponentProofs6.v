(** Proofs about component trees: the tree that is read back is the same and is written the same. *)
From Coq Require Import Lia ZifyBool ZifyNat.
From Verif Require Import PyBase PyProofs ParserCtx TextModel TextSpec TextProofs LineModel LineSpec LineProofs FoldProofs
  DateTimeModel DateTimeText DateTimeSpec2 DateTimeProofs4 DurationModel RecurModel RecurTextProofs2
  PropertyModel PropertySpec PropertyProofs PropertyProofs2 PropertyProofs3 ComponentModel ComponentSpec ComponentProofs
  ComponentProofs2 ComponentProofs3 ComponentProofs4 ComponentProofs5.
Ltac Zify.zify_post_hook ::= Z.div_mod_to_equations.

Lemma f2_permute {A B} (R : A -> B -> Prop) l m n : Forall2 R l m -> Permutation m n -> exists l', Permutation l' l /\ Forall2 R l' n.
Proof.
  intros F P. revert l F. induction P as [|y m n P IH|x y m|m n o P1 IH1 P2 IH2]; intros l F.
  - inversion F; subst. exists []. split; constructor.
  - inversion F as [|a ? l0 ? H1 H2]; subst. destruct (IH _ H2) as (l' & P' & F'). exists (a :: l'). split; constructor; assumption.
  - inversion F as [|a ? l0 ? H1 H2]; subst. inversion H2 as [|b ? l1 ? H3 H4]; subst. exists (b :: a :: l1). split; [constructor|].
    constructor; [assumption|constructor; assumption].
  - destruct (IH1 _ F) as (l1 & P1' & F1). destruct (IH2 _ F1) as (l2 & P2' & F2). exists l2. split; [etransitivity; eassumption|assumption].
Qed.

Section Tz.
Variable tzo : tzid -> Z -> Z -> Z -> Z -> Z -> Z -> bool -> bool -> Z.
Variable ctx : pctx.
Variable fl : floats.
Let image := image tzo fl.

Lemma insert_start_perm x l : forall r, insert_start tzo x l = Ok r -> Permutation r (x :: l).
Proof.
  induction l as [|y l IH]; intros r; cbn [insert_start]; [intros [= <-]; reflexivity|]. unfold rbind.
  destruct (dt_lt tzo _ _) as [[]|]; [|intros [= <-]; reflexivity|discriminate]. destruct (insert_start tzo x l) as [r'|]; [|discriminate].
  intros [= <-]. rewrite (IH r' eq_refl). apply perm_swap.
Qed.
Lemma sort_start_perm l : forall r, sort_start tzo l = Ok r -> Permutation r l.
Proof.
  induction l as [|x l IH]; intros r; cbn [sort_start]; [intros [= <-]; reflexivity|]. unfold rbind.
  destruct (sort_start tzo l) as [r'|]; [|discriminate]. intro H. rewrite (insert_start_perm _ _ _ H), (IH r' eq_refl). reflexivity.
Qed.
Lemma finalise_subs c c' : finalise tzo c = Ok c' -> Permutation (cSubs c) (cSubs c').
Proof.
  intro H. apply finalise_shape in H. destruct H as (_ & _ & H). destruct (cKind c); try (rewrite H; reflexivity).
  symmetry. apply sort_start_perm; assumption.
Qed.

Lemma f2_in {A B} (R S : A -> B -> Prop) l m : Forall2 R l m -> (forall x y, In x l -> R x y -> S x y) -> Forall2 S l m.
Proof. induction 1 as [|x y l m H F IH]; intro G; constructor; [apply G; [left; reflexivity|assumption]|]. apply IH. intros; apply G; [right; assumption|assumption]. Qed.

Lemma image_same c : forall c', tree_ok ctx fl c -> image c c' -> same_tree c c'.
Proof.
  induction c as [k s ps subs IH] using comp_tree_ind. intros c' T M. inversion T as [? ? ? ? K P C Ne Ts E0]; subst.
  inversion M as [? ? ? ? u qs l' c0 F S E]; subst. destruct (props_upper ctx fl ps P) as [N U].
  pose proof (gets_written fl k ps qs N U F) as G. pose proof (finalise_subs _ _ E) as Ps.
  pose proof (finalise_shape _ _ _ E) as (Hk & Hp & _). destruct c' as [k' s' ps' subs']. cbn [cKind cProps cSubs] in *. subst k' ps'.
  assert (F2 : Forall2 same_tree (sortedComponents (fun c => c) k subs) l').
  { eapply f2_in; [exact S|]. intros x y I Mx. assert (Ix : In x subs) by (eapply Permutation_in; [apply sorted_perm|exact I]).
    rewrite Forall_forall in IH, Ts. apply (IH x Ix); auto. }
  destruct (f2_permute _ _ _ _ F2 Ps) as (m & Pm & Fm). apply (same_comp k s s' ps _ subs subs' m); [|rewrite Pm; apply sorted_perm|assumption].
  intro name. eapply f2_impl; [|apply G]. intros p q H; apply H.
Qed.

(** ** The same text again. *)
Lemma written_again k ps qs : props_ok ctx fl ps -> Forall2 (pimg fl) (written_props k ps) qs ->
  Forall2 (pimg fl) (written_props k ps) (written_props k (fold_left put qs [])).
Proof.
  intros P F. destruct (props_upper ctx fl ps P) as [N U]. pose proof (gets_written fl k ps qs N U F) as G.
  assert (Kp : Permutation (map fst ps) (map fst (fold_left put qs []))).
  { apply NoDup_Permutation; [assumption|apply puts_NoDup; constructor|]. intro key. rewrite puts_keys. cbn [map In].
    assert (E : map (fun q => upper (pName q)) qs = map (fun q => upper (pName q)) (written_props k ps)).
    { clear - F. induction F as [|p q l m M F IH]; [reflexivity|]. cbn [map]. rewrite IH. f_equal. destruct M as [(-> & _) _]. reflexivity. }
    rewrite E. split.
    - intro I. right. assert (I2 := I). apply in_map_iff in I2. destruct I2 as ([key' l] & <- & I2). cbn [fst].
      destruct P as [_ P]. rewrite Forall_forall in P. destruct (P _ I2) as (_ & _ & Ne & _). cbn [snd] in Ne.
      destruct l as [|p l]; [congruence|]. apply in_map_iff. exists p. split; [eapply U; [exact I2|left; reflexivity]|].
      unfold written_props. apply in_flat_map. exists key'. split.
      + eapply Permutation_in; [symmetry; apply keys_perm; assumption|exact I].
      + unfold getProperties. rewrite (assoc_in key' ps (p :: l) N I2). left; reflexivity.
    - intros [[]|I]. apply in_map_iff in I. destruct I as (p & <- & I). destruct (written_in ps N k p I) as (key' & l & I1 & I2).
      rewrite (U _ _ _ I1 I2). apply in_map_iff. exists (key', l). auto. }
  assert (Ks : sortedPropertyKeys k (fold_left put qs []) = sortedPropertyKeys k ps).
  { unfold sortedPropertyKeys. f_equal. symmetry. apply sort_by_perm; [rewrite map_id; assumption|assumption]. }
  unfold written_props. rewrite Ks. clear - G. induction (sortedPropertyKeys k ps) as [|key keys IH]; [constructor|].
  cbn [flat_map]. apply Forall2_app; [apply G|assumption].
Qed.

Lemma text_first name ps : has_text name ps -> exists t, loadString name ps = Some t /\ t <> [].
Proof.
  intros (p & t & r & E & V & Nt). exists t. split; [|assumption]. unfold loadString, load, findFirstProperty. rewrite E. cbn [hd_error]. rewrite V. reflexivity.
Qed.

Lemma sort_key c c' : tree_ok ctx fl c -> image c c' -> finalise tzo c = Ok c -> has_key c -> getSortKey c' = getSortKey c.
Proof.
  intros T M Fi Hk. inversion M as [k s ps subs u qs l' c0 F S E]; subst. inversion T as [? ? ? ? K P C Ne Ts E0]; subst.
  destruct (props_upper ctx fl ps P) as [N U]. pose proof (gets_written fl k ps qs N U F) as G.
  assert (R : forall s1, is_recur k = true -> has_text (lit "UID") ps -> recur_finalise s ps = Ok s -> recur_finalise (newState u) (fold_left put qs []) = Ok s1 ->
    match sMapKey s1 with Some m => m | None => sUuid s1 end = match sMapKey s with Some m => m | None => sUuid s end).
  { intros s1 _ Hu E1 E2. apply text_first in Hu. destruct Hu as (t & Ht & Nt). unfold recur_finalise, load_uid in E1, E2.
    rewrite (load_string fl _ ps _ G), (count_eq fl _ ps _ G) in E2. rewrite Ht in E1, E2. cbv zeta in E1, E2.
    pose proof (load_datetime fl (lit "RECURRENCE-ID") ps _ G) as D.
    destruct (countProperty (lit "RECURRENCE-ID") ps =? 0)%nat.
    - apply Ok_inj in E1, E2. subst s1. rewrite <- E1. cbn [sMapKey]. unfold mapKey. destruct t; [congruence|reflexivity].
    - destruct (loadDateTime (lit "RECURRENCE-ID") ps) as [d|]; [|discriminate].
      destruct (loadDateTime (lit "RECURRENCE-ID") (fold_left put qs [])) as [e|]; [|discriminate]. unfold rbind in E1, E2.
      destruct (check_param _ (findFirstProperty _ ps)); [|discriminate].
      destruct (check_param _ (findFirstProperty _ (fold_left put qs []))); [|discriminate].
      apply Ok_inj in E1, E2. subst s1. rewrite <- E1. cbn [sMapKey]. cbn [opt_rel] in D. rewrite (same_when_text _ _ D).
      unfold mapKey. destruct t; [congruence|reflexivity]. }
  assert (B : has_text (lit "UID") ps /\ sMapKey s = None -> forall s1, sMapKey s1 = None -> sUID s1 = load_uid (newState u) (fold_left put qs []) ->
    load_uid s ps = sUID s ->
    match sMapKey s1 with Some m => m | None => match sUID s1 with [] => sUuid s1 | x => x end end =
    match sMapKey s with Some m => m | None => match sUID s with [] => sUuid s | x => x end end).
  { intros [Hu Hm] s1 E1 E2 E3. apply text_first in Hu. destruct Hu as (t & Ht & Nt). rewrite E1, E2, Hm, <- E3. unfold load_uid.
    rewrite (load_string fl _ ps _ G), Ht. destruct t; [congruence|reflexivity]. }
  destruct k; cbn [has_key cKind cProps cState] in Hk; cbn [finalise] in Fi, E; try contradiction;
  lazymatch type of E with
  | rbind (recur_finalise _ _) _ = _ =>
    unfold rbind in Fi, E; destruct (recur_finalise s ps) as [s2|] eqn:E1; [|discriminate];
    destruct (recur_finalise (newState u) _) as [s1|] eqn:E2; [|discriminate];
    apply Ok_inj in Fi, E; injection Fi as ->; subst c'; unfold getSortKey; cbn [cKind cState]; apply R; auto
  | rbind (alarm_finalise _ _) _ = _ => idtac
  | rbind (sort_start _ _) _ = _ => idtac
  | _ => apply Ok_inj in Fi, E; subst c'; unfold getSortKey; cbn [cKind cState]; first [reflexivity |
         apply B; [exact Hk|reflexivity|reflexivity|apply (f_equal (fun c => sUID (cState c))) in Fi; exact Fi]]
  end.
  - unfold rbind in Fi, E. destruct (sort_start tzo subs) as [r1|]; [|discriminate]. destruct (sort_start tzo l') as [r2|]; [|discriminate].
    apply Ok_inj in Fi, E. subst c'. unfold getSortKey. cbn [cKind cState sID]. apply text_first in Hk. destruct Hk as (t & Ht & Nt).
    rewrite (load_string fl _ ps _ G), Ht. apply (f_equal (fun c => sID (cState c))) in Fi. cbn [cState sID] in Fi. rewrite Ht in Fi. exact Fi.
  - unfold rbind in Fi, E. destruct (alarm_finalise s ps) as [s2|] eqn:E1; [|discriminate].
    destruct (alarm_finalise (newState u) _) as [s1|] eqn:E2; [|discriminate]. apply Ok_inj in Fi, E. subst c'. injection Fi as ->.
    unfold getSortKey. cbn [cKind cState]. destruct Hk as [Ha (p & r & Et & Ht)]. apply text_first in Ha. destruct Ha as (a & Ha & _).
    unfold alarm_finalise in E1, E2. cbv zeta in E1, E2. rewrite (load_string fl (lit "ACTION") ps _ G) in E2. rewrite Ha in E1, E2.
    pose proof (load_datetime fl (lit "TRIGGER") ps _ G) as D1. pose proof (load_duration fl (lit "TRIGGER") ps _ G) as D2.
    assert (X : (exists d, loadDateTime (lit "TRIGGER") ps = Some d) \/ (loadDateTime (lit "TRIGGER") ps = None /\ exists d, loadDuration (lit "TRIGGER") ps = Some d)).
    { unfold loadDateTime, loadDuration, load, findFirstProperty. rewrite Et. cbn [hd_error].
      destruct Ht as [[d ->]|[d ->]]; [left|right; split; [reflexivity|]]; exists d; reflexivity. }
    destruct X as [[d X]|[X [d Y]]].
    + rewrite X in E1, D1. destruct (loadDateTime (lit "TRIGGER") (fold_left put qs [])) as [e|]; [|contradiction].
      cbn [rbind] in E1, E2. apply Ok_inj in E1, E2. subst s1. rewrite <- E1. cbn [sMapKey]. cbn [opt_rel] in D1. rewrite (same_when_text _ _ D1). reflexivity.
    + rewrite X in E1, D1. rewrite Y in E1, D2. destruct (loadDateTime (lit "TRIGGER") (fold_left put qs [])) as [e|]; [contradiction|].
      destruct (loadDuration (lit "TRIGGER") (fold_left put qs [])) as [e|]; [|contradiction]. unfold rbind in E1, E2.
      destruct (check_param _ (findFirstProperty _ ps)); [|discriminate].
      destruct (check_param _ (findFirstProperty _ (fold_left put qs []))); [|discriminate].
      apply Ok_inj in E1, E2. subst s1. rewrite <- E1. cbn [sMapKey]. cbn [opt_rel] in D2. rewrite D2. reflexivity.
Qed.

Lemma image_gets c c' : tree_ok ctx fl c -> image c c' -> gets fl (cProps c) (cProps c') /\ cKind c' = cKind c.
Proof.
  intros T M. split; [|apply (image_kind tzo fl); assumption]. inversion M as [k s ps subs u qs l' c0 F S E]; subst.
  inversion T as [? ? ? ? K P C Ne Ts E0]; subst. destruct (props_upper ctx fl ps P) as [N U].
  apply finalise_shape in E. destruct E as (_ & -> & _). exact (gets_written fl k ps qs N U F).
Qed.
Lemma image_rank k c c' : tree_ok ctx fl c -> image c c' -> finalise tzo c = Ok c ->
  (match k with VPOLL | VVOTER => True | _ => has_key c end) -> rank k c' = rank k c.
Proof.
  intros T M Fi Hk. destruct (image_gets c c' T M) as [G K].
  assert (Ut : upper_type c' = upper_type c) by (unfold upper_type; rewrite K; reflexivity).
  assert (Sk : has_key c -> getSortKey c' = getSortKey c) by (intro; apply sort_key; assumption).
  destruct k; cbn [rank]; rewrite ?Ut; rewrite ?(load_string fl _ _ _ G), ?(load_integer fl _ _ _ G); try rewrite (Sk Hk); reflexivity.
Qed.

Lemma calm_f2 {A B} (lt : A -> A -> bool) (lt' : B -> B -> bool) (R : A -> B -> Prop) l l' :
  (forall x y x' y', R x x' -> R y y' -> lt' x' y' = lt x y) -> Forall2 R l l' -> calm lt l -> calm lt' l'.
Proof.
  intros H F. induction F as [|x y l m Hx F IH]; intro Ca; [intros [|? [|]] ? ? ? E; discriminate|].
  apply calm_cons in Ca as [C1 C2]. apply calm_cons. split; [|apply IH; assumption]. destruct F as [|x2 y2 l m H2 F]; [exact I|].
  rewrite (H x2 x y2 y) by assumption. assumption.
Qed.
Lemma f2_and {A B} (R : A -> B -> Prop) (P : A -> Prop) l m : Forall2 R l m -> Forall P l -> Forall2 (fun x y => R x y /\ P x) l m.
Proof. induction 1 as [|x y l m H F IH]; intro Fa; inversion Fa; subst; constructor; auto. Qed.

(** Sorting observances that are at local times. *)
Definition starts_lt (a b : comp) : bool := cmp_fields (element_start a) (element_start b) <? 0.
Lemma insert_pure x l : local (element_start x) -> Forall (fun c => local (element_start c)) l ->
  insert_start tzo x l = Ok (insert starts_lt x l).
Proof.
  intros Hx. induction 1 as [|y l Hy Hl IH]; [reflexivity|]. cbn [insert_start insert]. rewrite local_lt by assumption. cbn [rbind].
  unfold starts_lt at 1. destruct (_ <? 0); [|reflexivity]. rewrite IH. reflexivity.
Qed.
Lemma sort_pure l : Forall (fun c => local (element_start c)) l -> sort_start tzo l = Ok (isort starts_lt l).
Proof.
  induction 1 as [|x l Hx Hl IH]; [reflexivity|]. cbn [sort_start isort]. rewrite IH. cbn [rbind]. apply insert_pure; [assumption|].
  eapply Permutation_Forall; [apply isort_perm|assumption].
Qed.
Lemma starts_asym x y : starts_lt x y = true -> starts_lt y x = false.
Proof. unfold starts_lt. rewrite (cmp_fields_sym (element_start x)). lia. Qed.
Lemma cmp_same d e d' e' : same_when d d' -> same_when e e' -> local d -> local e -> cmp_fields d' e' = cmp_fields d e.
Proof.
  intros (A1 & _ & A2) (B1 & _ & B2) [_ Ld] [_ Le]. destruct (A2 Ld) as (A3 & _). destruct (B2 Le) as (B3 & _).
  injection A1 as ? ? ?. injection B1 as ? ? ?. injection A3 as ? ? ?. injection B3 as ? ? ?.
  unfold cmp_fields, cmp_date.
  repeat match goal with H : ?f d = ?f d' |- _ => rewrite <- H; clear H | H : ?f e = ?f e' |- _ => rewrite <- H; clear H end. reflexivity.
Qed.
Lemma element_same c c' : tree_ok ctx fl c -> image c c' -> finalise tzo c = Ok c -> has_key c -> cKind c = STANDARD \/ cKind c = DAYLIGHT ->
  same_when (element_start c) (element_start c') /\ local (element_start c).
Proof.
  intros T M Fi Hk K. inversion M as [k s ps subs u qs l' c0 F S E]; subst. inversion T as [? ? ? ? Kk P C Ne Ts E0]; subst.
  destruct (props_upper ctx fl ps P) as [N U]. pose proof (gets_written fl k ps qs N U F) as G.
  pose proof (load_datetime fl (lit "DTSTART") ps _ G) as D. cbn [cKind] in K.
  assert (Hd : exists p r d, getProperties (lit "DTSTART") ps = p :: r /\ pValue p = Some (Single (VDateTime d))) by (destruct K as [-> | ->]; exact Hk).
  destruct Hd as (p & r & d & E1 & E2).
  assert (Ld : loadDateTime (lit "DTSTART") ps = Some d) by (unfold loadDateTime, load, findFirstProperty; rewrite E1; cbn [hd_error]; rewrite E2; reflexivity).
  assert (Lo : local d) by (destruct K as [-> | ->]; cbn [cached_ok] in C; rewrite E1 in C; apply C; assumption).
  rewrite Ld in D. destruct (loadDateTime (lit "DTSTART") (fold_left put qs [])) as [e|] eqn:Le; [|contradiction].
  assert (X : element_start (Comp k s ps subs) = d /\ element_start c' = e).
  { destruct K as [-> | ->]; cbn [finalise] in Fi, E; rewrite Ld in Fi; rewrite Le in E; apply Ok_inj in Fi, E; subst c';
      (split; [|reflexivity]); apply (f_equal element_start) in Fi; symmetry; exact Fi. }
  destruct X as [-> ->]. split; [exact D|assumption].
Qed.

Lemma sorted_calm k l : calm (fun a b => keys_lt (rank k a) (rank k b)) (sortedComponents (fun c => c) k l).
Proof. rewrite sorted_rank. unfold by_keys. apply isort_calm. intros x y; apply keys_asym. Qed.
Lemma sorted_again k l l' : Forall2 (fun c c' => rank k c' = rank k c) l l' -> calm (fun a b => keys_lt (rank k a) (rank k b)) l ->
  sortedComponents (fun c => c) k l' = l'.
Proof.
  intros F Ca. rewrite sorted_rank. unfold by_keys. apply calm_id. eapply calm_f2; [|exact F|exact Ca].
  intros x y x' y' Hx Hy. cbv beta in *. rewrite Hx, Hy. reflexivity.
Qed.
Lemma gen_props l m : Forall2 (pimg fl) l m -> map (prop_generate fl) m = map (prop_generate fl) l.
Proof. induction 1 as [|p q l m H F IH]; [reflexivity|]. cbn [map]. rewrite IH. f_equal. unfold prop_generate. destruct H as (_ & -> & _). reflexivity. Qed.

Lemma gen_again c : forall c', tree_ok ctx fl c -> image c c' -> finalised tzo c -> keyed c -> generate fl c' = generate fl c.
Proof.
  induction c as [k s ps subs IH] using comp_tree_ind. intros c' T M Fi Hk.
  inversion T as [? ? ? ? K P C Ne Ts E0]; subst. inversion M as [? ? ? ? u qs l' c0 F S E]; subst.
  inversion Fi as [? Fi1 Fi2]; subst. inversion Hk as [? Hk1 Hk2]; subst. cbn [cSubs cKind] in *.
  set (l := sortedComponents (fun c => c) k subs) in *.
  assert (Pl : Permutation subs l) by (symmetry; apply sorted_perm).
  assert (Tl : Forall (tree_ok ctx fl) l) by (eapply Permutation_Forall; [exact Pl|assumption]).
  assert (Fl : Forall (fun c => finalise tzo c = Ok c) l).
  { eapply Permutation_Forall; [exact Pl|]. eapply Forall_impl; [|exact Fi2]. intros a H; inversion H; assumption. }
  assert (Kl : Forall (fun c => match k with VPOLL | VVOTER => True | _ => has_key c end) l).
  { eapply Permutation_Forall; [exact Pl|]. destruct k; try assumption; apply Forall_forall; intros; exact I. }
  assert (Rk : Forall2 (fun c c' => rank k c' = rank k c) l l').
  { pose proof (f2_and _ _ _ _ (f2_and _ _ _ _ (f2_and _ _ _ _ S Tl) Fl) Kl) as X. eapply f2_impl; [|exact X].
    intros x y [[[X1 X2] X3] X4]. apply image_rank; assumption. }
  pose proof (finalise_shape _ _ _ E) as (Ek & Ep & Es). destruct c' as [k' s' ps' subs']. cbn [cKind cProps cSubs] in Ek, Ep, Es. subst k' ps'.
  assert (Esub : subs' = l').
  { destruct k; try exact Es.
    assert (Nk : Forall (fun c => cKind c = STANDARD \/ cKind c = DAYLIGHT) l) by (eapply Permutation_Forall; [exact Pl|exact Ne]).
    pose proof (f2_and _ _ _ _ (f2_and _ _ _ _ (f2_and _ _ _ _ (f2_and _ _ _ _ S Tl) Fl) Kl) Nk) as X.
    assert (X1 : Forall2 (fun c c' => same_when (element_start c) (element_start c') /\ local (element_start c)) l l').
    { eapply f2_impl; [|exact X]. intros x y [[[[Y1 Y2] Y3] Y4] Y5]. apply element_same; assumption. }
    assert (L1 : Forall (fun c => local (element_start c)) l) by (clear - X1; induction X1 as [|x y l m [_ H] F IH]; constructor; assumption).
    assert (L2 : Forall (fun c => local (element_start c)) l').
    { clear - X1; induction X1 as [|x y l m [H1 H2] F IH]; constructor; [eapply same_local; eassumption|assumption]. }
    rewrite (sort_pure _ L2) in Es. apply Ok_inj in Es. rewrite <- Es. apply calm_id.
    eapply (calm_f2 starts_lt); [|exact X1|].
    - intros x y x' y' [A1 A2] [B1 B2]. unfold starts_lt. rewrite (cmp_same _ _ _ _ A1 B1 A2 B2). reflexivity.
    - cbn [finalise] in Fi1. assert (El : l = subs) by reflexivity. rewrite El in *. rewrite (sort_pure _ L1) in Fi1. cbn [rbind] in Fi1.
      apply Ok_inj in Fi1. apply (f_equal cSubs) in Fi1. cbn [cSubs] in Fi1. rewrite <- Fi1. apply isort_calm. exact starts_asym. }
  subst subs'. rewrite !generate_eq. rewrite (gen_props _ _ (written_again k ps qs P F)).
  rewrite (sorted_again k l l' Rk (sorted_calm k subs)). fold l.
  assert (Eg : map (generate fl) l' = map (generate fl) l).
  { assert (X : Forall2 (fun c c' => generate fl c' = generate fl c) l l').
    { eapply f2_in; [exact S|]. intros x y I Mx. assert (Ix : In x subs) by (eapply Permutation_in; [symmetry; exact Pl|exact I]).
      rewrite Forall_forall in IH, Ts, Fi2, Hk2. apply (IH x Ix); auto. }
    clear - X. induction X as [|x y l m H F IH]; [reflexivity|]. cbn [map]. rewrite H, IH. reflexivity. }
  rewrite Eg. reflexivity.
Qed.

Lemma calendar_same c c' : calendar_ok ctx fl c -> calendar_image tzo fl c c' -> same_tree c c'.
Proof.
  destruct c as [k s ps subs]. intros (K & P & _ & _ & Ts) (qs & l' & F & S & ->). cbn [cKind cProps cSubs] in *. subst k.
  destruct (props_upper ctx fl ps P) as [N U]. pose proof (gets_written fl VCALENDAR ps qs N U F) as G.
  apply (same_comp VCALENDAR s _ ps _ subs l' (sortedComponents (fun c => c) VCALENDAR subs)); [|apply sorted_perm|].
  - intro name. eapply f2_impl; [|apply G]. intros p q H; apply H.
  - eapply f2_in; [exact S|]. intros x y I Mx. assert (Ix : In x subs) by (eapply Permutation_in; [apply sorted_perm|exact I]).
    rewrite Forall_forall in Ts. apply image_same; auto.
Qed.
Lemma calendar_again c c' : calendar_ok ctx fl c -> calendar_image tzo fl c c' -> finalised tzo c -> keyed c ->
  generate fl c' = generate fl c.
Proof.
  destruct c as [k s ps subs]. intros (K & P & _ & _ & Ts) (qs & l' & F & S & ->) Fi Hk. cbn [cKind cProps cSubs] in *. subst k.
  inversion Fi as [? Fi1 Fi2]; subst. inversion Hk as [? Hk1 Hk2]; subst. cbn [cSubs cKind] in *.
  set (l := sortedComponents (fun c => c) VCALENDAR subs) in *.
  assert (Pl : Permutation subs l) by (symmetry; apply sorted_perm).
  assert (Tl : Forall (tree_ok ctx fl) l) by (eapply Permutation_Forall; [exact Pl|assumption]).
  assert (Fl : Forall (fun c => finalise tzo c = Ok c) l).
  { eapply Permutation_Forall; [exact Pl|]. eapply Forall_impl; [|exact Fi2]. intros a H; inversion H; assumption. }
  assert (Kl : Forall has_key l) by (eapply Permutation_Forall; [exact Pl|assumption]).
  assert (Rk : Forall2 (fun c c' => rank VCALENDAR c' = rank VCALENDAR c) l l').
  { pose proof (f2_and _ _ _ _ (f2_and _ _ _ _ (f2_and _ _ _ _ S Tl) Fl) Kl) as X. eapply f2_impl; [|exact X].
    intros x y [[[X1 X2] X3] X4]. apply image_rank; assumption. }
  rewrite !generate_eq. rewrite (gen_props _ _ (written_again VCALENDAR ps qs P F)).
  rewrite (sorted_again VCALENDAR l l' Rk (sorted_calm VCALENDAR subs)). fold l.
  assert (X : Forall2 (fun c c' => generate fl c' = generate fl c) l l').
  { eapply f2_in; [exact S|]. intros x y I Mx. assert (Ix : In x subs) by (eapply Permutation_in; [symmetry; exact Pl|exact I]).
    rewrite Forall_forall in Ts, Fi2, Hk2. apply gen_again; auto. }
  assert (Eg : map (generate fl) l' = map (generate fl) l).
  { clear - X. induction X as [|x y l m H F IH]; [reflexivity|]. cbn [map]. rewrite H, IH. reflexivity. }
  rewrite Eg. reflexivity.
Qed.
End Tz.
