(** Proofs about typed properties: reading back a written line. *)
From Coq Require Import Lia ZifyBool ZifyNat.
From Verif Require Import PyBase PyProofs ParserCtx TextModel TextSpec TextProofs LineModel LineSpec LineProofs
  DateTimeModel DateTimeText DateTimeTextProofs DateTimeSpec2 DurationModel DurationProofs PeriodModel PeriodSpec PeriodProofs
  RecurModel RecurSpec RecurTextProofs RecurTextProofs2 PropertyModel PropertySpec.
Ltac Zify.zify_post_hook ::= Z.div_mod_to_equations.

(** ** Tables. *)
Lemma assoc_lookup k ps : lookup k ps = match assoc k ps with Some l => l | None => [] end.
Proof. induction ps as [|[k' l] ps IH]; [reflexivity|]. cbn [lookup assoc]. destruct (beq k' k); [reflexivity|exact IH]. Qed.

Lemma assoc_in {A} k (ps : list (bytes * A)) l : NoDup (map fst ps) -> In (k, l) ps -> assoc k ps = Some l.
Proof.
  induction ps as [|[k' l'] ps IH]; intros Hn Hi; [destruct Hi|]; cbn [assoc map fst] in *. inversion Hn; subst.
  destruct Hi as [[= -> ->]|Hi]; [rewrite beq_refl; reflexivity|].
  destruct (beq_case k' k) as [[-> _]|[_ ->]]; [exfalso; apply H1; apply in_map_iff; exists (k, l); auto|].
  apply IH; assumption.
Qed.
Lemma assoc_out {A} k (ps : list (bytes * A)) : ~ In k (map fst ps) -> assoc k ps = None.
Proof.
  induction ps as [|[k' l'] ps IH]; intros Hn; [reflexivity|]; cbn [assoc map fst In] in *.
  destruct (beq_case k' k) as [[-> _]|[_ ->]]; [exfalso; apply Hn; left; reflexivity|]. apply IH; tauto.
Qed.
Lemma assoc_perm {A} k (ps qs : list (bytes * A)) : NoDup (map fst ps) -> Permutation ps qs -> assoc k ps = assoc k qs.
Proof.
  intros Hn Hp.
  assert (Hn' : NoDup (map fst qs)) by (eapply Permutation_NoDup; [apply Permutation_map; eassumption|assumption]).
  destruct (in_dec (list_eq_dec ascii_dec) k (map fst ps)) as [Hi|Hi].
  - apply in_map_iff in Hi; destruct Hi as ([k' l] & <- & Hi); cbn [fst].
    rewrite (assoc_in k' ps l Hn Hi). symmetry; apply assoc_in; [assumption|]. eapply Permutation_in; eassumption.
  - rewrite !assoc_out; auto. intros Hi'; apply Hi. eapply Permutation_in; [|exact Hi'].
    apply Permutation_map; symmetry; assumption.
Qed.
Lemma assoc_map {A B} (f : A -> B) k (ps : list (bytes * A)) :
  assoc k (map (fun kl => (fst kl, f (snd kl))) ps) = option_map f (assoc k ps).
Proof.
  induction ps as [|[k' l] ps IH]; [reflexivity|]; cbn [map assoc fst snd option_map].
  destruct (beq k' k); [reflexivity|assumption].
Qed.

Lemma assoc_sorted k ps : NoDup (map fst ps) -> assoc k (sorted_params ps) = option_map (map sorted_param) (assoc k ps).
Proof.
  intros Hn. unfold sorted_params. rewrite assoc_map. f_equal. apply assoc_perm; [|apply sort_perm].
  eapply Permutation_NoDup; [apply Permutation_map; symmetry; apply sort_perm|assumption].
Qed.

Lemma del_keys key ps k : In k (map fst (del_param key ps)) -> In k (map fst ps) /\ k <> key.
Proof.
  induction ps as [|[k' l] ps IH]; cbn [del_param map fst In]; [tauto|].
  destruct (beq_case k' key) as [[-> ->]|[Hn ->]]; cbn [map fst In].
  - intro H; apply IH in H; tauto.
  - intros [<-|H]; [tauto|apply IH in H; tauto].
Qed.
Lemma del_NoDup key ps : NoDup (map fst ps) -> NoDup (map fst (del_param key ps)).
Proof.
  induction ps as [|[k' l] ps IH]; cbn [del_param map fst]; intros H; [constructor|]. inversion H; subst.
  destruct (beq k' key); [auto|]. cbn [map fst]. constructor; [|auto]. intro Hi; apply del_keys in Hi; tauto.
Qed.
Lemma del_Forall (P : bytes * list param -> Prop) key ps : Forall P ps -> Forall P (del_param key ps).
Proof.
  induction 1 as [|[k l] ps Hx H IH]; cbn [del_param]; [constructor|]. destruct (beq k key); auto.
Qed.
Lemma assoc_del key ps : assoc key (del_param key ps) = None.
Proof.
  induction ps as [|[k' l] ps IH]; [reflexivity|]; cbn [del_param]. destruct (beq k' key) eqn:E; [assumption|].
  cbn [assoc]. rewrite E. assumption.
Qed.
Lemma assoc_del_other key k ps : k <> key -> assoc k (del_param key ps) = assoc k ps.
Proof.
  intros Hk. induction ps as [|[k' l] ps IH]; [reflexivity|]; cbn [del_param assoc].
  destruct (beq_case k' key) as [[-> ->]|[Hn ->]].
  - rewrite IH. destruct (beq_case key k) as [[-> _]|[_ ->]]; [congruence|reflexivity].
  - cbn [assoc]. rewrite IH. reflexivity.
Qed.
Lemma add_absent key p ps : assoc key ps = None -> add_param key p ps = ps ++ [(key, [p])].
Proof.
  induction ps as [|[k' l] ps IH]; intros H; [reflexivity|]; cbn [add_param assoc app] in *.
  destruct (beq k' key); [discriminate|]. rewrite IH by assumption. reflexivity.
Qed.
Lemma assoc_app {A} k (ps qs : list (bytes * A)) : assoc k (ps ++ qs) = match assoc k ps with Some l => Some l | None => assoc k qs end.
Proof. induction ps as [|[k' l] ps IH]; [reflexivity|]; cbn [app assoc]. destruct (beq k' k); [reflexivity|assumption]. Qed.

(** ** The VALUE parameter. *)
Definition vname (name : bytes) (v : value) : option bytes :=
  let dflt := assoc (upper name) default_types in
  let actual := match assoc (upper name) specials with Some _ => dflt | None => Some (value_type v) end in
  if match dflt, actual with Some d, Some a => negb (veqb d a) | None, _ => true | Some _, None => true end then
    match actual with
    | Some a => match type_name a with
                | Some n => if match dflt with Some _ => true | None => negb (veqb a T_TEXT) end then Some n else None
                | None => None
                end
    | None => None
    end
  else None.
Lemma setup_eq name ps v : setupValueParameter name ps (Some v) =
  del_param (lit "VALUE") ps ++ match vname name v with Some n => [(lit "VALUE", [(lit "VALUE", [n])])] | None => [] end.
Proof.
  unfold setupValueParameter, vname. cbv zeta.
  assert (H : forall p, add_param (lit "VALUE") p (del_param (lit "VALUE") ps) = del_param (lit "VALUE") ps ++ [(lit "VALUE", [p])])
    by (intro p; apply add_absent, assoc_del).
  repeat match goal with
  | |- context [if ?b then _ else _] => destruct b
  | |- context [match ?b with Some _ => _ | None => _ end] => destruct b
  end; rewrite ?app_nil_r; try reflexivity; apply H.
Qed.

Lemma veqb_spec a b : veqb a b = true <-> a = b.
Proof. destruct a, b; cbn; split; congruence. Qed.
Lemma type_name_back a n : type_name a = Some n -> a <> T_GEO -> a <> T_REQUEST_STATUS -> assoc n value_types = Some a.
Proof. destruct a; cbn [type_name]; intros [= <-]; try congruence; reflexivity. Qed.

Lemma default_not_unknown k : assoc k default_types <> Some T_UNKNOWN /\ assoc k default_types <> Some T_GEO /\
  assoc k default_types <> Some T_REQUEST_STATUS.
Proof.
  assert (H : Forall (fun e => snd e <> T_UNKNOWN /\ snd e <> T_GEO /\ snd e <> T_REQUEST_STATUS) default_types)
    by (unfold default_types; repeat (constructor; [cbn; repeat split; discriminate|]); constructor).
  induction H as [|[k' t] l Hx Hl IH]; cbn [assoc]; [repeat split; discriminate|].
  destruct (beq k' k); [|assumption]. cbn in Hx. repeat split; intros [= ->]; tauto.
Qed.

Lemma value_read name ps v : NoDup (map fst ps) ->
  assoc (lit "VALUE") (sorted_params (setupValueParameter name ps (Some v))) =
  option_map (fun n => [(lit "VALUE", [n])]) (vname name v).
Proof.
  intros Hn. rewrite setup_eq.
  rewrite assoc_sorted.
  - rewrite assoc_app, assoc_del. destruct (vname name v); reflexivity.
  - rewrite map_app. destruct (vname name v); cbn [map fst].
    + eapply Permutation_NoDup; [apply Permutation_cons_append|]. constructor; [|apply del_NoDup; assumption].
      intro H. apply del_keys in H. tauto.
    + rewrite app_nil_r. apply del_NoDup; assumption.
Qed.

Lemma specials_assoc n : assoc n specials =
  if beq (lit "GEO") n then Some T_GEO else if beq (lit "REQUEST-STATUS") n then Some T_REQUEST_STATUS else None.
Proof. reflexivity. Qed.

Lemma assoc_some {A} k (ps : list (bytes * A)) l : assoc k ps = Some l -> In (k, l) ps.
Proof.
  induction ps as [|[k' l'] ps IH]; [discriminate|]; cbn [assoc]. destruct (beq_case k' k) as [[-> ->]|[_ ->]].
  - intros [= ->]. left; reflexivity.
  - intro H; right; auto.
Qed.
Lemma default_spec k t : assoc k default_types = Some t <-> In k (names_with t).
Proof.
  split.
  - intro H. apply assoc_some in H.
    assert (F : Forall (fun e => existsb (beq (fst e)) (names_with (snd e)) = true) default_types)
      by (apply Forall_forall, forallb_forall; vm_compute; reflexivity).
    rewrite Forall_forall in F. specialize (F _ H). apply existsb_exists in F. destruct F as (x & I & E).
    destruct (beq_case k x) as [[-> _]|[_ E']]; [assumption|]. cbn [fst] in E. congruence.
  - destruct t; cbn [names_with In]; intro H; try contradiction;
      repeat (destruct H as [<-|H]; [vm_compute; reflexivity|]); contradiction.
Qed.
Lemma default_none k : assoc k default_types = None <-> forall t, ~ In k (names_with t).
Proof.
  split.
  - intros H t I. apply default_spec in I. congruence.
  - intro H. destruct (assoc k default_types) as [t|] eqn:E; [|reflexivity]. apply default_spec in E. destruct (H t E).
Qed.

Lemma type_read name ps v : NoDup (map fst ps) -> type_kept name v ->
  determineValueType name (sorted_params (setupValueParameter name ps (Some v))) = Ok (value_type v).
Proof.
  intros Hn (_ & Hg & Hs & Hd & Hu). unfold determineValueType. cbv zeta. rewrite value_read by assumption.
  unfold vname. rewrite specials_assoc.
  destruct (beq_case (lit "GEO") (upper name)) as [[E ->]|[Eg ->]].
  { rewrite <- E. assert (value_type v = T_GEO) as -> by (apply Hg; auto). reflexivity. }
  destruct (beq_case (lit "REQUEST-STATUS") (upper name)) as [[E ->]|[Es ->]].
  { rewrite <- E. assert (value_type v = T_REQUEST_STATUS) as -> by (apply Hs; auto). reflexivity. }
  assert (Hg' : value_type v <> T_GEO) by (intro H; apply Eg; symmetry; apply Hg; assumption).
  assert (Hs' : value_type v <> T_REQUEST_STATUS) by (intro H; apply Es; symmetry; apply Hs; assumption).
  cbv zeta.
  destruct (assoc (upper name) default_types) as [d|] eqn:Ed.
  - destruct (veqb d (value_type v)) eqn:Ev; cbn [negb].
    + apply veqb_spec in Ev; subst. reflexivity.
    + destruct (type_name (value_type v)) as [n|] eqn:En.
      * cbn [option_map first_value rbind]. rewrite (type_name_back _ _ En Hg' Hs'). reflexivity.
      * exfalso. destruct (value_type v); try discriminate. apply default_spec in Ed. apply Hd; eauto.
  - destruct (type_name (value_type v)) as [n|] eqn:En.
    + destruct (veqb (value_type v) T_TEXT) eqn:Et; [apply veqb_spec in Et; destruct (Hu (proj1 (default_none _) Ed) Et)|].
      cbn [negb option_map first_value rbind]. rewrite (type_name_back _ _ En Hg' Hs'). reflexivity.
    + cbn [option_map rbind]. destruct (value_type v); try discriminate. reflexivity.
Qed.

(** ** The parameters of the line. *)
Lemma value_name_ok n a : type_name a = Some n -> param_ok (lit "VALUE") (lit "VALUE", [n]).
Proof.
  intro H. unfold param_ok; cbn [fst snd]. split; [reflexivity|]. split; [split; discriminate|].
  split; [cbn; intuition discriminate|]. split; [discriminate|]. constructor; [|constructor].
  unfold value_ok, needs_quotes.
  destruct a; cbn in H; try discriminate; injection H as <-; cbn; (split; [intros [?|[?|?]]; intuition discriminate|split; [discriminate|intuition discriminate]]).
Qed.
Lemma vname_ok name v n : vname name v = Some n -> exists a, type_name a = Some n.
Proof.
  unfold vname. cbv zeta. intro H.
  destruct (assoc (upper name) default_types) as [d|], (assoc (upper name) specials) as [sp|]; cbv beta iota in H;
    try discriminate.
  - destruct (negb (veqb d d)); [|discriminate]. destruct (type_name d) eqn:E; [|discriminate]. injection H as <-; eauto.
  - destruct (negb (veqb d (value_type v))); [|discriminate]. destruct (type_name (value_type v)) eqn:E; [|discriminate].
    injection H as <-; eauto.
  - destruct (type_name (value_type v)) eqn:E; [|discriminate]. destruct (negb _); [|discriminate]. injection H as <-; eauto.
Qed.
Lemma setup_params_ok name ps v : params_ok ps -> params_ok (setupValueParameter name ps (Some v)).
Proof.
  intros [H1 H2]. rewrite setup_eq. split.
  - rewrite map_app. destruct (vname name v); cbn [map fst].
    + eapply Permutation_NoDup; [apply Permutation_cons_append|]. constructor; [|apply del_NoDup; assumption].
      intro H. apply del_keys in H. tauto.
    + rewrite app_nil_r. apply del_NoDup; assumption.
  - apply Forall_app. split; [apply del_Forall; assumption|].
    destruct (vname name v) as [n|] eqn:E; [|constructor]. constructor; [|constructor]. cbn [fst snd].
    split; [discriminate|]. constructor; [|constructor]. destruct (vname_ok _ _ _ E) as [a Ha]. eapply value_name_ok; eauto.
Qed.
Lemma lookup_setup name ps v k : k <> lit "VALUE" -> lookup k (setupValueParameter name ps (Some v)) = lookup k ps.
Proof.
  intros Hk. rewrite !assoc_lookup, setup_eq, assoc_app, assoc_del_other by assumption.
  destruct (assoc k ps) as [l|]; [reflexivity|]. destruct (vname name v); [|reflexivity]. cbn [assoc].
  destruct (beq_case (lit "VALUE") k) as [[E _]|[_ ->]]; [congruence|reflexivity].
Qed.
